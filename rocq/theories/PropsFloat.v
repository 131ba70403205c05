(** Property C69: the numbers of a glTF document as text. *)
From Coq Require Import QArith Qabs.
From Verif Require Import Base BaseFacts Types Doc F64 SpecText SpecJson JsonText JsonTextProofs Codec CodecProofs CodecInv SpecJsonDoc Marshal SpecMarshal
  SpecExt SpecSchema SpecMeaning PropsJson PropsSchema PropsMeaning
  Strconv StrconvRound StrconvShort SpecDecimal StrconvValue StrconvText StrconvFormat.
Local Open Scope Z_scope.

(** ** Reading: the nearest float64 *)
Theorem C69_read_partial : forall lit neg v, denotes (str_bytes lit) neg v -> Z.of_nat (String.length lit) < 9000 ->
  (~ out_of_range v -> exists x, parse_float lit = Some x /\ nearest v x /\ f64_sign x = neg) /\
  (out_of_range v -> parse_float lit = None).
Proof.
  intros lit neg v (ds & E & L & V) N. destruct (literal_parse lit neg ds E L N) as [DS P]. rewrite P. cbv zeta.
  rewrite numeral_digits_val in V. pose proof (digits_val_bound ds DS) as [D0 _]. set (D := digits_val ds) in *. clearbody D.
  pose proof (round_dec_cell D E D0) as C. set (b := round_dec D E) in *. clearbody b.
  pose proof (round_in_range D E b D0 C) as R.
  assert (A : (Qabs v == Qabs (decimal D E))%Q).
  { rewrite V. unfold signed. destruct neg; [apply Qabs_opp|reflexivity]. }
  assert (O : out_of_range v <-> out_of_range (decimal D E)) by (unfold out_of_range; rewrite A; tauto).
  split.
  - intros NO. assert (B : b < f64_inf) by (apply R; rewrite <- O; exact NO).
    replace (b <? f64_inf) with true by lia. exists (with_sign neg b). split; [reflexivity|].
    assert (B0 : 0 <= b) by apply C. destruct (with_sign_ok neg b (conj B0 B)) as (_ & _ & S). split; [|exact S].
    destruct (cell_is_nearest D E neg b D0 B C) as [OK NR]. split; [exact OK|]. intros y Hy.
    specialize (NR y Hy). rewrite V. exact NR.
  - intros OR. destruct (b <? f64_inf) eqn:B; [|reflexivity]. exfalso.
    apply Z.ltb_lt in B. apply R in B. apply B. apply O. exact OR.
Qed.
Print Assumptions C69_read_partial.

(** The limit is needed: strconv stops reading the exponent once it reaches
    10000, so the number 1 written with 123456 decimals is read as 0. *)
Lemma long_one_read z : Forall digit z -> Z.of_nat (List.length z) = 123455 -> digits_val z = 0 ->
  denotes (str_bytes "0." ++ z ++ str_bytes "1e123456") false 1%Q /\
  parse_float (bytes_str (str_bytes "0." ++ z ++ str_bytes "1e123456")) = Some 0.
Proof.
  intros ZD ZL ZV.
  assert (OD : Forall digit (z ++ str_bytes "1")).
  { apply Forall_app. split; [exact ZD|]. constructor; [|constructor]. unfold digit. change (b2z "1"%char) with 49. lia. }
  assert (TD : Forall digit (str_bytes "123456")) by (repeat (constructor; [apply is_digit_iff; reflexivity|]); constructor).
  assert (Text : str_bytes "0." ++ z ++ str_bytes "1e123456" = [] ++ str_bytes "0" ++ ("."%char :: z ++ str_bytes "1") ++ ("e"%char :: [] ++ str_bytes "123456")).
  { cbn [app str_bytes list_ascii_of_string]. rewrite <- app_assoc. reflexivity. }
  split.
  - exists (str_bytes "0" ++ z ++ str_bytes "1"), (123456 - 123456). split.
    + exists (str_bytes "0"), (z ++ str_bytes "1"), ("."%char :: z ++ str_bytes "1"), ("e"%char :: [] ++ str_bytes "123456"), 123456.
      split; [exact Text|]. split; [reflexivity|]. split; [rewrite app_length, Nat2Z.inj_add, ZL; reflexivity|].
      split; [left; reflexivity|]. split.
      * right. split; [reflexivity|]. split; [intros X; apply app_eq_nil in X; destruct X; discriminate|exact OD].
      * right. exists "e"%char, [], (str_bytes "123456"). split; [reflexivity|]. split; [left; reflexivity|]. split; [discriminate|].
        split; [exact TD|]. left. split; [left; reflexivity|reflexivity].
    + rewrite numeral_digits_val, (digits_val_app (str_bytes "0")), (digits_val_app z), ZV. reflexivity.
  - unfold parse_float. rewrite str_bytes_bytes, Text.
    rewrite (read_float_ok false (str_bytes "0") (z ++ str_bytes "1") ("."%char :: z ++ str_bytes "1") ("e"%char :: [] ++ str_bytes "123456") 12345).
    + rewrite app_length, Nat2Z.inj_add, ZL.
      assert (SK : skip_zeros (str_bytes "0" ++ z ++ str_bytes "1") = str_bytes "1").
      { cbn [str_bytes list_ascii_of_string app]. cbn [skip_zeros]. change (b2z "0"%char =? 48) with true. cbv iota.
        clear - ZD ZV. induction ZD as [|b t Hb Ht IH]; [reflexivity|]. rewrite digits_val_cons in ZV. unfold digit in Hb.
        pose proof (digits_val_bound t Ht). pose proof (pow10_pos (Z.of_nat (List.length t)) ltac:(lia)).
        assert (b2z b - 48 = 0) by nia. cbn [app skip_zeros]. replace (b2z b =? 48) with true by lia. apply IH. nia. }
      rewrite SK. reflexivity.
    + discriminate.
    + constructor; [apply zero_digit|constructor].
    + right. split; [reflexivity|]. split; [intros X; apply app_eq_nil in X; destruct X; discriminate|exact OD].
    + right. exists "e"%char, [], (str_bytes "123456"). split; [reflexivity|]. split; [left; reflexivity|]. split; [discriminate|].
      split; [exact TD|]. left. split; [left; reflexivity|reflexivity].
Qed.
Lemma one_not_zero : ~ nearest 1 0.
Proof.
  intros [_ H]. destruct (H one) as [X _]; [split; [split; [discriminate|reflexivity]|reflexivity]|].
  assert (Y : (f64_value one == 1)%Q) by (vm_compute; reflexivity). rewrite Y in X. vm_compute in X. apply X. reflexivity.
Qed.
Theorem C69_read_refuted : exists lit, denotes (str_bytes lit) false 1%Q /\ parse_float lit = Some 0 /\ ~ nearest 1 0.
Proof.
  destruct (long_one_read (zeros 123455) (zeros_digits _) (zeros_length 123455 ltac:(lia)) (zeros_val 123455 ltac:(lia))) as [A B].
  exists (bytes_str (str_bytes "0." ++ zeros 123455 ++ str_bytes "1e123456")). rewrite str_bytes_bytes. split; [exact A|]. split; [exact B|exact one_not_zero].
Qed.
Print Assumptions C69_read_refuted.

(** ** Writing: a JSON number that reads back, with as few digits as any *)
Theorem C69_write : forall x, float_ok x -> json_number (str_bytes (fmt_float x)) /\ parse_float (fmt_float x) = Some x.
Proof.
  intros x Hx. destruct (fmt_float_ok x Hx) as (ds & E & L & _). split; [exact (literal_number _ _ _ _ L)|apply parse_fmt_float; exact Hx].
Qed.
Print Assumptions C69_write.

Lemma fewest b D k D' k' n : 0 < b < f64_inf -> shortest b = (D, k) -> 0 < D' -> round_dec D' k' = b -> 0 <= n -> D' < 10 ^ n -> D < 10 ^ n.
Proof.
  intros Hb S HD' R' Hn LT. destruct (shortest_ok b ltac:(lia) ltac:(lia)) as (D0 & k0 & S0 & R & HD & _ & MX & _).
  rewrite S in S0. injection S0 as <- <-. destruct (Z_lt_le_dec D (10 ^ n)) as [|G]; [assumption|exfalso].
  pose proof (MX D' k' HD' R') as K.
  (* 10^(n+k) lies between the two decimals and the float64 *)
  assert (RP : round_dec 1 (n + k) = b).
  { apply round_dec_unique; [lia|]. pose proof (round_dec_cell D' k' ltac:(lia)) as C'. rewrite R' in C'. pose proof (round_dec_cell D k ltac:(lia)) as C. rewrite R in C.
    apply (cell_between (dnum D' k') (dden k') _ _ (dnum D k) (dden k)); try apply dden_pos; try assumption.
    - unfold dnum, dden. set (T := two1074). assert (T0 : 0 < T) by apply two1074_pos. clearbody T.
      assert (X : 10 ^ n * 10 ^ Z.max 0 k' * 10 ^ Z.max 0 (- (n + k)) <= 10 ^ Z.max 0 (n + k) * 10 ^ Z.max 0 (- k')).
      { rewrite <- !Z.pow_add_r by lia. apply pow10_mono. lia. }
      pose proof (pow10_pos (Z.max 0 k') ltac:(lia)). pose proof (pow10_pos (Z.max 0 (- (n + k))) ltac:(lia)).
      set (p := 10 ^ Z.max 0 k') in *. set (q := 10 ^ Z.max 0 (- (n + k))) in *. set (u := 10 ^ Z.max 0 (n + k)) in *. set (w := 10 ^ Z.max 0 (- k')) in *. clearbody p q u w.
      set (N := 10 ^ n) in *. clearbody N. clear - LT X H H0 T0 HD'.
      assert (Y : D' * (p * q) <= N * (p * q)) by (apply Z.mul_le_mono_nonneg_r; nia).
      assert (Z : D' * (p * q) <= u * w) by lia.
      assert (W : D' * (p * q) * T <= u * w * T) by (apply Z.mul_le_mono_nonneg_r; lia). lia.
    - unfold dnum, dden. set (T := two1074). assert (T0 : 0 < T) by apply two1074_pos. clearbody T.
      assert (X : 10 ^ Z.max 0 (n + k) * 10 ^ Z.max 0 (- k) = 10 ^ n * 10 ^ Z.max 0 k * 10 ^ Z.max 0 (- (n + k))).
      { rewrite <- !Z.pow_add_r by lia. f_equal. lia. }
      pose proof (pow10_pos (Z.max 0 k) ltac:(lia)). pose proof (pow10_pos (Z.max 0 (- (n + k))) ltac:(lia)).
      set (p := 10 ^ Z.max 0 k) in *. set (q := 10 ^ Z.max 0 (- (n + k))) in *. set (u := 10 ^ Z.max 0 (n + k)) in *. set (w := 10 ^ Z.max 0 (- k)) in *. clearbody p q u w.
      set (N := 10 ^ n) in *. clearbody N. clear - G X H H0 T0.
      assert (Y : N * (p * q) <= D * (p * q)) by (apply Z.mul_le_mono_nonneg_r; nia).
      assert (Z : u * w * T <= D * (p * q) * T) by (apply Z.mul_le_mono_nonneg_r; lia). lia. }
  pose proof (MX 1 (n + k) ltac:(lia) RP) as M. assert (n = 0) by lia. subst n. change (10 ^ 0) with 1 in LT. lia.
Qed.

Theorem C69_shortest : forall x, float_ok x -> ~ (f64_value x == 0)%Q ->
  exists D k, written (str_bytes (fmt_float x)) (f64_sign x) D k /\
    forall lit neg D' k', written (str_bytes lit) neg D' k' -> Z.of_nat (String.length lit) < 9000 -> parse_float lit = Some x ->
      (forall n, 0 <= n -> D' < 10 ^ n -> D < 10 ^ n) /\
      (k' = k -> (Qabs (decimal D k - Qabs (f64_value x)) <= Qabs (decimal D' k - Qabs (f64_value x)))%Q).
Proof.
  intros x Hx NZ. pose proof (mag_ok x Hx) as M.
  assert (B0 : 0 < mag x).
  { destruct (Z.eq_dec (mag x) 0) as [Z0|]; [|lia]. exfalso. apply NZ. rewrite (value_over x 0 Hx), Z0, sval_0.
    replace (sgn (is_neg x) * 0 * dden 0) with 0 by lia. reflexivity. }
  destruct (shortest_ok (mag x) B0 ltac:(lia)) as (D & k & S & R & HD & _ & MX & CL).
  exists D, k. split.
  - destruct (fmt_mag_ok (is_neg x) (mag x) ltac:(lia)) as (D1 & k1 & ds & E & j & S1 & L & J & EJ & V & _). rewrite S in S1. injection S1 as <- <-.
    rewrite fmt_float_text. exists ds, E, j. split; [exact L|]. split; [exact J|]. split; [exact EJ|]. rewrite numeral_digits_val. exact V.
  - intros lit neg D' k' (ds & E & j & L & J & EJ & V) N P. destruct (literal_parse lit neg ds E L N) as [DS PE].
    rewrite P in PE. cbv zeta in PE. rewrite numeral_digits_val in V. pose proof (digits_val_bound ds DS) as [V0 _].
    destruct (round_dec (digits_val ds) E <? f64_inf) eqn:I; [|discriminate]. apply Z.ltb_lt in I. injection PE as PE.
    pose proof (round_dec_cell (digits_val ds) E V0) as C.
    assert (RB : round_dec (digits_val ds) E = mag x).
    { destruct (with_sign_ok neg (round_dec (digits_val ds) E)) as (_ & MM & _); [split; [apply C|exact I]|]. rewrite <- PE in MM. symmetry. exact MM. }
    pose proof (pow10_pos j J) as PJ. assert (D0 : 0 <= D') by nia.
    rewrite V, round_dec_shift, EJ in RB by assumption.
    assert (D1 : 0 < D') by (destruct (Z.eq_dec D' 0) as [Z0|]; [rewrite Z0, round_dec_0 in RB|]; lia).
    split.
    + intros n Hn LT. apply (fewest (mag x) D k D' k' n); try assumption. lia.
    + intros ->. specialize (CL D' D0 RB).
      assert (Ax : (Qabs (f64_value x) == over (sval (mag x) * dden k) (common k))%Q).
      { rewrite (value_over x k Hx), over_abs. apply over_eq. pose proof (sval_nonneg (mag x) ltac:(lia)). pose proof (dden_pos k).
        assert (0 <= sval (mag x) * dden k) by nia. unfold sgn. destruct (is_neg x); lia. }
      assert (Ad : forall D, (decimal D k == over (dnum D k) (common k))%Q).
      { intros D2. pose proof (decimal_over D2 k false) as Q. cbn [signed sgn] in Q. rewrite Q. apply over_eq. lia. }
      rewrite Ax, !Ad, !over_diff, over_le. exact CL.
Qed.
Print Assumptions C69_shortest.

(** ** What the other properties assume about numbers holds of strconv *)
Lemma span_digits_digits l : Forall digit (fst (span_digits l)).
Proof.
  induction l as [|b t IH]; cbn [span_digits]; [constructor|]. destruct (is_digit b) eqn:E; [|constructor].
  destruct (span_digits t) as [x y]. constructor; [apply is_digit_iff; exact E|exact IH].
Qed.
Lemma read_float_digits l neg ds E : read_float l = Some (neg, ds, E) -> Forall digit ds.
Proof.
  unfold read_float. destruct (match l with "-"%char :: t => (true, t) | _ => (false, l) end) as [n l1].
  pose proof (span_digits_digits l1) as F1. destruct (span_digits l1) as [ip l2]. cbn [fst] in F1.
  set (f := match l2 with "."%char :: t => span_digits t | _ => ([], l2) end).
  assert (F2 : Forall digit (fst f)).
  { unfold f. destruct l2 as [|[[] [] [] [] [] [] [] []] t]; try constructor. apply span_digits_digits. }
  destruct f as [fp l3]. cbn [fst] in F2.
  assert (F : Forall digit (ip ++ fp)) by (apply Forall_app; split; assumption).
  destruct (List.length (ip ++ fp) =? 0)%nat; [discriminate|].
  destruct l3 as [|c t]; [intros [= _ <- _]; exact F|]. destruct (_ || _); [|discriminate].
  destruct (match t with "+"%char :: t0 => (1, t0) | "-"%char :: t0 => (-1, t0) | _ => (1, t) end) as [sg t1].
  destruct (span_digits t1) as [[|e ep] [|r rs]]; try discriminate. intros [= _ <- _]. exact F.
Qed.

Theorem C69_contracts : float_contract go_floats /\ parse_contract go_floats /\ float_text go_floats.
Proof.
  split; [exact C69_write|]. split; [|split; [reflexivity|split; [reflexivity|vm_compute; reflexivity]]].
  intros s f. cbn [parse64 go_floats]. intros P. destruct (read_float (str_bytes s)) as [[[neg ds] E]|] eqn:R.
  - pose proof (read_float_digits _ _ _ _ R) as F. rewrite (parse_core s neg ds E R F) in P. cbv zeta in P.
    destruct (round_dec (digits_val ds) E <? f64_inf) eqn:I; [|discriminate]. injection P as <-. apply with_sign_ok.
    split; [|lia]. apply (round_dec_cell (digits_val ds) E). apply digits_val_bound. exact F.
  - unfold parse_float in P. rewrite R in P. discriminate.
Qed.
Print Assumptions C69_contracts.

(** Decoding uses these numbers: a document and the text Encode writes for it
    are related by the glTF meaning (C67) with every number of the text
    standing for the nearest float64. *)
Theorem C69_document : forall X n asBinary prefix indent d,
  wf_Document X n d -> ready d -> ws prefix -> ws indent ->
  exists text v, marshalJSONDoc go_floats X asBinary prefix indent d = Ok text /\ text_of v text /\
    m_gltf go_floats X (norm_Document X (embedded asBinary d)) v.
Proof. intros X n asBinary prefix indent d. apply C67_written. apply C69_contracts. Qed.
Print Assumptions C69_document.
Theorem C69_number : forall x j neg v, m_num go_floats x j ->
  forall lit, j = JNum lit -> denotes (str_bytes lit) neg v -> Z.of_nat (String.length lit) < 9000 -> nearest v x /\ f64_sign x = neg.
Proof.
  intros x j neg v (lit & -> & P) lit' [= <-] D N. cbn [parse64 go_floats] in P. destruct (C69_read_partial lit neg v D N) as [A B].
  destruct (Qlt_le_dec (Qabs v) (inject_Z (2 ^ 1024 - 2 ^ 970))) as [L|L].
  - destruct A as (y & P' & R); [intros O; apply Qle_not_lt in O; contradiction|]. rewrite P in P'. injection P' as <-. exact R.
  - rewrite (B L) in P. discriminate.
Qed.
Print Assumptions C69_number.

(** ** Cases *)
Example C69_texts : map fmt_float [0; 0x3FF0000000000000; 0xBFB999999999999A; 1] = ["0"; "1"; "-0.1"; "5e-324"]%string.
Proof. vm_compute. reflexivity. Qed.
Example C69_parsed : map parse_float ["0.1"; "1E2"; "-0"; "1e-400"; "1e400"]%string = [Some 0x3FB999999999999A; Some 0x4059000000000000; Some neg_zero; Some 0; None].
Proof. vm_compute. reflexivity. Qed.
Lemma tenth_literal : literal (str_bytes "0.1") false (str_bytes "01") (-1).
Proof.
  exists (str_bytes "0"), (str_bytes "1"), (str_bytes ".1"), [], 0. split; [reflexivity|]. split; [reflexivity|]. split; [reflexivity|].
  split; [left; reflexivity|]. split; [right|left; split; reflexivity]. split; [reflexivity|]. split; [discriminate|].
  constructor; [apply is_digit_iff; reflexivity|constructor].
Qed.
(** 0.1 is not a float64; the nearest one is read. *)
Example C69_read_case : exists x, parse_float "0.1" = Some x /\ nearest (1 # 10) x /\ f64_sign x = false /\ ~ (f64_value x == 1 # 10)%Q.
Proof.
  destruct (C69_read_partial "0.1" false (1 # 10)) as [A _]; [|reflexivity|].
  - exists (str_bytes "01"), (-1). split; [exact tenth_literal|reflexivity].
  - destruct A as (x & P & N & S); [vm_compute; congruence|]. exists x. split; [exact P|]. split; [exact N|]. split; [exact S|].
    assert (Q : parse_float "0.1" = Some 0x3FB999999999999A) by (vm_compute; reflexivity). rewrite Q in P. injection P as <-. vm_compute. discriminate.
Qed.
Example C69_shortest_case : exists D k, written (str_bytes (fmt_float 0x3FB999999999999A)) (f64_sign 0x3FB999999999999A) D k /\ D < 10.
Proof.
  destruct (C69_shortest 0x3FB999999999999A) as (D & k & W & M).
  - split; [split; [discriminate|reflexivity]|reflexivity].
  - vm_compute. discriminate.
  - exists D, k. split; [exact W|]. destruct (M "0.1"%string false 1 (-1)) as [F _].
    + exists (str_bytes "01"), (-1), 0. split; [exact tenth_literal|]. split; [lia|]. split; reflexivity.
    + reflexivity.
    + vm_compute. reflexivity.
    + apply (F 1); lia.
Qed.
Example C69_document_case : exists text v, marshalJSONDoc go_floats sample_exts false [] (str_bytes "  ") scene_doc = Ok text /\ text_of v text /\
  m_gltf go_floats sample_exts (norm_Document sample_exts (embedded false scene_doc)) v.
Proof. apply (C69_document sample_exts 0); [exact scene_doc_wf|exact scene_doc_ready|constructor|repeat constructor]. Qed.
