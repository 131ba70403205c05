(** Reading and writing number texts in [Strconv]. *)
From Coq Require Import QArith Qabs.
From Verif Require Import Base BaseFacts F64 SpecText SpecJson JsonText JsonTextProofs Codec CodecProofs Strconv StrconvRound StrconvShort SpecDecimal StrconvValue.
Local Open Scope Z_scope.

(** ** Digits *)
Lemma digits_val_cons b t : digits_val (b :: t) = (b2z b - 48) * 10 ^ Z.of_nat (List.length t) + digits_val t.
Proof.
  unfold digits_val. cbn [fold_left].
  assert (G : forall l a, fold_left (fun a d => 10 * a + (b2z d - 48)) l a = a * 10 ^ Z.of_nat (List.length l) + fold_left (fun a d => 10 * a + (b2z d - 48)) l 0).
  { induction l as [|c l IH]; intros a; [cbn; lia|]. cbn [fold_left List.length]. rewrite IH. rewrite (IH (10 * 0 + _)).
    rewrite Nat2Z.inj_succ, Z.pow_succ_r by lia. ring. }
  rewrite G. f_equal.
Qed.
Lemma numeral_digits_val l : numeral_value l = digits_val l.
Proof. induction l as [|b t IH]; [reflexivity|]. rewrite digits_val_cons. cbn [numeral_value]. rewrite IH. reflexivity. Qed.
Lemma digits_val_app l r : digits_val (l ++ r) = digits_val l * 10 ^ Z.of_nat (List.length r) + digits_val r.
Proof.
  induction l as [|b t IH]; [cbn; reflexivity|]. cbn [app]. rewrite !digits_val_cons, IH, app_length, Nat2Z.inj_add.
  rewrite Z.pow_add_r by lia. ring.
Qed.
Lemma digits_val_bound l : Forall digit l -> 0 <= digits_val l < 10 ^ Z.of_nat (List.length l).
Proof.
  induction 1 as [|b t Hb Ht IH]; [cbn; lia|]. rewrite digits_val_cons. cbn [List.length]. unfold digit in Hb.
  rewrite Nat2Z.inj_succ, Z.pow_succ_r by lia. nia.
Qed.
Lemma digits_val_lead b t : Forall digit t -> 49 <= b2z b <= 57 -> 10 ^ Z.of_nat (List.length t) <= digits_val (b :: t).
Proof. intros Ht Hb. rewrite digits_val_cons. pose proof (digits_val_bound t Ht). pose proof (pow10_pos (Z.of_nat (List.length t)) ltac:(lia)). nia. Qed.
Lemma digits_val_zeros n l : digits_val (repeat "0"%char n ++ l) = digits_val l.
Proof. induction n as [|n IH]; [reflexivity|]. cbn [repeat app]. rewrite digits_val_cons, IH. change (b2z "0"%char) with 48. lia. Qed.
Lemma zeros_val n : 0 <= n -> digits_val (zeros n) = 0.
Proof. intros H. unfold zeros. rewrite <- (app_nil_r (repeat _ _)), digits_val_zeros. reflexivity. Qed.
Lemma zeros_length n : 0 <= n -> Z.of_nat (List.length (zeros n)) = n.
Proof. intros H. unfold zeros. rewrite repeat_length. lia. Qed.
Lemma zero_digit : digit "0"%char. Proof. unfold digit. change (b2z "0"%char) with 48. lia. Qed.
Lemma zeros_digits n : Forall digit (zeros n).
Proof. apply Forall_forall. intros x Hx. apply repeat_spec in Hx. subst. apply zero_digit. Qed.

Lemma skip_zeros_ok l : Forall digit l -> digits_val (skip_zeros l) = digits_val l /\ Forall digit (skip_zeros l) /\
  (List.length (skip_zeros l) <= List.length l)%nat /\
  (skip_zeros l = [] \/ exists b t, skip_zeros l = b :: t /\ 49 <= b2z b <= 57).
Proof.
  induction 1 as [|b t Hb Ht IH]; cbn [skip_zeros].
  - repeat split; auto.
  - destruct (b2z b =? 48) eqn:E.
    + destruct IH as (A & B & C & D). rewrite digits_val_cons. split; [rewrite A; lia|]. split; [exact B|]. split; [cbn; lia|exact D].
    + split; [reflexivity|]. split; [constructor; assumption|]. split; [lia|]. right. exists b, t. split; [reflexivity|]. unfold digit in Hb. lia.
Qed.

(** ** The early exits of ParseFloat change nothing *)
Lemma round_dec_0 E : round_dec 0 E = 0.
Proof.
  apply round_dec_unique; [lia|]. unfold cell. replace (dnum 0 E) with 0 by (unfold dnum; ring). pose proof (dden_pos E).
  change (sval (0 + 1)) with 1. rewrite sval_0. split; [lia|]. split; [lia|]. split; [lia|discriminate].
Qed.
Lemma ten_minus : 2 ^ 1075 < 10 ^ 330. Proof. reflexivity. Qed.
Lemma ten_plus : 2 ^ 1024 < 10 ^ 310. Proof. reflexivity. Qed.
Lemma round_dec_tiny D E nd : 0 <= D < 10 ^ nd -> 0 <= nd -> nd + E < -330 -> round_dec D E = 0.
Proof.
  intros HD Hn L. apply round_dec_unique; [lia|]. unfold cell. change (sval (0 + 1)) with 1. rewrite sval_0.
  split; [lia|]. split; [lia|]. split; [|discriminate]. unfold dnum, dden.
  replace (Z.max 0 E) with 0 by lia. change (10 ^ 0) with 1.
  assert (X : 10 ^ nd * 10 ^ 330 <= 10 ^ Z.max 0 (- E)) by (rewrite <- Z.pow_add_r by lia; apply pow10_mono; lia).
  pose proof ten_minus as T. assert (TT : 2 ^ 1075 = 2 * two1074) by (vm_compute; reflexivity). rewrite TT in T. clear TT.
  pose proof two1074_pos. pose proof (pow10_pos nd Hn). set (a := 10 ^ nd) in *. set (c := 10 ^ 330) in *. clearbody a c.
  set (w := 10 ^ Z.max 0 (- E)) in *. clearbody w. nia.
Qed.
Lemma round_dec_huge D E nd : 10 ^ (nd - 1) <= D -> 1 <= nd -> 310 < nd + E -> f64_inf <= round_dec D E.
Proof.
  intros HD Hn L. assert (D0 : 0 < D) by (pose proof (pow10_pos (nd - 1) ltac:(lia)); lia).
  pose proof (round_dec_cell D E ltac:(lia)) as C.
  destruct (Z_lt_le_dec (round_dec D E) f64_inf) as [B|]; [|assumption]. exfalso.
  destruct C as (B0 & _ & U & _). set (b := round_dec D E) in *. clearbody b.
  pose proof (sval_lt b f64_inf ltac:(lia)) as X1. pose proof (sval_le (b + 1) f64_inf ltac:(lia)) as X2.
  assert (SI : sval f64_inf = 2 ^ 1024 * two1074) by (vm_compute; reflexivity). rewrite SI in *.
  assert (G : 10 ^ 310 * dden E <= D * 10 ^ Z.max 0 E).
  { unfold dden. transitivity (10 ^ (nd - 1) * 10 ^ Z.max 0 E).
    - rewrite <- !Z.pow_add_r by lia. apply pow10_mono. lia.
    - apply Z.mul_le_mono_nonneg_r; [apply Z.pow_nonneg; lia|exact HD]. }
  pose proof ten_plus as T. pose proof two1074_pos as T0. pose proof (dden_pos E) as D1. unfold dnum in U.
  set (a := 2 ^ 1024) in *. set (c := 10 ^ 310) in *. clearbody a c. set (w := D * 10 ^ Z.max 0 E) in *. clearbody w.
  set (t := two1074) in *. clearbody t. set (d := dden E) in *. clearbody d. clear SI.
  assert (Y1 : (sval b + sval (b + 1)) * d <= 2 * (a * t) * d) by nia.
  assert (Y2 : c * d * t <= w * t) by (apply Z.mul_le_mono_nonneg_r; lia).
  assert (Y3 : a * (t * d) < c * (t * d)) by (apply Z.mul_lt_mono_pos_r; nia). lia.
Qed.
Lemma parse_core lit neg ds E : read_float (str_bytes lit) = Some (neg, ds, E) -> Forall digit ds ->
  parse_float lit = let b := round_dec (digits_val ds) E in if b <? f64_inf then Some (with_sign neg b) else None.
Proof.
  intros R F. unfold parse_float. rewrite R. cbv zeta. destruct (skip_zeros_ok ds F) as (V & F' & _ & H).
  rewrite <- V. set (s := skip_zeros ds) in *. clearbody s. clear V R.
  destruct H as [->|(b & t & -> & Hb)].
  - cbn [List.length Nat.eqb]. change (digits_val []) with 0. rewrite round_dec_0. reflexivity.
  - change (List.length (b :: t) =? 0)%nat with false. cbv iota. pose proof (digits_val_lead b t (Forall_inv_tail F') Hb) as LB.
    pose proof (digits_val_bound _ F') as UB.
    set (nd := Z.of_nat (List.length (b :: t))) in *.
    assert (N1 : Z.of_nat (List.length t) = nd - 1) by (unfold nd; cbn [List.length]; lia). rewrite N1 in LB.
    assert (N0 : 1 <= nd) by lia.
    destruct (310 <? nd + E) eqn:C1.
    + pose proof (round_dec_huge (digits_val (b :: t)) E nd LB N0 ltac:(lia)).
      replace (round_dec (digits_val (b :: t)) E <? f64_inf) with false by lia. reflexivity.
    + destruct (nd + E <? -330) eqn:C2; [|reflexivity].
      rewrite (round_dec_tiny (digits_val (b :: t)) E nd) by lia. reflexivity.
Qed.

(** ** readFloat on the texts of the grammar *)
Definition no_digit (r : bytes) : Prop := match r with [] => True | b :: _ => is_digit b = false end.
Lemma span_digits_app ds r : Forall digit ds -> no_digit r -> span_digits (ds ++ r) = (ds, r).
Proof.
  induction 1 as [|b t Hb Ht IH]; intros N; cbn [app].
  - destruct r as [|c r]; [reflexivity|]. cbn [span_digits]. cbn [no_digit] in N. rewrite N. reflexivity.
  - cbn [span_digits]. rewrite (proj2 (is_digit_iff b)) by exact Hb. rewrite IH by exact N. reflexivity.
Qed.
Definition exp_text (et : bytes) (e : Z) : Prop :=
  et = [] /\ e = 0 \/ exists c s t, et = c :: s ++ t /\ In c (str_bytes "eE") /\ t <> [] /\ Forall digit t /\
       ((s = [] \/ s = str_bytes "+") /\ e = exp_val t \/ s = str_bytes "-" /\ e = - exp_val t).
Lemma digit_char b : digit b -> In b (str_bytes "0123456789").
Proof.
  unfold digit. intros H. assert (E : b = z2b (48 + (b2z b - 48))) by (replace (48 + (b2z b - 48)) with (b2z b) by lia; symmetry; apply z2b_b2z).
  assert (B : 0 <= b2z b - 48 <= 9) by lia. set (v := b2z b - 48) in *. clearbody v. assert (V : v = 0 \/ v = 1 \/ v = 2 \/ v = 3 \/ v = 4 \/ v = 5 \/ v = 6 \/ v = 7 \/ v = 8 \/ v = 9) by lia.
  rewrite E. repeat (destruct V as [->|V]; [cbn; tauto|]). subst. cbn. tauto.
Qed.
Lemma digit_cases (P : byte -> Prop) : Forall P (str_bytes "0123456789") -> forall b, digit b -> P b.
Proof. intros H b Hb. rewrite Forall_forall in H. apply H, digit_char, Hb. Qed.

Lemma read_float_ok (neg : bool) (int frac ft et : bytes) (e : Z) :
  int <> [] -> Forall digit int ->
  (ft = [] /\ frac = [] \/ ft = "."%char :: frac /\ frac <> [] /\ Forall digit frac) -> exp_text et e ->
  read_float ((if neg then str_bytes "-" else []) ++ int ++ ft ++ et) = Some (neg, int ++ frac, e - Z.of_nat (List.length frac)).
Proof.
  intros I0 ID HF HE. unfold read_float.
  assert (S : (match (if neg then str_bytes "-" else []) ++ int ++ ft ++ et with "-"%char :: t => (true, t) | _ => (false, (if neg then str_bytes "-" else []) ++ int ++ ft ++ et) end)
              = (neg, int ++ ft ++ et)).
  { destruct neg; [reflexivity|]. destruct int as [|b t]; [contradiction|]. cbn [app]. pose proof (Forall_inv ID) as Hb. revert b Hb ID I0.
    intros b Hb _ _. revert b Hb. apply digit_cases. cbn. repeat (constructor; [reflexivity|]). constructor. }
  rewrite S. clear S.
  assert (NE : no_digit et).
  { destruct HE as [[-> _]|(c & s & t & -> & Ic & _)]; [exact I|]. cbn [no_digit]. cbn in Ic. destruct Ic as [<-|[<-|[]]]; reflexivity. }
  assert (NF : no_digit (ft ++ et)).
  { destruct HF as [[-> _]|[-> _]]; [exact NE|reflexivity]. }
  rewrite (span_digits_app int) by assumption.
  assert (F : (match ft ++ et with "."%char :: t => span_digits t | _ => ([], ft ++ et) end) = (frac, et)).
  { destruct HF as [[-> ->]|(-> & _ & FD)].
    - cbn [app]. destruct HE as [[-> _]|(c & s & t & -> & Ic & _)]; [reflexivity|]. cbn in Ic. destruct Ic as [<-|[<-|[]]]; reflexivity.
    - cbn [app]. apply span_digits_app; assumption. }
  rewrite F. clear F.
  replace (List.length (int ++ frac) =? 0)%nat with false by (destruct int; [contradiction|reflexivity]).
  destruct HE as [[-> ->]|(c & s & t & -> & Ic & T0 & TD & SS)]; [reflexivity|].
  replace ((b2z c =? 101) || (b2z c =? 69)) with true by (cbn in Ic; destruct Ic as [<-|[<-|[]]]; reflexivity).
  assert (X : (match s ++ t with "+"%char :: t => (1, t) | "-"%char :: t => (-1, t) | _ => (1, s ++ t) end) =
              ((if match s with "-"%char :: _ => true | _ => false end then -1 else 1), t)).
  { destruct SS as [[[->| ->] _]|[-> _]]; [|reflexivity|reflexivity]. cbn [app]. destruct t as [|b t]; [contradiction|].
    pose proof (Forall_inv TD) as Hb. clear NF NE T0 TD. revert b Hb. apply digit_cases. cbn. repeat (constructor; [reflexivity|]). constructor. }
  rewrite X. clear X. rewrite <- (app_nil_r t) at 1. rewrite (span_digits_app t []) by (try assumption; exact I).
  destruct t as [|b t]; [contradiction|].
  destruct SS as [[[->| ->] ->]|[-> ->]]; cbn [app str_bytes list_ascii_of_string]; f_equal; f_equal; lia.
Qed.

(** The exponent of readFloat is the written one, or both are 10000 or more. *)
Lemma exp_val_ok t : Forall digit t -> 0 <= exp_val t /\ (exp_val t = digits_val t \/ 10000 <= exp_val t <= digits_val t).
Proof.
  intros H. unfold exp_val, digits_val.
  assert (G : forall l e v, Forall digit l -> 0 <= e -> (e = v \/ 10000 <= e <= v) ->
    let x := fold_left (fun e d => if e <? 10000 then 10 * e + (b2z d - 48) else e) l e in
    let y := fold_left (fun a d => 10 * a + (b2z d - 48)) l v in 0 <= x /\ (x = y \/ 10000 <= x <= y)).
  { induction l as [|b l IH]; intros e v F E0 Hv; [cbv zeta; cbn; auto|]. cbn [fold_left]. apply IH.
    - exact (Forall_inv_tail F).
    - pose proof (Forall_inv F) as Hb. unfold digit in Hb. destruct (e <? 10000); lia.
    - pose proof (Forall_inv F) as Hb. unfold digit in Hb. destruct (e <? 10000) eqn:C; lia. }
  apply (G t 0 0 H); [lia|left; reflexivity].
Qed.
Lemma exp_val_small t : Forall digit t -> digits_val t < 10000 -> exp_val t = digits_val t.
Proof. intros H L. destruct (exp_val_ok t H) as [_ [E|E]]; lia. Qed.

Lemma str_bytes_length s : List.length (str_bytes s) = String.length s.
Proof. induction s as [|c s IH]; [reflexivity|]. cbn. f_equal. exact IH. Qed.

(** ** Literals: parse_float gives the nearest float64 *)
Lemma literal_parse lit neg ds E : literal (str_bytes lit) neg ds E -> Z.of_nat (String.length lit) < 9000 ->
  Forall digit ds /\
  (parse_float lit = let b := round_dec (digits_val ds) E in if b <? f64_inf then Some (with_sign neg b) else None).
Proof.
  intros (int & frac & ft & et & e & L & -> & -> & HI & HF & HE) LEN.
  assert (I0 : int <> []) by (destruct HI as [->|(b & t & -> & _)]; discriminate).
  assert (ID : Forall digit int).
  { destruct HI as [->|(b & t & -> & Hb & Ht)]; [constructor; [apply zero_digit|constructor]|constructor; [unfold digit; lia|exact Ht]]. }
  assert (FD : Forall digit frac) by (destruct HF as [[_ ->]|(_ & _ & ?)]; [constructor|assumption]).
  assert (DS : Forall digit (int ++ frac)) by (apply Forall_app; split; assumption).
  split; [exact DS|].
  assert (LN : Z.of_nat (List.length int + List.length frac + List.length et) < 9000).
  { rewrite <- (str_bytes_length lit), L in LEN. rewrite !app_length in LEN.
    destruct HF as [[-> ->]|(-> & _)]; cbn [List.length] in *; lia. }
  destruct HE as [[-> ->]|(c & s & t & -> & Ic & T0 & TD & SS)].
  - rewrite (parse_core lit neg (int ++ frac) (0 - Z.of_nat (List.length frac))).
    + reflexivity.
    + rewrite L. apply read_float_ok; try assumption. left. split; reflexivity.
    + exact DS.
  - set (sg := if match s with "-"%char :: _ => true | _ => false end then -1 else 1).
    assert (R : read_float (str_bytes lit) = Some (neg, int ++ frac, sg * exp_val t - Z.of_nat (List.length frac))).
    { rewrite L. apply read_float_ok; try assumption. right. exists c, s, t. repeat (split; [first [reflexivity|assumption]|]).
      destruct SS as [[[->| ->] _]|[-> _]]; [left|left|right]; unfold sg; cbn [str_bytes list_ascii_of_string]; split; auto; lia. }
    assert (Ee : e = sg * digits_val t).
    { rewrite numeral_digits_val in SS. destruct SS as [[[->| ->] ->]|[-> ->]]; unfold sg; cbn [str_bytes list_ascii_of_string]; lia. }
    rewrite (parse_core lit neg (int ++ frac) _ R DS). cbv zeta. rewrite Ee.
    destruct (exp_val_ok t TD) as [X0 [X|X]]; [rewrite X; reflexivity|].
    destruct (skip_zeros_ok _ DS) as (V & F' & Ls & H). rewrite app_length in Ls. rewrite <- V. set (z := skip_zeros (int ++ frac)) in *. clearbody z. clear V.
    destruct H as [->|(b & t' & -> & Hb)].
    + change (digits_val []) with 0. rewrite !round_dec_0. reflexivity.
    + pose proof (digits_val_lead b t' (Forall_inv_tail F') Hb) as LB. pose proof (digits_val_bound _ F') as UB.
      set (nd := Z.of_nat (List.length (b :: t'))) in *.
      assert (N1 : Z.of_nat (List.length t') = nd - 1) by (unfold nd; cbn [List.length]; lia). rewrite N1 in LB.
      assert (N0 : 1 <= nd < 9000) by lia.
      assert (SG : sg = 1 \/ sg = -1) by (unfold sg; destruct (match s with "-"%char :: _ => true | _ => false end); auto).
      destruct SG as [SG|SG]; rewrite SG.
      * pose proof (round_dec_huge (digits_val (b :: t')) (1 * exp_val t - Z.of_nat (List.length frac)) nd LB ltac:(lia) ltac:(lia)).
        pose proof (round_dec_huge (digits_val (b :: t')) (1 * digits_val t - Z.of_nat (List.length frac)) nd LB ltac:(lia) ltac:(lia)).
        replace (round_dec (digits_val (b :: t')) (1 * exp_val t - Z.of_nat (List.length frac)) <? f64_inf) with false by lia.
        replace (round_dec (digits_val (b :: t')) (1 * digits_val t - Z.of_nat (List.length frac)) <? f64_inf) with false by lia. reflexivity.
      * rewrite !(round_dec_tiny (digits_val (b :: t')) _ nd) by lia. reflexivity.
Qed.
