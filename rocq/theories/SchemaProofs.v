(** The JSON of documents against the glTF schema: proofs for SpecSchema. *)
From Coq Require FinFun.
From Verif Require Import Base BaseFacts Types Doc F64 SpecText JsonText JsonStringProofs Codec DocCodec SpecJson SpecJsonDoc
  CodecProofs CodecInv DocCodecBase DocCodecProofs DocInvBase Marshal SpecMarshal MarshalProofs SpecSchema.

(** ** Integer literals *)
Lemma is_digit_val d : is_digit d = true -> 0 <= b2z d - 48 < 10 /\ z2b (48 + (b2z d - 48)) = d.
Proof.
  unfold is_digit, in_range. intros H. split; [lia|]. replace (48 + (b2z d - 48)) with (b2z d) by lia. apply z2b_b2z.
Qed.
Lemma fold_digits l : forall a, fold_left (fun a d => 10 * a + (b2z d - 48)) l a = fold_left (fun a d => 10 * a + d) (map (fun d => b2z d - 48) l) a.
Proof. induction l as [|d l IH]; intros a; [reflexivity|]. cbn. apply IH. Qed.
Lemma parse_digits_spec l n : parse_digits l = Some n -> exists ds, ds <> [] /\ Forall (fun d => 0 <= d < 10) ds /\
  l = map (fun d => z2b (48 + d)) ds /\ n = fold_left (fun a d => 10 * a + d) ds 0.
Proof.
  unfold parse_digits. destruct l as [|d l]; [discriminate|]. destruct (forallb is_digit (d :: l)) eqn:E; [|discriminate].
  intros H. injection H as <-. exists (map (fun d => b2z d - 48) (d :: l)). split; [discriminate|].
  split.
  { apply Forall_map. apply Forall_forall. intros x Hx. apply forallb_forall with (x := x) in E; [|exact Hx]. apply is_digit_val, E. }
  split.
  - rewrite map_map. rewrite <- (map_id (d :: l)) at 1. apply map_ext_in. intros x Hx.
    apply forallb_forall with (x := x) in E; [|exact Hx]. symmetry. apply is_digit_val, E.
  - change (fold_left (fun a d0 => 10 * a + (b2z d0 - 48)) (d :: l) 0 =
      fold_left (fun a d0 => 10 * a + d0) (map (fun d0 => b2z d0 - 48) (d :: l)) 0). apply fold_digits.
Qed.
Lemma parse_digits_of ds : ds <> [] -> Forall (fun d => 0 <= d < 10) ds ->
  parse_digits (map (fun d => z2b (48 + d)) ds) = Some (fold_left (fun a d => 10 * a + d) ds 0).
Proof.
  intros N D. destruct ds as [|d ds]; [congruence|]. unfold parse_digits.
  change (map (fun d0 => z2b (48 + d0)) (d :: ds)) with (z2b (48 + d) :: map (fun d0 => z2b (48 + d0)) ds) at 1. cbv iota.
  assert (V : forall x, 0 <= x < 10 -> b2z (z2b (48 + x)) = 48 + x) by (intros; apply digit_b2z; assumption).
  assert (F : forallb is_digit (map (fun d0 => z2b (48 + d0)) (d :: ds)) = true).
  { apply forallb_forall. intros x Hx. apply in_map_iff in Hx. destruct Hx as (y & <- & Hy).
    rewrite Forall_forall in D. specialize (D y Hy). unfold is_digit, in_range. rewrite V by exact D. lia. }
  rewrite F. f_equal. rewrite fold_digits, map_map. f_equal. rewrite <- (map_id (d :: ds)) at 2. apply map_ext_in. intros x Hx.
  rewrite Forall_forall in D. rewrite V by (apply D; exact Hx). lia.
Qed.
Lemma decimal_of_parse s n : parse_int s = Some n -> (n = 0 -> s = "0"%string) -> decimal s n.
Proof.
  unfold parse_int, decimal. intros H Z0.
  assert (P : forall b : bytes, match parse_digits b with Some m => if m <? 2 ^ 63 then Some m else None | None => None end = Some n ->
    exists ds, ds <> [] /\ Forall (fun d => 0 <= d < 10) ds /\ b = map (fun d => z2b (48 + d)) ds /\ n = fold_left (fun a d => 10 * a + d) ds 0).
  { intros b Hb. destruct (parse_digits b) as [m|] eqn:E; [|discriminate]. apply parse_digits_spec in E. destruct E as (ds & A & B & C & D).
    destruct (m <? 2 ^ 63); [|discriminate]. injection Hb as <-. exists ds. repeat split; assumption. }
  assert (Q : forall b : bytes, match parse_digits b with Some m => if m <=? 2 ^ 63 then Some (- m) else None | None => None end = Some n ->
    exists ds, ds <> [] /\ Forall (fun d => 0 <= d < 10) ds /\ b = map (fun d => z2b (48 + d)) ds /\ n = - fold_left (fun a d => 10 * a + d) ds 0).
  { intros b Hb. destruct (parse_digits b) as [m|] eqn:E; [|discriminate]. apply parse_digits_spec in E. destruct E as (ds & A & B & C & D).
    destruct (m <=? 2 ^ 63); [|discriminate]. injection Hb as <-. exists ds. subst m. repeat split; assumption. }
  destruct (str_bytes s) as [|c l] eqn:E.
  - destruct (P [] H) as (ds & A & B & C & D). exists ds. split; [exact A|]. split; [exact B|]. left. split; assumption.
  - destruct (ascii_dec c "-"%char) as [->|N].
    + destruct (Q l H) as (ds & A & B & C & D). exists ds. split; [exact A|]. split; [exact B|]. right. split; [f_equal; exact C|]. split; [exact D|].
      intros ->. rewrite (Z0 eq_refl) in E. discriminate E.
    + assert (H' : match parse_digits (c :: l) with Some m => if m <? 2 ^ 63 then Some m else None | None => None end = Some n).
      { destruct c as [[] [] [] [] [] [] [] []]; try exact H. exfalso; apply N; reflexivity. }
      destruct (P _ H') as (ds & A & B & C & D). exists ds. split; [exact A|]. split; [exact B|]. left. split; assumption.
Qed.
Lemma parse_of_decimal s n : decimal s n -> in_i64 n -> parse_int s = Some n.
Proof.
  intros (ds & N & D & H) R. unfold in_i64 in R. cbv zeta in H. unfold parse_int. destruct H as [[E ->]|(E & -> & NZ)]; rewrite E.
  - assert (X : map (fun d => z2b (48 + d)) ds <> []) by (destruct ds; [congruence|discriminate]).
    pose proof (parse_digits_of ds N D) as P.
    destruct ds as [|d ds]; [congruence|]. cbn [map] in *.
    assert (C : z2b (48 + d) <> "-"%char).
    { intros C. apply (f_equal b2z) in C. rewrite digit_b2z in C by exact (Forall_inv D). change (b2z "-"%char) with 45 in C.
      pose proof (Forall_inv D) as D0. cbv beta in D0. lia. }
    set (c := z2b (48 + d)) in *.
    transitivity (match parse_digits (c :: map (fun d => z2b (48 + d)) ds) with Some m => if m <? 2 ^ 63 then Some m else None | None => None end).
    { destruct c as [[] [] [] [] [] [] [] []]; try reflexivity. exfalso; apply C; reflexivity. }
    rewrite P. replace (_ <? _) with true by (rewrite p63 in *; lia). reflexivity.
  - rewrite parse_digits_of by assumption. replace (_ <=? _) with true by (rewrite p63 in *; lia). reflexivity.
Qed.
Lemma uint_of_decimal s n max : decimal s n -> 0 <= n <= max -> parse_uint max s = Some n.
Proof.
  intros (ds & N & D & H) R. cbv zeta in H. unfold parse_uint. destruct H as [[E ->]|(E & -> & NZ)]; rewrite E.
  - rewrite parse_digits_of by assumption. replace (_ <=? _) with true by lia. reflexivity.
  - exfalso. assert (G : forall l a, 0 <= a -> Forall (fun d => 0 <= d < 10) l -> 0 <= fold_left (fun a d => 10 * a + d) l a).
    { induction l as [|x l IH]; intros a Ha F; [exact Ha|]. cbn [fold_left]. apply IH; [pose proof (Forall_inv F) as F0; cbv beta in F0; lia|exact (Forall_inv_tail F)]. }
    pose proof (G ds 0 ltac:(lia) D). lia.
Qed.

(** ** What the encoders write *)
Definition plain_number (s : string) : Prop := json_number (str_bytes s).
Definition closed (names : list string) (k : string) : Prop := False.
Notation ok := (conforms plain_number closed).
Definition ec {A} (c : codec A) (s : schema) (x : A) : Prop := forall j, enc c x = Ok j -> ok s j.

Lemma fmt_int_decimal n : in_i64 n -> decimal (fmt_int n) n.
Proof. intros H. apply decimal_of_parse; [apply parse_fmt_int; exact H|]. intros ->. reflexivity. Qed.
Lemma ec_int lo x : in_i64 x -> lo <= x -> ec c_int (SInt lo) x.
Proof. intros R L j E. injection E as <-. apply (cf_int _ _ _ _ x); [apply fmt_int_decimal; exact R|exact L|exact R]. Qed.
Lemma ec_str x : ec c_str SStr x.
Proof. intros j E. injection E as <-. constructor. Qed.
Lemma ec_bool x : ec c_bool SBool x.
Proof. intros j E. injection E as <-. constructor. Qed.
Lemma ec_ptr {A} zero (c : codec A) s o : present (ec c s) o -> ec (c_ptr zero c) s o.
Proof. destruct o as [a|]; [|intros []]. intros H j E. exact (H j E). Qed.
Lemma traverse_ok {A} (c : codec A) s l : Forall (ec c s) l -> forall js, traverse (enc c) l = Ok js ->
  List.length js = List.length l /\ Forall (ok s) js.
Proof.
  intros H. induction H as [|a l Ha H IH]; intros js E; cbn in E.
  - injection E as <-. split; [reflexivity|constructor].
  - apply bind_ok in E. destruct E as (b & Eb & E). apply bind_ok in E. destruct E as (bs & Ebs & E). injection E as <-.
    destruct (IH bs Ebs) as [L F]. split; [cbn; rewrite L; reflexivity|]. constructor; [exact (Ha b Eb)|exact F].
Qed.
Lemma nonnil_length {A} (l : list A) : l <> [] -> (1 <= List.length l)%nat.
Proof. destruct l; [congruence|cbn; lia]. Qed.
Lemma ec_slice {A} zero (c : codec A) s l : l <> [] -> Forall (ec c s) l -> ec (c_slice zero c) (SList 1 s) l.
Proof.
  intros N H j E. cbn in E. apply bind_ok in E. destruct E as (js & Ej & E). injection E as <-.
  destruct (traverse_ok c s l H js Ej) as [L F]. constructor; [rewrite L; apply nonnil_length; exact N|exact F].
Qed.
Lemma ec_oslice {A} zero (c : codec A) s o : present (fun l => l <> [] /\ Forall (ec c s) l) o -> ec (c_oslice zero c) (SList 1 s) o.
Proof. destruct o as [l|]; [|intros []]. intros [N H] j E. exact (ec_slice zero c s l N H j E). Qed.
Lemma ec_array {A} zero (c : codec A) s k l : List.length l = k -> Forall (ec c s) l -> ec (c_array zero c) (STuple k s) l.
Proof.
  intros N H j E. cbn in E. apply bind_ok in E. destruct E as (js & Ej & E). injection E as <-.
  destruct (traverse_ok c s l H js Ej) as [L F]. constructor; [rewrite L; exact N|exact F].
Qed.
Lemma traverse_members {A} (f : string * A -> res json) s (m : list (string * A)) :
  Forall (fun p => forall j, f p = Ok j -> ok s j) m ->
  forall js, traverse (fun p => j <- f p ;; Ok (quote_str (fst p), j)) m = Ok js ->
  List.length js = List.length m /\ Forall (fun p => ok s (snd p)) js.
Proof.
  intros H. induction H as [|p m Hp H IH]; intros js E; cbn in E.
  - injection E as <-. split; [reflexivity|constructor].
  - apply bind_ok in E. destruct E as (b & Eb & E). apply bind_ok in E. destruct E as (bs & Ebs & E). injection E as <-.
    apply bind_ok in Eb. destruct Eb as (j & Ej & Eb). injection Eb as <-.
    destruct (IH bs Ebs) as [L F]. split; [cbn; rewrite L; reflexivity|]. constructor; [exact (Hp j Ej)|exact F].
Qed.
Lemma ec_attrs o : opt wf_attrs o -> filled_attrs o -> ec c_attrs (SDict 1 s_id) o.
Proof.
  destruct o as [m|]; [|intros _ []]. intros [_ W] [N I] j E. cbn [enc c_attrs] in E. apply bind_ok in E. destruct E as (js & Ej & E).
  injection E as <-.
  destruct (traverse_members (fun p => enc c_int (snd p)) s_id m) with (js := js) as [L F]; [|exact Ej|].
  { rewrite Forall_forall in *. intros p Hp j. apply ec_int; [exact (proj2 (W p Hp))|exact (I p Hp)]. }
  constructor; [rewrite L; apply nonnil_length; exact N|exact F].
Qed.
Lemma ec_f64 F x : float_contract F -> float_ok x -> ec (c_f64 F) SNum x.
Proof.
  intros HF O j E. cbn in E. unfold enc_f64 in E. destruct (f64_finite x); [|discriminate]. injection E as <-.
  constructor. exact (proj1 (HF x O)).
Qed.
Lemma ec_any F n x : float_contract F -> wf_any n x -> ec (c_any F) SFree x.
Proof.
  intros HF W j E. constructor. cbn [enc c_any] in E. revert n W j E. induction x as [|b|f|s|l IH|m IH] using any_ind'; intros n W j E; cbn [enc_any] in E.
  - injection E as <-. constructor.
  - injection E as <-. constructor.
  - inversion W; subst. unfold enc_f64 in E. destruct (f64_finite f); [|discriminate]. injection E as <-. constructor. apply HF. assumption.
  - injection E as <-. constructor.
  - apply bind_ok in E. destruct E as (js & Ej & E). injection E as <-. constructor. inversion W as [| | | |n' l' Wl E1 E2|]; subst.
    clear W. revert js Ej. induction IH as [|v l Hv IH IH2]; intros js Ej; cbn in Ej; [injection Ej as <-; constructor|].
    apply bind_ok in Ej. destruct Ej as (b & Eb & Ej). apply bind_ok in Ej. destruct Ej as (bs & Ebs & Ej). injection Ej as <-.
    constructor; [exact (Hv _ (Forall_inv Wl) b Eb)|]. exact (IH2 (Forall_inv_tail Wl) bs Ebs).
  - apply bind_ok in E. destruct E as (js & Ej & E). injection E as <-. constructor. inversion W as [| | | | |n' m' Sm Wm E1 E2]; subst.
    clear W Sm. revert js Ej. induction IH as [|v l Hv IH IH2]; intros js Ej; cbn in Ej; [injection Ej as <-; constructor|].
    apply bind_ok in Ej. destruct Ej as (b & Eb & Ej). apply bind_ok in Ej. destruct Ej as (bs & Ebs & Ej). injection Ej as <-.
    apply bind_ok in Eb. destruct Eb as (j & Ejv & Eb). injection Eb as <-.
    constructor; [exact (Hv _ (proj2 (Forall_inv Wm)) j Ejv)|]. exact (IH2 (Forall_inv_tail Wm) bs Ebs).
Qed.
Lemma ec_ext X m : ec (c_ext X) (SDict 0 SRaw) m.
Proof.
  intros j E. cbn [enc c_ext] in E. unfold enc_ext in E. apply bind_ok in E. destruct E as (js & _ & E). injection E as <-.
  constructor; [lia|]. apply Forall_forall. intros p _. constructor.
Qed.
Lemma ec_target x : In x [0; 34962; 34963] -> x <> 0 -> ec c_tgt (SEnumZ [34962; 34963]) x.
Proof.
  intros I N j E. cbn in E. injection E as <-. destruct I as [<-|[<-|[<-|[]]]]; [congruence|..].
  - apply (cf_enumz _ _ _ _ 34962); [apply fmt_int_decimal; unfold in_i64; rewrite p63; lia|cbn; tauto].
  - apply (cf_enumz _ _ _ _ 34963); [apply fmt_int_decimal; unfold in_i64; rewrite p63; lia|cbn; tauto].
Qed.
Lemma small_i64 n : 0 <= n < 65536 -> in_i64 n.
Proof. unfold in_i64. rewrite p63. lia. Qed.
Ltac enum_num n := apply (cf_enumz _ _ _ _ n); [apply fmt_int_decimal, small_i64; lia|cbn; tauto].
Lemma ec_ct x : ct_valid x = true -> ec c_ct (SEnumZ [5120; 5121; 5122; 5123; 5125; 5126]) x.
Proof.
  intros V j E. destruct x; try discriminate V; injection E as <-;
    [enum_num 5126|enum_num 5120|enum_num 5121|enum_num 5122|enum_num 5123|enum_num 5125].
Qed.
Lemma ec_ct_index x : In x [CUbyte; CUshort; CUint] -> ec c_ct (SEnumZ [5121; 5123; 5125]) x.
Proof.
  intros [<-|[<-|[<-|[]]]] j E; injection E as <-; [enum_num 5121|enum_num 5123|enum_num 5125].
Qed.
Ltac enum_str s := apply (cf_enum _ _ _ _ s); [vm_compute; reflexivity|cbn; tauto].
Lemma ec_at x : at_valid x = true -> ec c_at (SEnum ["SCALAR"; "VEC2"; "VEC3"; "VEC4"; "MAT2"; "MAT3"; "MAT4"]%string) x.
Proof.
  intros V j E. destruct x; try discriminate V; injection E as <-;
    [enum_str "SCALAR"%string|enum_str "VEC2"%string|enum_str "VEC3"%string|enum_str "VEC4"%string|enum_str "MAT2"%string|enum_str "MAT3"%string|enum_str "MAT4"%string].
Qed.
Ltac cases x := (* 0 <= x < k *)
  match goal with H : range ?k x |- _ => unfold range in H;
    let rec go i := (destruct (Z.eq_dec x i) as [->|?]; [|first [exfalso; lia | let i' := eval vm_compute in (i + 1) in go i']]) in go 0 end.
Lemma ec_mode x : range 7 x -> ec c_mode (SEnumZ [0; 1; 2; 3; 4; 5; 6]) x.
Proof.
  intros R j E. cases x; injection E as <-; [enum_num 4|enum_num 0|enum_num 1|enum_num 2|enum_num 3|enum_num 5|enum_num 6].
Qed.
Lemma ec_alpha x : range 3 x -> ec c_alpha (SEnum ["OPAQUE"; "MASK"; "BLEND"]%string) x.
Proof. intros R j E. cases x; injection E as <-; [enum_str "OPAQUE"%string|enum_str "MASK"%string|enum_str "BLEND"%string]. Qed.
Lemma ec_mag x : range 3 x -> x <> 0 -> ec c_mag (SEnumZ [9728; 9729]) x.
Proof. intros R N j E. cases x; [congruence|..]; injection E as <-; [enum_num 9729|enum_num 9728]. Qed.
Lemma ec_minf x : range 7 x -> x <> 0 -> ec c_minf (SEnumZ [9728; 9729; 9984; 9985; 9986; 9987]) x.
Proof.
  intros R N j E. cases x; [congruence|..]; injection E as <-;
    [enum_num 9729|enum_num 9986|enum_num 9728|enum_num 9984|enum_num 9985|enum_num 9987].
Qed.
Lemma ec_wrap x : range 3 x -> ec c_wrap (SEnumZ [33071; 33648; 10497]) x.
Proof. intros R j E. cases x; injection E as <-; [enum_num 10497|enum_num 33071|enum_num 33648]. Qed.
Lemma ec_interp x : range 3 x -> ec c_interp (SEnum ["LINEAR"; "STEP"; "CUBICSPLINE"]%string) x.
Proof. intros R j E. cases x; injection E as <-; [enum_str "LINEAR"%string|enum_str "STEP"%string|enum_str "CUBICSPLINE"%string]. Qed.
Lemma ec_trs x : range 4 x -> ec c_trs (SEnum ["translation"; "rotation"; "scale"; "weights"]%string) x.
Proof. intros R j E. cases x; injection E as <-; [enum_str "translation"%string|enum_str "rotation"%string|enum_str "scale"%string|enum_str "weights"%string]. Qed.

(** ** Structs *)
Section Struct.
Context {T : Type}.
Definition fconf (tbl : list (string * schema)) (x : T) (f : field T) : Prop :=
  match f with Fld name get _ c omit => omit (get x) = false -> exists s, In (name, s) tbl /\ ec c s (get x) end.
Definition written (x : T) (f : field T) : bool := match f with Fld _ get _ _ omit => negb (omit (get x)) end.

Lemma enc_fields_in fs (x : T) m : enc_fields fs x = Ok m ->
  map fst m = map fname (filter (written x) fs) /\
  Forall (fun p => exists f, In f fs /\ match f with Fld name get _ c omit => name = fst p /\ omit (get x) = false /\ enc c (get x) = Ok (snd p) end) m.
Proof.
  revert m. induction fs as [|f fs IH]; intros m E; cbn in E.
  - injection E as <-. split; [reflexivity|constructor].
  - destruct f as [A name get set c omit]. cbn [filter written]. destruct (omit (get x)) eqn:O; cbn [negb].
    + destruct (IH m E) as [K F]. split; [exact K|]. eapply Forall_impl; [|exact F]. intros p (f & I & H). exists f. split; [right; exact I|exact H].
    + apply bind_ok in E. destruct E as (j & Ej & E). apply bind_ok in E. destruct E as (m' & Em & E). injection E as <-.
      destruct (IH m' Em) as [K F]. split; [cbn [map fst fname]; rewrite K; reflexivity|]. constructor.
      * eexists. split; [left; reflexivity|]. cbn. repeat split; assumption.
      * eapply Forall_impl; [|exact F]. intros p (f & I & H). exists f. split; [right; exact I|exact H].
Qed.
Lemma NoDup_filter_map {A B} (f : A -> B) (g : A -> bool) l : NoDup (map f l) -> NoDup (map f (filter g l)).
Proof.
  induction l as [|a l IH]; cbn; intros N; [constructor|]. inversion N; subst. destruct (g a); cbn; [constructor|]; auto.
  intros I. apply H1. apply in_map_iff in I. destruct I as (y & E & Iy). apply filter_In in Iy. apply in_map_iff. exists y. tauto.
Qed.

(** Names of members stand for themselves. *)
Definition self (k : string) : bool := match unquote_str k with Some s => String.eqb s k | None => false end.
Lemma self_spec k : self k = true -> unquote_str k = Some k.
Proof. unfold self. destruct (unquote_str k) as [s|]; [|discriminate]. intros E. apply String.eqb_eq in E. subst. reflexivity. Qed.

Lemma struct_conforms req opts fs (x : T) m :
  forallb self (map fname fs) = true -> NoDup (map fname fs) ->
  Forall (fun r => exists f, In f fs /\ fname f = fst r /\ written x f = true) req ->
  Forall (fconf (req ++ opts) x) fs ->
  forall pre, Forall (fun p => self (fst p) = true /\ ~ In (fst p) (map fname fs) /\ exists s, In (fst p, s) (req ++ opts) /\ ok s (snd p)) pre ->
  NoDup (map fst pre) ->
  enc_fields fs x = Ok m ->
  ok (SObj req opts) (JObj (pre ++ m)).
Proof.
  intros S N R C pre P NP E. destruct (enc_fields_in fs x m E) as [K F].
  assert (U : Forall (fun p => unquote_str (fst p) = Some (fst p)) (pre ++ m)).
  { apply Forall_app. split.
    - eapply Forall_impl; [|exact P]. intros p (H & _). apply self_spec, H.
    - rewrite Forall_forall in F |- *. intros p Hp. destruct (F p Hp) as (f & I & H). apply self_spec.
      apply forallb_forall with (x := fst p) in S; [exact S|]. apply in_map_iff. exists f. split; [|exact I]. destruct f; cbn. tauto. }
  apply cf_obj.
  - replace (map (fun p => unquote_str (fst p)) (pre ++ m)) with (map Some (map fst (pre ++ m))).
    2:{ rewrite map_map. apply map_ext_in. intros p Hp. rewrite Forall_forall in U. rewrite (U p Hp). reflexivity. }
    apply FinFun.Injective_map_NoDup; [intros a b H; congruence|]. rewrite map_app, K.
    clear - NP N P. induction pre as [|p pre IH]; cbn.
    + apply NoDup_filter_map. exact N.
    + inversion NP; subst. constructor; [|apply IH; [exact (Forall_inv_tail P)|assumption]].
      intros I. apply in_app_iff in I. destruct I as [I|I]; [contradiction|].
      destruct (Forall_inv P) as (_ & A & _). apply A. apply in_map_iff in I. destruct I as (f & E & I). apply filter_In in I.
      apply in_map_iff. exists f. tauto.
  - rewrite Forall_forall in R |- *. intros r Hr. destruct (R r Hr) as (f & I & E' & W).
    assert (J : In (fst r) (map fst m)).
    { rewrite K, <- E'. apply in_map. apply filter_In. split; assumption. }
    apply in_map_iff in J. destruct J as (p & E1 & I1). exists p. split; [apply in_or_app; right; exact I1|].
    rewrite Forall_forall in U. rewrite (U p) by (apply in_or_app; right; exact I1). rewrite E1. reflexivity.
  - rewrite Forall_forall in U. apply Forall_forall. intros p Hp. exists (fst p). split; [exact (U p Hp)|]. left.
    apply in_app_iff in Hp. destruct Hp as [Hp|Hp].
    + rewrite Forall_forall in P. destruct (P p Hp) as (_ & _ & s & H). exists s. exact H.
    + rewrite Forall_forall in F, C. destruct (F p Hp) as (f & I & H). specialize (C f I). destruct f as [A name get set c omit].
      destruct H as (-> & O & Ej). destruct (C O) as (s & Is & H). exists s. split; [exact Is|]. exact (H _ Ej).
Qed.
Lemma ec_struct req opts fs (x : T) c : enc c x = enc_struct fs x ->
  forallb self (map fname fs) = true -> NoDup (map fname fs) ->
  Forall (fun r => exists f, In f fs /\ fname f = fst r /\ written x f = true) req ->
  Forall (fconf (req ++ opts) x) fs ->
  ec c (SObj req opts) x.
Proof.
  intros Ec S N R C j E. rewrite Ec in E. unfold enc_struct in E. apply bind_ok in E. destruct E as (m & Em & E). injection E as <-.
  apply (struct_conforms req opts fs x m S N R C []); [constructor|constructor|exact Em].
Qed.
End Struct.
Fixpoint distinct (l : list string) : bool :=
  match l with [] => true | a :: l' => negb (existsb (String.eqb a) l') && distinct l' end.
Lemma distinct_NoDup l : distinct l = true -> NoDup l.
Proof.
  induction l as [|a l IH]; cbn; intros H; [constructor|]. apply andb_prop in H. destruct H as [H1 H2]. constructor; [|exact (IH H2)].
  intros I. apply negb_true_iff in H1. rewrite <- not_true_iff_false in H1. apply H1. apply existsb_exists. exists a.
  split; [exact I|apply String.eqb_refl].
Qed.
Definition reqb {T} (x : T) (fs : list (field T)) (r : string * schema) : bool :=
  existsb (fun f => String.eqb (fname f) (fst r) && written x f) fs.
Lemma reqb_spec {T} (x : T) fs req : forallb (reqb x fs) req = true ->
  Forall (fun r => exists f, In f fs /\ fname f = fst r /\ written x f = true) req.
Proof.
  intros H. apply Forall_forall. intros r Hr. apply forallb_forall with (x := r) in H; [|exact Hr]. apply existsb_exists in H.
  destruct H as (f & I & E). apply andb_prop in E. destruct E as [E W]. apply String.eqb_eq in E. exists f. tauto.
Qed.

Lemma opt_present {A} (P Q : A -> Prop) o : opt P o -> (forall a, P a -> Q a) -> is_none o = false -> present Q o.
Proof. destruct o; [|discriminate]. intros H I _. exact (I _ H). Qed.
Lemma opt2_present {A} (P R Q : A -> Prop) o : opt P o -> opt R o -> (forall a, P a -> R a -> Q a) -> is_none o = false -> present Q o.
Proof. destruct o; [|discriminate]. intros H H2 I _. exact (I _ H H2). Qed.
Lemma is_nil_ne {A} (l : list A) : is_nil l = false -> l <> [].
Proof. destruct l; [discriminate|]. intros _ H. discriminate. Qed.
Lemma z_zero_ne x : z_zero x = false -> x <> 0.
Proof. apply Z.eqb_neq. Qed.
Lemma Forall2_impl {A} (P R Q : A -> Prop) l : Forall P l -> Forall R l -> (forall a, P a -> R a -> Q a) -> Forall Q l.
Proof. intros H1 H2 I. rewrite Forall_forall in *. auto. Qed.
Lemma present_impl {A} (P Q R : A -> Prop) o : opt P o -> present R o -> (forall a, P a -> R a -> Q a) -> present Q o.
Proof. destruct o; [|intros _ []]. intros H H2 I. exact (I _ H H2). Qed.

Section Doc.
Context (F : float_lib) (X : ext_lib) (HF : float_contract F) (n : nat).

Lemma ec_oint lo o : opt in_i64 o -> opt (fun v => lo <= v) o -> is_none o = false -> ec (c_ptr 0 c_int) (SInt lo) o.
Proof. intros A B N. apply ec_ptr. eapply opt2_present; [exact A|exact B| |exact N]. intros a; apply ec_int. Qed.
Lemma ec_ints lo l : Forall in_i64 l -> Forall (fun v => lo <= v) l -> is_nil l = false -> ec (c_slice 0 c_int) (SList 1 (SInt lo)) l.
Proof. intros A B N. apply ec_slice; [apply is_nil_ne, N|]. eapply Forall2_impl; [exact A|exact B|]. intros a; apply ec_int. Qed.
Lemma ec_floats l : Forall float_ok l -> is_nil l = false -> ec (c_slice 0 (c_f64 F)) (SList 1 SNum) l.
Proof. intros A N. apply ec_slice; [apply is_nil_ne, N|]. eapply Forall_impl; [|exact A]. intros a; apply ec_f64, HF. Qed.
Lemma ec_farray k l : farray k l -> ec (c_array 0 (c_f64 F)) (STuple k SNum) l.
Proof. intros [L A]. apply ec_array; [exact L|]. eapply Forall_impl; [|exact A]. intros a; apply ec_f64, HF. Qed.
Lemma ec_of64 o : opt float_ok o -> is_none o = false -> ec (c_ptr 0 (c_f64 F)) SNum o.
Proof. intros A N. apply ec_ptr. eapply opt_present; [exact A| |exact N]. intros a; apply ec_f64, HF. Qed.
Lemma opt_default_none d o : opt_default d o = false -> is_none o = false.
Proof. destruct o; [reflexivity|discriminate]. Qed.
Lemma oarr_default_none d o : oarr_default d o = false -> is_none o = false.
Proof. destruct o; [reflexivity|discriminate]. Qed.
Lemma ec_ofarray k z o : opt (farray k) o -> is_none o = false -> ec (c_ptr z (c_array 0 (c_f64 F))) (STuple k SNum) o.
Proof. intros A N. apply ec_ptr. eapply opt_present; [exact A| |exact N]. intros a; apply ec_farray. Qed.
Lemma ec_ostruct {A} (z : A) c s (wf r : A -> Prop) o : (forall x, wf x -> r x -> ec c s x) -> opt wf o -> opt r o -> is_none o = false -> ec (c_ptr z c) s o.
Proof. intros H W R N. apply ec_ptr. eapply opt2_present; [exact W|exact R|exact H|exact N]. Qed.
Lemma ec_structs {A} (z : A) c s (wf r : A -> Prop) l : (forall x, wf x -> r x -> ec c s x) -> Forall (opt wf) l -> Forall (present r) l ->
  is_nil l = false -> ec (c_slice None (c_ptr z c)) (SList 1 s) l.
Proof.
  intros H W R N. apply ec_slice; [apply is_nil_ne, N|]. eapply Forall2_impl; [exact W|exact R|]. intros o Wo Ro. apply ec_ptr.
  eapply present_impl; [exact Wo|exact Ro|exact H].
Qed.
Lemma ec_ostructs {A} (z : A) c s (wf r : A -> Prop) o : (forall x, wf x -> r x -> ec c s x) -> opt (Forall (opt wf)) o ->
  present (fun l => l <> [] /\ Forall (present r) l) o -> ec (c_oslice None (c_ptr z c)) (SList 1 s) o.
Proof.
  intros H W R. apply ec_oslice. destruct o as [l|]; [|exact R]. destruct R as [N R]. split; [exact N|].
  eapply Forall2_impl; [exact W|exact R|]. intros o Wo Ro. apply ec_ptr. eapply present_impl; [exact Wo|exact Ro|exact H].
Qed.

Ltac in_tac := repeat (first [left; reflexivity | right]).
Ltac ec_tac O :=
  try (apply z_zero_ne in O); try (apply opt_default_none in O); try (apply oarr_default_none in O);
  first [ apply ec_ext | eapply ec_any; [exact HF|eassumption] | apply ec_str | apply ec_bool
        | apply ec_int; [assumption | first [assumption | lia]]
        | apply ec_oint; [assumption|assumption|exact O]
        | apply ec_ints; [assumption|assumption|exact O]
        | apply ec_floats; [assumption|exact O]
        | apply ec_farray; assumption
        | apply ec_of64; [assumption|exact O]
        | apply ec_ofarray; [assumption|exact O]
        | apply ec_f64; [exact HF|assumption]
        | apply ec_ct; assumption | apply ec_ct_index; assumption | apply ec_at; assumption
        | apply ec_target; [assumption|exact O] | apply ec_mode; assumption | apply ec_alpha; assumption
        | apply ec_mag; [assumption|exact O] | apply ec_minf; [assumption|exact O] | apply ec_wrap; assumption
        | apply ec_interp; assumption | apply ec_trs; assumption | apply ec_attrs; assumption ].
Ltac fields_tac tac := repeat apply Forall_cons; try apply Forall_nil;
  (let O := fresh "O" in intros O; eexists; split; [in_tac|first [ec_tac O | tac O]]).
Ltac struct_tac wf r fs tac :=
  let x := fresh "x" in let W := fresh "W" in let R := fresh "R" in
  intros x W R; unfold wf in W; unfold r, index in R; decompose [and] W; decompose [and] R;
  apply (ec_struct _ _ fs); [reflexivity|vm_compute; reflexivity|apply distinct_NoDup; vm_compute; reflexivity|
    apply reqb_spec; reflexivity|fields_tac tac].

Lemma ec_SparseValues x : wf_SparseValues X n x -> index (spv_BufferView x) /\ 0 <= spv_ByteOffset x -> ec (c_SparseValues F X) s_sparse_values x.
Proof. revert x. struct_tac wf_SparseValues index (fields_SparseValues F X) ltac:(fun O => fail). Qed.
Lemma ec_SparseIndices x : wf_SparseIndices X n x -> index (spi_BufferView x) /\ 0 <= spi_ByteOffset x /\ In (spi_ComponentType x) [CUbyte; CUshort; CUint] ->
  ec (c_SparseIndices F X) s_sparse_indices x.
Proof. revert x. struct_tac wf_SparseIndices index (fields_SparseIndices F X) ltac:(fun O => fail). Qed.
Lemma ec_Sparse x : wf_Sparse X n x -> r_sparse x -> ec (c_Sparse F X) s_sparse x.
Proof.
  revert x. struct_tac wf_Sparse r_sparse (fields_Sparse F X)
    ltac:(fun O => first [apply ec_SparseIndices; [assumption|unfold index; tauto] | apply ec_SparseValues; [assumption|unfold index; tauto]]).
Qed.
Lemma ec_Accessor x : wf_Accessor X n x -> r_accessor x -> ec (c_Accessor F X) s_accessor x.
Proof.
  revert x. struct_tac wf_Accessor r_accessor (fields_Accessor F X)
    ltac:(fun O => eapply ec_ostruct; [exact ec_Sparse|assumption|assumption|exact O]).
Qed.
Lemma ec_Buffer x : wf_Buffer X n x -> r_buffer x -> ec (c_Buffer F X) s_buffer x.
Proof. revert x. struct_tac wf_Buffer r_buffer (fields_Buffer F X) ltac:(fun O => fail). Qed.
Lemma ec_BufferView x : wf_BufferView X n x -> r_bufferView x -> ec (c_BufferView F X) s_bufferView x.
Proof. revert x. struct_tac wf_BufferView r_bufferView (fields_BufferView F X) ltac:(fun O => fail). Qed.
Lemma ec_Scene x : wf_Scene X n x -> r_scene x -> ec (c_Scene F X) s_scene x.
Proof. revert x. struct_tac wf_Scene r_scene (fields_Scene F X) ltac:(fun O => fail). Qed.
Lemma ec_Node x : wf_Node X n x -> r_node x -> ec (c_Node F X) s_node x.
Proof. revert x. struct_tac wf_Node r_node (out_Node F X) ltac:(fun O => fail). Qed.
Lemma ec_Skin x : wf_Skin X n x -> r_skin x -> ec (c_Skin F X) s_skin x.
Proof.
  revert x. struct_tac wf_Skin r_skin (fields_Skin F X)
    ltac:(fun O => apply ec_oslice; match goal with W : opt (Forall in_i64) ?o, R : present _ ?o |- _ => destruct o as [l|]; [|exact R];
      destruct R as [? ?]; split; [assumption|]; eapply Forall2_impl; [exact W|eassumption|intros ?; apply ec_int] end).
Qed.
Lemma ec_Orthographic x : wf_Orthographic X n x -> True -> ec (c_Orthographic F X) s_orthographic x.
Proof. revert x. struct_tac wf_Orthographic index (fields_Orthographic F X) ltac:(fun O => fail). Qed.
Lemma ec_Perspective x : wf_Perspective X n x -> True -> ec (c_Perspective F X) s_perspective x.
Proof. revert x. struct_tac wf_Perspective index (fields_Perspective F X) ltac:(fun O => fail). Qed.
Lemma ec_Camera x : wf_Camera X n x -> True -> ec (c_Camera F X) s_camera x.
Proof.
  intros W _ j E. cbn [enc c_Camera] in E. unfold enc_Camera in E.
  assert (G : forall t, In t ["perspective"; "orthographic"]%string -> unquote_str t = Some t ->
    forall m, enc_fields (fields_Camera F X) x = Ok m -> ok s_camera (JObj (("type"%string, JStr t) :: m))).
  { intros t It U m Em. change (("type"%string, JStr t) :: m) with ([("type"%string, JStr t)] ++ m).
    assert (C : ok (SObj [] (("type"%string, SEnum ["perspective"; "orthographic"]%string) ::
       ["orthographic" =>> s_orthographic; "perspective" =>> s_perspective]%string ++ s_named)) (JObj ([("type"%string, JStr t)] ++ m))).
    { unfold wf_Camera in W. decompose [and] W.
      apply (struct_conforms [] _ (fields_Camera F X) x m); [vm_compute; reflexivity|apply distinct_NoDup; vm_compute; reflexivity|constructor|
        fields_tac ltac:(fun O => first [eapply ec_ostruct; [exact ec_Orthographic|assumption|destruct (cam_Orthographic x); exact I|exact O]
                                       |eapply ec_ostruct; [exact ec_Perspective|assumption|destruct (cam_Perspective x); exact I|exact O]])|
        |apply distinct_NoDup; reflexivity|exact Em].
      constructor; [|constructor]. split; [vm_compute; reflexivity|]. split; [cbn; intuition discriminate|].
      eexists. split; [in_tac|]. apply (cf_enum _ _ _ _ t); [exact U|exact It]. }
    inversion C; subst. apply cf_obj; [assumption| |assumption].
    constructor; [|constructor]. exists ("type"%string, JStr t). split; [left; reflexivity|]. vm_compute. reflexivity. }
  destruct (cam_Perspective x); [|destruct (cam_Orthographic x); [|discriminate]];
    apply bind_ok in E; destruct E as (m & Em & E); injection E as <-; (apply G; [cbn; tauto|vm_compute; reflexivity|exact Em]).
Qed.
Lemma ec_Primitive x : wf_Primitive X n x -> r_primitive x -> ec (c_Primitive F X) s_primitive x.
Proof.
  revert x. struct_tac wf_Primitive r_primitive (fields_Primitive F X)
    ltac:(fun O => apply ec_slice; [apply is_nil_ne, O|]; apply (Forall2_impl (opt wf_attrs) filled_attrs); [assumption|assumption|intros ?; apply ec_attrs]).
Qed.
Lemma ec_Mesh x : wf_Mesh X n x -> r_mesh x -> ec (c_Mesh F X) s_mesh x.
Proof.
  revert x. struct_tac wf_Mesh r_mesh (fields_Mesh F X)
    ltac:(fun O => eapply ec_ostructs; [exact ec_Primitive|assumption|assumption]).
Qed.
Lemma ec_TextureInfo x : wf_TextureInfo X n x -> r_textureInfo x -> ec (c_TextureInfo F X) s_textureInfo x.
Proof. revert x. struct_tac wf_TextureInfo r_textureInfo (fields_TextureInfo F X) ltac:(fun O => fail). Qed.
Lemma present_some {A} (P : A -> Prop) o : present P o -> is_none o = false /\ opt P o.
Proof. destruct o; [|intros []]. intros H. split; [reflexivity|exact H]. Qed.
Lemma ec_NormalTexture x : wf_NormalTexture X n x -> r_normalTexture x -> ec (c_NormalTexture F X) s_normalTexture x.
Proof.
  intros W [R1 R2]. unfold wf_NormalTexture in W. decompose [and] W. destruct (present_some _ _ R1) as [N R3].
  apply (ec_struct _ _ (fields_NormalTexture F X)); [reflexivity|vm_compute; reflexivity|apply distinct_NoDup; vm_compute; reflexivity|
    apply reqb_spec; cbn; rewrite N; reflexivity|fields_tac ltac:(fun O => fail)].
Qed.
Lemma ec_OcclusionTexture x : wf_OcclusionTexture X n x -> r_occlusionTexture x -> ec (c_OcclusionTexture F X) s_occlusionTexture x.
Proof.
  intros W [R1 R2]. unfold wf_OcclusionTexture in W. decompose [and] W. destruct (present_some _ _ R1) as [N R3].
  apply (ec_struct _ _ (fields_OcclusionTexture F X)); [reflexivity|vm_compute; reflexivity|apply distinct_NoDup; vm_compute; reflexivity|
    apply reqb_spec; cbn; rewrite N; reflexivity|fields_tac ltac:(fun O => fail)].
Qed.
Lemma ec_PBR x : wf_PBRMetallicRoughness X n x -> r_pbr x -> ec (c_PBRMetallicRoughness F X) s_pbr x.
Proof.
  revert x. struct_tac wf_PBRMetallicRoughness r_pbr (fields_PBRMetallicRoughness F X)
    ltac:(fun O => eapply ec_ostruct; [exact ec_TextureInfo|assumption|assumption|exact O]).
Qed.
Lemma ec_Material x : wf_Material X n x -> r_material x -> ec (c_Material F X) s_material x.
Proof.
  revert x. struct_tac wf_Material r_material (out_Material F X)
    ltac:(fun O => first [ eapply ec_ostruct; [exact ec_PBR|assumption|assumption|exact O]
                         | eapply ec_ostruct; [exact ec_NormalTexture|assumption|assumption|exact O]
                         | eapply ec_ostruct; [exact ec_OcclusionTexture|assumption|assumption|exact O]
                         | eapply ec_ostruct; [exact ec_TextureInfo|assumption|assumption|exact O]]).
Qed.
Lemma ec_Texture x : wf_Texture X n x -> r_texture x -> ec (c_Texture F X) s_texture x.
Proof. revert x. struct_tac wf_Texture r_texture (fields_Texture F X) ltac:(fun O => fail). Qed.
Lemma ec_Sampler x : wf_Sampler X n x -> True -> ec (c_Sampler F X) s_sampler x.
Proof. revert x. struct_tac wf_Sampler index (fields_Sampler F X) ltac:(fun O => fail). Qed.
Lemma ec_Image x : wf_Image X n x -> r_image x -> ec (c_Image F X) s_image x.
Proof. revert x. struct_tac wf_Image r_image (fields_Image F X) ltac:(fun O => fail). Qed.
Lemma ec_AnimationSampler x : wf_AnimationSampler X n x -> r_animationSampler x -> ec (c_AnimationSampler F X) s_animationSampler x.
Proof. revert x. struct_tac wf_AnimationSampler r_animationSampler (fields_AnimationSampler F X) ltac:(fun O => fail). Qed.
Lemma ec_AnimationTarget x : wf_AnimationChannelTarget X n x -> opt index (act_Node x) -> ec (c_AnimationChannelTarget F X) s_animationTarget x.
Proof. revert x. struct_tac wf_AnimationChannelTarget index (fields_AnimationChannelTarget F X) ltac:(fun O => fail). Qed.
Lemma ec_AnimationChannel x : wf_AnimationChannel X n x -> r_animationChannel x -> ec (c_AnimationChannel F X) s_animationChannel x.
Proof.
  revert x. struct_tac wf_AnimationChannel r_animationChannel (fields_AnimationChannel F X)
    ltac:(fun O => apply ec_AnimationTarget; assumption).
Qed.
Lemma ec_Animation x : wf_Animation X n x -> r_animation x -> ec (c_Animation F X) s_animation x.
Proof.
  revert x. struct_tac wf_Animation r_animation (fields_Animation F X)
    ltac:(fun O => first [eapply ec_ostructs; [exact ec_AnimationChannel|assumption|assumption]
                         |eapply ec_ostructs; [exact ec_AnimationSampler|assumption|assumption]]).
Qed.
Lemma ec_Asset x : wf_Asset X n x -> ec (c_Asset F X) s_asset x.
Proof.
  intros W. unfold wf_Asset in W. decompose [and] W. intros j E. cbn [enc c_Asset] in E. unfold enc_Asset in E.
  destruct (str_empty (ast_Version x)).
  - revert j E. change (ec (mkCodec (enc_struct (out_Asset F X)) (fun o _ => Ok o)) s_asset (set_ast_Version "2.0" x)).
    apply (ec_struct _ _ (out_Asset F X)); [reflexivity|vm_compute; reflexivity|apply distinct_NoDup; vm_compute; reflexivity|
      apply reqb_spec; reflexivity|fields_tac ltac:(fun O => fail)].
  - revert j E. change (ec (mkCodec (enc_struct (fields_Asset F X)) (fun o _ => Ok o)) s_asset x).
    apply (ec_struct _ _ (fields_Asset F X)); [reflexivity|vm_compute; reflexivity|apply distinct_NoDup; vm_compute; reflexivity|
      apply reqb_spec; reflexivity|fields_tac ltac:(fun O => fail)].
Qed.
Lemma ec_strs l : is_nil l = false -> ec (c_slice ""%string c_str) (SList 1 SStr) l.
Proof. intros N. apply ec_slice; [apply is_nil_ne, N|]. apply Forall_forall. intros a _. apply ec_str. Qed.
Lemma ec_Document x : wf_Document X n x -> ready x -> ec (c_Document F X) s_gltf x.
Proof.
  revert x. struct_tac wf_Document ready (out_Document F X)
    ltac:(fun O => first [ apply ec_strs; exact O
      | eapply ec_structs; [exact ec_Accessor|assumption|assumption|exact O]
      | eapply ec_structs; [exact ec_Animation|assumption|assumption|exact O]
      | apply ec_Asset; assumption
      | eapply ec_structs; [exact ec_Buffer|assumption|assumption|exact O]
      | eapply ec_structs; [exact ec_BufferView|assumption|assumption|exact O]
      | eapply ec_structs; [exact ec_Camera|assumption|assumption|exact O]
      | eapply ec_structs; [exact ec_Image|assumption|assumption|exact O]
      | eapply ec_structs; [exact ec_Material|assumption|assumption|exact O]
      | eapply ec_structs; [exact ec_Mesh|assumption|assumption|exact O]
      | eapply ec_structs; [exact ec_Node|assumption|assumption|exact O]
      | eapply ec_structs; [exact ec_Sampler|assumption|assumption|exact O]
      | eapply ec_structs; [exact ec_Scene|assumption|assumption|exact O]
      | eapply ec_structs; [exact ec_Skin|assumption|assumption|exact O]
      | eapply ec_structs; [exact ec_Texture|assumption|assumption|exact O] ]).
Qed.
End Doc.
