(** When the encoders of encoding/json succeed, type by type, and that what
    they write is well-formed. *)
From Verif Require Import Base BaseFacts Types Doc F64 SpecText JsonText JsonStringProofs Codec DocCodec SpecJson CodecProofs SpecGo.

(** On the values in [G], [c] writes well-formed JSON if the value is in [S]
    and fails with an error otherwise. *)
Definition exact {A} (G S : A -> Prop) (c : codec A) : Prop :=
  forall x, G x -> match enc c x with Ok j => lexical j /\ S x | Err _ => ~ S x | Panic => False end.

Lemma lexical_arr js : Forall lexical js -> lexical (JArr js).
Proof.
  intros H. assert (E : exists n, Forall (wf_json n) js).
  { induction H as [|j js [n Hn] _ [m Hm]]; [exists 0%nat; constructor|]. exists (Nat.max n m). constructor.
    - exact (wf_json_mono _ _ _ Hn (Nat.le_max_l _ _)).
    - eapply Forall_impl; [|exact Hm]. intros a Ha. exact (wf_json_mono _ _ _ Ha (Nat.le_max_r _ _)). }
  destruct E as [n Hn]. exists (S n). constructor. exact Hn.
Qed.
Definition lex_members (m : list (string * json)) : Prop :=
  Forall (fun p => string_body (str_bytes (fst p)) /\ lexical (snd p)) m.
Lemma lexical_obj m : lex_members m -> lexical (JObj m).
Proof.
  intros H. assert (E : exists n, Forall (fun p => string_body (str_bytes (fst p)) /\ wf_json n (snd p)) m).
  { induction H as [|p m [Kp [n Hn]] _ [k Hk]]; [exists 0%nat; constructor|]. exists (Nat.max n k). constructor.
    - split; [exact Kp|]. exact (wf_json_mono _ _ _ Hn (Nat.le_max_l _ _)).
    - eapply Forall_impl; [|exact Hk]. intros a [Ka Ha]. split; [exact Ka|]. exact (wf_json_mono _ _ _ Ha (Nat.le_max_r _ _)). }
  destruct E as [n Hn]. exists (S n). constructor. exact Hn.
Qed.
Lemma lexical_str s : lexical (JStr (quote_str s)).
Proof. exists 0%nat. constructor. apply quote_str_body. Qed.
Lemma lexical_type s m : string_body (str_bytes s) -> lex_members m -> lexical (JObj (("type"%string, JStr s) :: m)).
Proof.
  intros Hs Hm. apply lexical_obj. constructor; [|exact Hm]. split.
  - cbn [fst]. replace "type"%string with (quote_str "type") by (vm_compute; reflexivity). apply quote_str_body.
  - exists 0%nat. constructor. exact Hs.
Qed.

(** ** Base types *)
Lemma ex_str : exact (fun _ => True) (fun _ => True) c_str.
Proof. intros x _. cbn. split; [apply lexical_str|exact I]. Qed.
Lemma ex_bool : exact (fun _ => True) (fun _ => True) c_bool.
Proof. intros x _. cbn. split; [exists 0%nat; constructor|exact I]. Qed.
Lemma lexical_int n : - 10 ^ 20 < n < 10 ^ 20 -> lexical (JNum (fmt_int n)).
Proof. intros H. exists 0%nat. constructor. apply fmt_int_number. exact H. Qed.
Lemma ex_int : exact in_i64 (fun _ => True) c_int.
Proof.
  intros x H. cbn [c_int enc]. split; [|exact I]. apply lexical_int. unfold in_i64 in H. rewrite p63 in H. rewrite big10. lia.
Qed.
Lemma ex_tgt : exact (range 65536) (fun _ => True) c_tgt.
Proof. intros x H. cbn [c_tgt c_uint enc]. split; [|exact I]. apply lexical_int. unfold range in H. rewrite big10. lia. Qed.
Lemma ex_enum_num {E} (eqb : E -> E -> bool) zero max tbl :
  Forall (fun p => 0 <= snd p < 65536) tbl -> exact (fun _ => True) (fun _ => True) (c_enum_num eqb zero max tbl).
Proof.
  intros T x _. cbn [c_enum_num enc]. split; [|exact I]. apply lexical_int. unfold lookup_by.
  destruct (find _ tbl) as [p|] eqn:Ef; [|rewrite big10; lia].
  apply find_some in Ef. rewrite Forall_forall in T. specialize (T _ (proj1 Ef)). rewrite big10. lia.
Qed.
Lemma ex_enum_str {E} (eqb : E -> E -> bool) zero strict tbl : exact (fun _ => True) (fun _ => True) (c_enum_str eqb zero strict tbl).
Proof. intros x _. cbn [c_enum_str enc]. split; [apply lexical_str|exact I]. Qed.
Ltac tbl_tac := repeat apply Forall_cons; try apply Forall_nil; cbn [snd]; lia.
Lemma ex_ct : exact (fun _ => True) (fun _ => True) c_ct. Proof. apply ex_enum_num. tbl_tac. Qed.
Lemma ex_at : exact (fun _ => True) (fun _ => True) c_at. Proof. apply ex_enum_str. Qed.
Lemma ex_mode : exact (fun _ => True) (fun _ => True) c_mode. Proof. apply ex_enum_num. tbl_tac. Qed.
Lemma ex_alpha : exact (fun _ => True) (fun _ => True) c_alpha. Proof. apply ex_enum_str. Qed.
Lemma ex_mag : exact (fun _ => True) (fun _ => True) c_mag. Proof. apply ex_enum_num. tbl_tac. Qed.
Lemma ex_minf : exact (fun _ => True) (fun _ => True) c_minf. Proof. apply ex_enum_num. tbl_tac. Qed.
Lemma ex_wrap : exact (fun _ => True) (fun _ => True) c_wrap. Proof. apply ex_enum_num. tbl_tac. Qed.
Lemma ex_interp : exact (fun _ => True) (fun _ => True) c_interp. Proof. apply ex_enum_str. Qed.
Lemma ex_trs : exact (fun _ => True) (fun _ => True) c_trs. Proof. apply ex_enum_str. Qed.

(** ** Containers *)
Lemma ex_ptr {A} (G S : A -> Prop) zero c : exact G S c -> exact (opt G) (opt S) (c_ptr zero c).
Proof.
  intros H [a|] W; cbn [c_ptr enc opt] in *; [exact (H a W)|]. split; [exists 0%nat; constructor|exact I].
Qed.
Lemma traverse_exact {A B} (G S : A -> Prop) (P : B -> Prop) f :
  (forall x, G x -> match f x with Ok j => P j /\ S x | Err _ => ~ S x | Panic => False end) ->
  forall l, Forall G l -> match traverse f l with Ok js => Forall P js /\ Forall S l | Err _ => ~ Forall S l | Panic => False end.
Proof.
  intros H l W. induction W as [|a l Ga _ IH]; cbn [traverse]; [split; constructor|].
  specialize (H a Ga). destruct (f a) as [j|e|]; cbn [bind]; [|intros F; apply H; exact (Forall_inv F)|exact H].
  destruct (traverse f l) as [js|e|]; cbn [bind]; [|intros F; apply IH; exact (Forall_inv_tail F)|exact IH].
  split; constructor; tauto.
Qed.
Lemma list_exact {A} (G S : A -> Prop) c : exact G S c -> forall l, Forall G l ->
  match (js <- traverse (enc c) l ;; Ok (JArr js)) with Ok j => lexical j /\ Forall S l | Err _ => ~ Forall S l | Panic => False end.
Proof.
  intros H l W. pose proof (traverse_exact G S lexical (enc c) H l W) as T.
  destruct (traverse (enc c) l); cbn [bind]; [|exact T|exact T]. split; [apply lexical_arr|]; tauto.
Qed.
Lemma ex_slice {A} (G S : A -> Prop) zero c : exact G S c -> exact (Forall G) (Forall S) (c_slice zero c).
Proof. intros H l W. exact (list_exact G S c H l W). Qed.
Lemma ex_oslice {A} (G S : A -> Prop) zero c : exact G S c -> exact (opt (Forall G)) (opt (Forall S)) (c_oslice zero c).
Proof.
  intros H [l|] W; cbn [c_oslice enc opt] in *; [exact (list_exact G S c H l W)|]. split; [exists 0%nat; constructor|exact I].
Qed.
Definition obj_enc {A} (f : string -> A -> res json) (p : string * A) : res (string * json) :=
  j <- f (fst p) (snd p) ;; Ok (quote_str (fst p), j).
Lemma obj_exact {A} (G S : string -> A -> Prop) (f : string -> A -> res json) m :
  (forall p, In p m -> G (fst p) (snd p) -> match f (fst p) (snd p) with Ok j => lexical j /\ S (fst p) (snd p) | Err _ => ~ S (fst p) (snd p) | Panic => False end) ->
  Forall (fun p => G (fst p) (snd p)) m ->
  match (js <- traverse (obj_enc f) m ;; Ok (JObj js)) with
  | Ok j => lexical j /\ Forall (fun p => S (fst p) (snd p)) m | Err _ => ~ Forall (fun p => S (fst p) (snd p)) m | Panic => False end.
Proof.
  intros H W.
  pose proof (traverse_exact (fun p => In p m /\ G (fst p) (snd p)) (fun p => S (fst p) (snd p))
    (fun q => string_body (str_bytes (fst q)) /\ lexical (snd q)) (obj_enc f)) as T.
  specialize (fun a b => T a m b).
  assert (T1 : forall p, In p m /\ G (fst p) (snd p) ->
    match obj_enc f p with Ok j => (string_body (str_bytes (fst j)) /\ lexical (snd j)) /\ S (fst p) (snd p) | Err _ => ~ S (fst p) (snd p) | Panic => False end).
  { intros p [I Gp]. specialize (H p I Gp). unfold obj_enc. destruct (f (fst p) (snd p)) as [j|e|]; cbn [bind fst snd]; [|exact H|exact H].
    split; [split; [apply quote_str_body|tauto]|tauto]. }
  specialize (T T1). assert (T2 : Forall (fun p => In p m /\ G (fst p) (snd p)) m).
  { rewrite Forall_forall in *. intros p I. split; [exact I|exact (W p I)]. }
  specialize (T T2). destruct (traverse (obj_enc f) m); cbn [bind]; [|exact T|exact T]. split; [apply lexical_obj|]; tauto.
Qed.
Lemma ex_attrs : exact (opt go_attrs) (fun _ => True) c_attrs.
Proof.
  intros [m|] W; cbn [c_attrs enc opt] in *; [|split; [exists 0%nat; constructor|exact I]].
  pose proof (obj_exact (fun _ v => in_i64 v) (fun _ _ => True) (fun _ v => enc c_int v) m) as T.
  assert (T1 := T (fun p _ Gp => ex_int (snd p) Gp) W). clear T. unfold obj_enc in T1. revert T1.
  destruct (js <- _ ;; _) as [j|e|]; intros T1; [split; [apply T1|exact I]|exfalso; apply T1; apply Forall_forall; intros; exact I|exact T1].
Qed.

(** ** Floats, values of type any, extensions *)
Section Params.
Context (F : float_lib) (X : ext_lib).
Lemma ex_f64 : float_contract F -> exact go_float finite (c_f64 F).
Proof.
  intros HF x H. cbn [c_f64 enc]. unfold enc_f64, finite. destruct (f64_finite x) eqn:E; [|discriminate].
  split; [|reflexivity]. exists 0%nat. constructor. exact (proj1 (HF x (conj H E))).
Qed.
Lemma ex_array k : float_contract F -> exact (go_array k) (Forall finite) (c_array 0 (c_f64 F)).
Proof. intros HF l [_ W]. exact (list_exact go_float finite (c_f64 F) (ex_f64 HF) l W). Qed.
Lemma ex_any : float_contract F -> exact go_any savable_any (c_any F).
Proof.
  intros HF. unfold exact. cbn [c_any enc]. apply (any_ind' (fun x => go_any x -> match enc_any F x with Ok j => lexical j /\ savable_any x | Err _ => ~ savable_any x | Panic => False end)).
  - intros _. split; [exists 0%nat; constructor|constructor].
  - intros b _. split; [exists 0%nat; constructor|constructor].
  - intros f W. inversion W; subst. pose proof (ex_f64 HF f H0) as T. cbn [c_f64 enc] in T. cbn [enc_any].
    destruct (enc_f64 F f) as [j|e|]; [split; [apply T|constructor; apply T]|intros Y; inversion Y; contradiction|exact T].
  - intros s _. split; [apply lexical_str|constructor].
  - intros l IH W. inversion W; subst. cbn [enc_any].
    pose proof (traverse_exact (fun x => go_any x /\ (go_any x -> match enc_any F x with Ok j => lexical j /\ savable_any x | Err _ => ~ savable_any x | Panic => False end))
      savable_any lexical (enc_any F) (fun x Hx => proj2 Hx (proj1 Hx)) l) as T.
    assert (T2 : Forall (fun x => go_any x /\ (go_any x -> match enc_any F x with Ok j => lexical j /\ savable_any x | Err _ => ~ savable_any x | Panic => False end)) l).
    { rewrite Forall_forall in *. intros x I. split; [exact (H0 x I)|exact (IH x I)]. }
    specialize (T T2). destruct (traverse (enc_any F) l); cbn [bind]; [split; [apply lexical_arr; apply T|constructor; apply T]|intros Y; inversion Y; apply T; assumption|exact T].
  - intros m IH W. inversion W; subst. cbn [enc_any].
    pose proof (obj_exact (fun _ v => go_any v) (fun _ v => savable_any v) (fun _ v => enc_any F v) m) as T.
    assert (T1 := T (fun p I Gp => proj1 (Forall_forall _ _) IH p I Gp) H0). clear T. unfold obj_enc in T1. revert T1.
    destruct (js <- _ ;; _) as [j|e|]; intros T1; [split; [apply T1|constructor; apply T1]|intros Y; inversion Y; apply T1; assumption|exact T1].
Qed.
Lemma ex_ext : exact (go_ext X) (savable_ext X) (c_ext X).
Proof.
  intros m W. cbn [c_ext enc]. unfold enc_ext.
  refine (obj_exact (go_extv X) (savable_extv X) (enc_extv X) m _ W). intros p _ Gp. destruct (snd p) as [j|v]; cbn [enc_extv savable_extv go_extv] in *.
  - split; [|exact I]. destruct Gp as [n Hn]. exists n. apply html_wf. exact Hn.
  - destruct (ext_enc X (fst p) v) as [j|e|]; cbn [bind].
    + split; [|eexists; reflexivity]. destruct Gp as [n Hn]. exists n. apply html_wf. exact Hn.
    + intros [j Ej]. discriminate.
    + exact Gp.
Qed.
End Params.

(** ** Structs *)
Definition exact_fields {T} (G S : T -> Prop) (fs : list (field T)) : Prop :=
  forall x, G x -> match enc_fields fs x with Ok m => lex_members m /\ S x | Err _ => ~ S x | Panic => False end.
Definition fexact {T} (G : T -> Prop) (f : field T) (S : T -> Prop) : Prop :=
  match f with
  | @Fld _ A name get _ c om => string_body (str_bytes name) /\ exists GA SA : A -> Prop,
      exact GA SA c /\ (forall x, G x -> GA (get x)) /\ (forall a, GA a -> om a = true -> SA a) /\ (forall x, S x = SA (get x))
  end.
Lemma fexact_intro {T A} (G : T -> Prop) (GA SA : A -> Prop) name get set c om :
  string_body (str_bytes name) -> exact GA SA c -> (forall x, G x -> GA (get x)) -> (forall a, GA a -> om a = true -> SA a) ->
  fexact G (@Fld T A name get set c om) (fun x => SA (get x)).
Proof. intros H1 H2 H3 H4. split; [exact H1|]. exists GA, SA. split; [exact H2|]. split; [exact H3|]. split; [exact H4|]. reflexivity. Qed.
Lemma exact_fields_intro {T} (G S : T -> Prop) (fs : list (field T)) (Ss : list (T -> Prop)) :
  Forall2 (fexact G) fs Ss -> (forall x, Forall (fun P => P x) Ss <-> S x) -> exact_fields G S fs.
Proof.
  intros H E x Gx.
  assert (R : match enc_fields fs x with Ok m => lex_members m /\ Forall (fun P => P x) Ss | Err _ => ~ Forall (fun P => P x) Ss | Panic => False end).
  { clear E. induction H as [|f P fs Ss Hf _ IH]; [split; constructor|]. destruct f as [A name get set c om]. cbn [enc_fields].
    destruct Hf as (B & GA & SA & Ec & Eg & Eo & Es). specialize (Eg x Gx). specialize (Es x).
    destruct (om (get x)) eqn:O.
    - specialize (Eo _ Eg O). rewrite <- Es in Eo. destruct (enc_fields fs x); [split; [apply IH|constructor; [exact Eo|apply IH]]|intros Y; apply IH; exact (Forall_inv_tail Y)|exact IH].
    - specialize (Ec _ Eg). destruct (enc c (get x)) as [j|e|]; cbn [bind]; [|intros Y; apply Ec; rewrite <- Es; exact (Forall_inv Y)|exact Ec].
      destruct (enc_fields fs x) as [m|e|]; cbn [bind]; [|intros Y; apply IH; exact (Forall_inv_tail Y)|exact IH].
      split; [constructor; [split; [exact B|apply Ec]|apply IH]|constructor; [rewrite Es; apply Ec|apply IH]]. }
  specialize (E x). destruct (enc_fields fs x); tauto.
Qed.
Lemma exact_struct {T} (G S : T -> Prop) (fs : list (field T)) : exact_fields G S fs ->
  forall x, G x -> match enc_struct fs x with Ok j => lexical j /\ S x | Err _ => ~ S x | Panic => False end.
Proof.
  intros H x Gx. specialize (H x Gx). unfold enc_struct. destruct (enc_fields fs x); cbn [bind]; [split; [apply lexical_obj|]; tauto|exact H|exact H].
Qed.

(** ** Tactics for DocExact *)
Lemma name_body s : quote_str s = s -> string_body (str_bytes s).
Proof. intros <-. apply quote_str_body. Qed.
Ltac name_tac := apply name_body; vm_compute; reflexivity.
Lemma Forall_true {A} (l : list A) : Forall (fun _ => True) l. Proof. induction l; constructor; [exact I|assumption]. Qed.
Lemma opt_true {A} (o : option A) : opt (fun _ => True) o. Proof. destruct o; exact I. Qed.
Lemma opt_Forall_true {A} (o : option (list A)) : opt (Forall (fun _ => True)) o. Proof. destruct o; [apply Forall_true|exact I]. Qed.
Ltac true_tac := first [exact I | apply Forall_true | apply opt_true | apply opt_Forall_true].
Ltac go_tac d := let x := fresh in let H := fresh in intros x H; first [true_tac | unfold d in H; decompose [and] H; assumption].
Lemma f64_eq_finite v d : go_float v -> f64_finite d = true -> 0 <= d < 2 ^ 64 -> f64_eq v d = true -> f64_finite v = true.
Proof.
  intros R D Rd E. unfold f64_eq in E. apply andb_prop in E. destruct E as [_ E]. apply Z.eqb_eq in E.
  assert (M : f64_mag v = f64_mag d).
  { unfold f64_key, f64_sign, f64_mag, go_float in *. change (2 ^ 63) with 9223372036854775808 in *. change (2 ^ 64) with 18446744073709551616 in *.
    destruct (9223372036854775808 <=? v) eqn:A, (9223372036854775808 <=? d) eqn:B; lia. }
  unfold f64_finite in *. rewrite M. exact D.
Qed.
Lemma arr_eq_finite v : forall d, Forall go_float v -> Forall (fun d => f64_finite d = true /\ 0 <= d < 2 ^ 64) d -> arr_eq v d = true -> Forall finite v.
Proof.
  induction v as [|a v IH]; intros [|b d] W D E; try discriminate; [constructor|]. cbn in E. apply andb_prop in E. destruct E as [E1 E2].
  destruct (Forall_inv D) as [D1 D2]. constructor; [exact (f64_eq_finite a b (Forall_inv W) D1 D2 E1)|exact (IH d (Forall_inv_tail W) (Forall_inv_tail D) E2)].
Qed.
Lemma arr_default_finite k d z v : Forall (fun d => f64_finite d = true /\ 0 <= d < 2 ^ 64) d -> Forall (fun d => f64_finite d = true /\ 0 <= d < 2 ^ 64) z ->
  go_array k v -> arr_default d z v = true -> Forall finite v.
Proof.
  intros D Z [_ W] E. unfold arr_default in E. apply orb_prop in E. destruct E as [E|E]; [exact (arr_eq_finite v d W D E)|exact (arr_eq_finite v z W Z E)].
Qed.
Lemma opt_default_finite d o : f64_finite d = true -> 0 <= d < 2 ^ 64 -> opt go_float o -> opt_default d o = true -> opt finite o.
Proof. destruct o as [v|]; cbn; [|trivial]. intros D R W E. exact (f64_eq_finite v d W D R E). Qed.
Lemma oarr_default_finite k d o : Forall (fun d => f64_finite d = true /\ 0 <= d < 2 ^ 64) d -> opt (go_array k) o -> oarr_default d o = true -> opt (Forall finite) o.
Proof. destruct o as [v|]; cbn; [|trivial]. intros D [_ W] E. exact (arr_eq_finite v d W D E). Qed.
Ltac fin_tac := cbn [repeat DefaultMatrix DefaultRotation DefaultScale]; repeat apply Forall_cons; try apply Forall_nil; (split; [vm_compute; reflexivity|vm_compute; split; [discriminate|reflexivity]]).
Ltac omit_exact_tac :=
  let a := fresh "a" in let W := fresh in let E := fresh in intros a W E;
  first [true_tac
        | discriminate E
        | refine (arr_default_finite _ _ _ a _ _ W E); fin_tac
        | refine (oarr_default_finite _ _ a _ W E); fin_tac
        | refine (opt_default_finite _ a _ _ W E); [vm_compute; reflexivity|vm_compute; split; [discriminate|reflexivity]]
        | destruct a; try discriminate E; first [exact I | constructor]].
Ltac sav_tac :=
  split;
  [let H := fresh in intros H; repeat (rewrite Forall_cons_iff in H); decompose [and] H; repeat (split; [assumption|]); first [assumption|exact I]
  |let H := fresh in intros H; decompose [and] H; repeat apply Forall_cons; try apply Forall_nil; first [true_tac|assumption]].
