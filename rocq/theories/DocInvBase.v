(** Lemmas and tactics for DocCodecInv. *)
From Verif Require Import Base BaseFacts Types Doc F64 SpecText JsonText JsonStringProofs Codec DocCodec SpecJson SpecJsonDoc CodecProofs CodecInv DocCodecBase.

Lemma in_i64_0 : in_i64 0. Proof. unfold in_i64. rewrite p63. lia. Qed.
Lemma float_ok_0 : float_ok 0. Proof. split; [split; [lia|reflexivity]|reflexivity]. Qed.
Lemma float_ok_one : float_ok one. Proof. split; [split; [discriminate|reflexivity]|reflexivity]. Qed.
Lemma float_ok_half : float_ok half. Proof. split; [split; [discriminate|reflexivity]|reflexivity]. Qed.
Lemma utf8_nil : utf8_str "". Proof. apply ascii_utf8; reflexivity. Qed.
Lemma Forall_repeat {A} (P : A -> Prop) a k : P a -> Forall P (repeat a k).
Proof. intros H. induction k; constructor; assumption. Qed.
Lemma farray_0 k : farray k (repeat 0 k).
Proof. split; [apply repeat_length|apply Forall_repeat, float_ok_0]. Qed.
Lemma farray_one k : farray k (repeat one k).
Proof. split; [apply repeat_length|apply Forall_repeat, float_ok_one]. Qed.
Lemma wf_ext_nil X n : wf_ext X n []. Proof. split; constructor. Qed.
Lemma farray_matrix : farray 16 DefaultMatrix.
Proof. split; [reflexivity|]. repeat (apply Forall_cons; [first [exact float_ok_0|exact float_ok_one]|]). apply Forall_nil. Qed.
Lemma farray_rotation : farray 4 DefaultRotation.
Proof. split; [reflexivity|]. repeat (apply Forall_cons; [first [exact float_ok_0|exact float_ok_one]|]). apply Forall_nil. Qed.
Lemma farray_scale : farray 3 DefaultScale.
Proof. split; [reflexivity|]. repeat (apply Forall_cons; [first [exact float_ok_0|exact float_ok_one]|]). apply Forall_nil. Qed.

Ltac zero_tac :=
  first [ exact I | apply wf_ext_nil | apply wa_null | exact utf8_nil | exact in_i64_0 | exact float_ok_0
        | apply Forall_nil | apply farray_0 | exact farray_matrix | exact farray_rotation | exact farray_scale
        | exact (farray_one 4) | exact float_ok_one | exact float_ok_half
        | reflexivity
        | (cbn; unfold range; lia)
        | (apply ascii_utf8; reflexivity) ].

Ltac finv_tac I0 P :=
  apply (finv_intro _ _ _ _ _ _ _ _ I0);
  [ let y := fresh in let W := fresh in intros y W; unfold P in W; decompose [and] W; first [assumption | exact I]
  | let y := fresh in let v := fresh in let W := fresh in let V := fresh in
    intros y v W V; unfold P in W |- *; decompose [and] W;
    repeat (split; [assumption|]); assumption ].

Ltac settled_tac := first [exact I | split; [apply sk_nil|apply Forall_nil] | apply Forall_nil].
Ltac finv_other := let y := fresh in let j := fresh in let v := fresh in let P := fresh in intros y j v P _ _; exact P.

Section Norm.
Context (X : ext_lib) (n : nat).
Lemma wf_read_payload k j : registry_encodes X n -> wf_payload X n k j -> wf_extv X n k (read_payload X k j).
Proof.
  intros RO [W NP]. pose proof (html_wf j n W) as WH. unfold read_payload.
  assert (R : wf_extv X n k (ERaw (html_json j))).
  { split; [exact WH|]. intros f Hf. rewrite html_json_idem. exact (NP f Hf). }
  destruct (registry X k) as [f|] eqn:E; [|exact R].
  destruct (f (html_json j)) as [v|e|] eqn:Ef; [|exact R|exact R]. exact (RO k f _ v E WH Ef).
Qed.
Lemma wf_norm_extv k e : registry_encodes X n -> wf_extv X n k e -> wf_extv X n k (norm_extv X k e).
Proof.
  intros RO W. destruct e as [j|v]; cbn [norm_extv]; [exact (wf_read_payload k j RO W)|].
  destruct W as (j & E & W). rewrite E. exact (wf_read_payload k j RO W).
Qed.
Lemma wf_norm_ext (RO : registry_encodes X n) m : wf_ext X n m -> wf_ext X n (norm_ext X m).
Proof.
  intros [S F]. split.
  - apply (sorted_map (fun p => norm_extv X (fst p) (snd p))). exact S.
  - unfold norm_ext. apply Forall_map. apply (Forall_impl _ (P := fun p => utf8_str (fst p) /\ wf_extv X n (fst p) (snd p))); [|exact F].
    intros p [U W]. split; [exact U|]. apply wf_norm_extv; assumption.
Qed.
Lemma norm_ext_idem m : settled_ext X m -> norm_ext X (norm_ext X m) = norm_ext X m.
Proof.
  intros [_ S]. unfold norm_ext. rewrite map_map. apply map_ext_Forall. eapply Forall_impl; [|exact S]. intros [k e] H. cbn [fst snd] in *. rewrite H. reflexivity.
Qed.
End Norm.

(** Enough for a registry: what is built is written, what was written is read,
    and from then on the same value comes back. *)
Lemma registry_ok_intro X n : registry_total X ->
  (forall k f j, registry X k = Some f -> wf_json n j ->
   match f j with
   | Ok v => exists j1 v1, ext_enc X k v = Ok j1 /\ wf_json n j1 /\ f (html_json j1) = Ok v1 /\
             exists j2, ext_enc X k v1 = Ok j2 /\ f (html_json j2) = Ok v1
   | Err _ => exists e, f (html_json j) = Err e
   | Panic => True
   end) -> registry_ok X n.
Proof.
  intros RT H. split.
  - intros k f j v R W E. specialize (H k f j R W). rewrite E in H. destruct H as (j1 & v1 & E1 & W1 & _).
    exists j1. split; [exact E1|]. split; [exact W1|]. intros g Hg. exact (RT k g _ Hg).
  - intros k j e W D. unfold dec_extv in D. destruct (registry X k) as [f|] eqn:R.
    + specialize (H k f j R W). destruct (f j) as [v|er|]; [| |discriminate]; injection D as <-.
      * destruct H as (j1 & v1 & E1 & _ & D1 & j2 & E2 & D2).
        assert (P1 : read_payload X k j1 = EVal v1) by (unfold read_payload; rewrite R, D1; reflexivity).
        assert (P2 : read_payload X k j2 = EVal v1) by (unfold read_payload; rewrite R, D2; reflexivity).
        cbn [norm_extv]. rewrite E1, P1. cbn [norm_extv]. rewrite E2. exact P2.
      * destruct H as [e' He].
        assert (P1 : forall a, html_json a = html_json j -> read_payload X k a = ERaw (html_json j)) by (intros a Ea; unfold read_payload; rewrite R, Ea, He; reflexivity).
        cbn [norm_extv]. rewrite (P1 j eq_refl). cbn [norm_extv]. apply P1, html_json_idem.
    + injection D as <-. cbn [norm_extv]. assert (P1 : forall a, read_payload X k a = ERaw (html_json a)) by (intros a; unfold read_payload; rewrite R; reflexivity).
      rewrite P1. cbn [norm_extv]. rewrite P1, html_json_idem. reflexivity.
Qed.

Lemma opt_map_wf {A} (P : A -> Prop) (f : A -> A) (Q : A -> Prop) : (forall x, P x -> Q (f x)) ->
  forall o, opt P o -> opt Q (option_map f o).
Proof. intros H [a|] W; [exact (H a W)|exact I]. Qed.
Lemma list_map_wf {A} (P : A -> Prop) (f : A -> A) (Q : A -> Prop) : (forall x, P x -> Q (f x)) ->
  forall l, Forall P l -> Forall Q (map f l).
Proof. intros H l W. apply Forall_map. exact (Forall_impl _ H W). Qed.
Lemma or_default_wf k d z v : farray k d -> farray k v -> farray k (or_default d z v).
Proof. intros D V. unfold or_default. destruct (_ || _); assumption. Qed.
Lemma or_some_wf {A} (P : A -> Prop) d o : P d -> opt P o -> opt P (or_some d o).
Proof. intros D O. destruct o; assumption. Qed.
Lemma or_version_wf s : utf8_str s -> utf8_str (or_version s).
Proof. unfold or_version. destruct (String.eqb s ""); [intros _; apply ascii_utf8; reflexivity|intros H; exact H]. Qed.
Ltac wf_default_tac :=
  first [ apply or_default_wf; [first [apply farray_0 | exact farray_matrix | exact farray_rotation | exact farray_scale]|assumption]
        | apply or_some_wf; [first [exact float_ok_one | exact float_ok_half | exact (farray_one 4)]|assumption]
        | apply or_version_wf; assumption ].

Lemma opt_idem {A} (P : A -> Prop) (f : A -> A) o : (forall x, P x -> f (f x) = f x) -> opt P o -> option_map f (option_map f o) = option_map f o.
Proof. intros H W. destruct o; cbn; [rewrite H by exact W|]; reflexivity. Qed.
Lemma map_idem {A} (P : A -> Prop) (f : A -> A) l : (forall x, P x -> f (f x) = f x) -> Forall P l -> map f (map f l) = map f l.
Proof. intros H W. rewrite map_map. apply map_ext_Forall. eapply Forall_impl; [|exact W]. exact H. Qed.
Lemma or_default_idem d z v : same_numbers d d = true -> or_default d z (or_default d z v) = or_default d z v.
Proof.
  intros D. unfold or_default at 2 3. destruct (same_numbers v d || same_numbers v z) eqn:E.
  - unfold or_default. rewrite D. reflexivity.
  - unfold or_default. rewrite E. reflexivity.
Qed.
Lemma or_some_idem {A} (d : A) o : or_some d (or_some d o) = or_some d o.
Proof. destruct o; reflexivity. Qed.
Lemma or_version_idem s : or_version (or_version s) = or_version s.
Proof. unfold or_version. destruct (String.eqb s "") eqn:E; [reflexivity|rewrite E; reflexivity]. Qed.

(** Encoding the normal form. *)
Definition est {A} (c : codec A) (norm : A -> A) (P : A -> Prop) : Prop := forall x, P x -> enc c (norm x) = enc c x.
Lemma est_ptr {A} (zero : A) c norm P : est c norm P -> est (c_ptr zero c) (option_map norm) (opt P).
Proof. intros H [a|] W; [exact (H a W)|reflexivity]. Qed.
Lemma est_traverse {A} (c : codec A) norm P l : est c norm P -> Forall P l -> traverse (enc c) (map norm l) = traverse (enc c) l.
Proof. intros H W. induction W as [|a l Ha W IH]; [reflexivity|]. cbn. rewrite (H a Ha), IH. reflexivity. Qed.
Lemma est_slice {A} (zero : A) c norm P : est c norm P -> est (c_slice zero c) (map norm) (Forall P).
Proof. intros H l W. cbn. rewrite (est_traverse c norm P l H W). reflexivity. Qed.
Lemma est_oslice {A} (zero : A) c norm P : est c norm P -> est (c_oslice zero c) (option_map (map norm)) (opt (Forall P)).
Proof. intros H [l|] W; [|reflexivity]. cbn in *. rewrite (est_traverse c norm P l H W). reflexivity. Qed.
Lemma est_ext X : est (c_ext X) (norm_ext X) (canon_ext X).
Proof.
  intros m C. cbn [c_ext enc]. unfold enc_ext, norm_ext. f_equal.
  induction C as [|[k e] m Hp C IH]; [reflexivity|]. cbn [map traverse fst snd]. rewrite IH.
  assert (E : enc_extv X k (norm_extv X k e) = enc_extv X k e).
  { cbn [fst snd] in Hp. destruct e as [j|v]; cbn [norm_extv].
    - unfold read_payload. destruct (registry X k) as [f|].
      + destruct (Hp f eq_refl) as [er ->]. cbn [enc_extv]. rewrite html_json_idem. reflexivity.
      + cbn [enc_extv]. rewrite html_json_idem. reflexivity.
    - destruct (ext_enc X k v) as [j|er|] eqn:E; [|reflexivity..]. unfold read_payload. cbn [enc_extv]. rewrite E. cbn [bind].
      destruct (registry X k) as [f|]; [|cbn [enc_extv]; rewrite html_json_idem; reflexivity].
      destruct (f (html_json j)) as [v'|er|] eqn:Ef; cbn [enc_extv]; [|rewrite html_json_idem; reflexivity..].
      rewrite (Hp j f v' eq_refl eq_refl Ef). reflexivity. }
  rewrite E. reflexivity.
Qed.
Section Fest.
Context {T : Type}.
Definition fest (x z : T) (f : field T) : Prop :=
  match f with Fld _ get _ c omit => omit (get z) = omit (get x) /\ (omit (get x) = false -> enc c (get z) = enc c (get x)) end.
Lemma est_fields fs (z x : T) : Forall (fest x z) fs -> enc_fields fs z = enc_fields fs x.
Proof.
  intros H. induction H as [|f fs Hf H IH]; [reflexivity|]. destruct f. cbn in Hf |- *. destruct Hf as [E1 E2]. rewrite E1.
  destruct (omit (get x)); [exact IH|]. rewrite (E2 eq_refl), IH. reflexivity.
Qed.
End Fest.
Ltac omit_same := cbn; try reflexivity; match goal with |- context [_ (?p ?x)] => destruct (p x); reflexivity end.
Lemma arr_default_same d z v : arr_eq d d = true -> arr_default d z (or_default d z v) = arr_default d z v.
Proof.
  intros D. unfold arr_default, or_default. rewrite !same_numbers_arr.
  destruct (arr_eq v d || arr_eq v z) eqn:E; [rewrite D; reflexivity|exact E].
Qed.
Lemma opt_default_same d o : f64_eq d d = true -> opt_default d (or_some d o) = opt_default d o.
Proof. intros D. destruct o; [reflexivity|exact D]. Qed.
Lemma oarr_default_same d o : arr_eq d d = true -> oarr_default d (or_some d o) = oarr_default d o.
Proof. intros D. destruct o; [reflexivity|exact D]. Qed.
Ltac fest_default_tac :=
  split; [ first [ apply arr_default_same; reflexivity | apply opt_default_same; reflexivity | apply oarr_default_same; reflexivity
                 | reflexivity ]
         | let O := fresh in intros O; f_equal;
           first [ exact (arr_default_ne _ _ _ O)
                 | refine (eq_trans (opt_default_ne _ _ O) _); apply option_map_id'
                 | refine (eq_trans (oarr_default_ne _ _ O) _); apply option_map_id'
                 | match goal with NV : _ <> ""%string |- _ => unfold norm_Asset, or_version; cbn; apply String.eqb_neq in NV; rewrite NV; reflexivity end ] ].
