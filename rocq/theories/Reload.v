(** Decoding into a value that is not zero: what a JSON value does to it.  The
    functions that JSON values denote satisfy f (g (f x)) = f (g x). *)
From Verif Require Import Base BaseFacts Types Doc F64 SpecText JsonText Codec SpecJson CodecProofs.

Section Codec.
Context {A : Type} (c : codec A).
(** The outcome does not depend on the old value. *)
Definition same_way : Prop := forall j,
  (exists f, forall z, dec c z j = Ok (f z)) \/ (exists e, forall z, dec c z j = Err e) \/ (forall z, dec c z j = Panic).
(** What sequences of JSON values do. *)
Inductive act : (A -> A) -> Prop :=
| act_id f : (forall x, f x = x) -> act f
| act_const f a : (forall x, f x = a) -> act f
| act_dec j f : (forall z, dec c z j = Ok (f z)) -> act f
| act_comp f g h : act f -> act g -> (forall x, h x = f (g x)) -> act h.
Definition settles : Prop := forall f g, act f -> act g -> forall x, f (g (f x)) = f (g x).
Definition stable : Prop := same_way /\ settles.

Lemma act_ind_class (S : (A -> A) -> Prop) :
  (forall f, (forall x, f x = x) -> S f) -> (forall f a, (forall x, f x = a) -> S f) ->
  (forall j f, (forall z, dec c z j = Ok (f z)) -> S f) ->
  (forall f g h, S f -> S g -> (forall x, h x = f (g x)) -> S h) ->
  forall f, act f -> S f.
Proof. intros H1 H2 H3 H4 f A1. induction A1; eauto. Qed.
Lemma settles_by (S : (A -> A) -> Prop) :
  (forall f, (forall x, f x = x) -> S f) -> (forall f a, (forall x, f x = a) -> S f) ->
  (forall j f, (forall z, dec c z j = Ok (f z)) -> S f) ->
  (forall f g h, S f -> S g -> (forall x, h x = f (g x)) -> S h) ->
  (forall f g, S f -> S g -> forall x, f (g (f x)) = f (g x)) -> settles.
Proof. intros H1 H2 H3 H4 H5 f g Af Ag. apply H5; apply act_ind_class; assumption. Qed.
Lemma settles_twice f : settles -> act f -> forall x, f (f x) = f x.
Proof. intros H Hf x. exact (H f (fun y => y) Hf (act_id _ (fun _ => eq_refl)) x). Qed.

(** Values that are replaced or left alone. *)
Definition simple : Prop := forall j,
  (forall z, dec c z j = Ok z) \/ (exists a, forall z, dec c z j = Ok a) \/ (exists e, forall z, dec c z j = Err e) \/ (forall z, dec c z j = Panic).
Definition flat (f : A -> A) : Prop := (forall x, f x = x) \/ (exists a, forall x, f x = a).
Lemma flat_comp (f g h : A -> A) : flat f -> flat g -> (forall x, h x = f (g x)) -> flat h.
Proof.
  intros [Hf|[a Hf]] [Hg|[b Hg]] H; [left|right; exists b|right; exists a|right; exists a]; intros x; rewrite H, ?Hf, ?Hg; reflexivity.
Qed.
Lemma flat_settles (f g : A -> A) : flat f -> flat g -> forall x, f (g (f x)) = f (g x).
Proof. intros [Hf|[a Hf]] [Hg|[b Hg]] x; rewrite ?Hf, ?Hg, ?Hf, ?Hg; reflexivity. Qed.
Lemma simple_stable : simple -> stable.
Proof.
  intros H. split.
  - intros j. destruct (H j) as [E|[[a E]|[[e E]|E]]]; [left; exists (fun z => z)|left; exists (fun _ => a)|right; left; exists e|right; right]; exact E.
  - apply (settles_by flat).
    + intros f Hf. left. exact Hf.
    + intros f a Hf. right. exists a. exact Hf.
    + intros j f Hf. destruct (H j) as [E|[[a E]|[[e E]|E]]].
      * left. intros x. specialize (Hf x). rewrite E in Hf. congruence.
      * right. exists a. intros x. specialize (Hf x). rewrite E in Hf. congruence.
      * left. intros x. specialize (Hf x). rewrite E in Hf. discriminate.
      * left. intros x. specialize (Hf x). rewrite E in Hf. discriminate.
    + exact flat_comp.
    + exact flat_settles.
Qed.
End Codec.

(** A codec whose decoder ignores the old value. *)
Lemma ignores_simple {A} (c : codec A) (d : json -> res A) : (forall z j, dec c z j = d j) -> simple c.
Proof.
  intros H j. destruct (d j) as [a|e|] eqn:E; [right; left; exists a|right; right; left; exists e|right; right; right]; intros z; rewrite H; exact E.
Qed.

Ltac simple_tac := first [left; intros; reflexivity | right; left; eexists; intros; reflexivity
  | right; right; left; eexists; intros; reflexivity | right; right; right; intros; reflexivity].
Lemma st_str : stable c_str.
Proof. apply simple_stable. intros j. cbn [c_str dec]. destruct (str_of_json j) as [[s|]|e|]; cbn [bind]; simple_tac. Qed.
Lemma st_bool : stable c_bool.
Proof. apply simple_stable. intros j. cbn [c_bool dec]. destruct j; simple_tac. Qed.
Lemma st_int : stable c_int.
Proof. apply simple_stable. intros j. cbn [c_int dec]. destruct j; try simple_tac. destruct (parse_int _); simple_tac. Qed.
Lemma st_uint max : stable (c_uint max).
Proof. apply simple_stable. intros j. cbn [c_uint dec]. destruct (uint_of_json max j) as [[s|]|e|]; cbn [bind]; simple_tac. Qed.
Lemma st_f64 F : stable (c_f64 F).
Proof. apply simple_stable. intros j. cbn [c_f64 dec]. destruct j; try simple_tac. destruct (parse64 _ _); simple_tac. Qed.
Lemma st_ignores {A} (c : codec A) (d : json -> res A) : (forall z j, dec c z j = d j) -> stable c.
Proof. intros H. apply simple_stable. exact (ignores_simple c d H). Qed.
Lemma st_any F : stable (c_any F).
Proof. apply (st_ignores _ (dec_any F)). reflexivity. Qed.

(** ** Pointers *)
Section Ptr.
Context {A : Type} (zero : A) (c : codec A) (H : stable c).
Definition or_zero (o : option A) : A := match o with Some a => a | None => zero end.
Definition ptr_class (f : option A -> option A) : Prop :=
  (forall x, f x = x) \/ (exists a, forall x, f x = a) \/ (exists w, act c w /\ forall o, f o = Some (w (or_zero o))).
Lemma ptr_act f : act (c_ptr zero c) f -> ptr_class f.
Proof.
  destruct H as [H1 H2]. revert f. apply act_ind_class.
    + intros f Hf. left. exact Hf.
    + intros f a Hf. right. left. exists a. exact Hf.
    + intros j f Hf. assert (G : (forall z, (a <- dec c (or_zero z) j ;; Ok (Some a)) = Ok (f z)) -> ptr_class f).
      { intros Q. right. right. destruct (H1 j) as [[w E]|[[e E]|E]].
        - exists w. split; [exact (act_dec c j w E)|]. intros o. specialize (Q o). rewrite E in Q. cbn [bind] in Q. congruence.
        - specialize (Q None). rewrite E in Q. discriminate.
        - specialize (Q None). rewrite E in Q. discriminate. }
      destruct j; try exact (G Hf). right. left. exists None. intros x. specialize (Hf x). cbn in Hf. congruence.
    + intros f g h Sf Sg Hh. destruct Sf as [Sf|[[a Sf]|(w & Aw & Sf)]].
      * destruct Sg as [Sg|[[b Sg]|(v & Av & Sg)]]; [left|right; left; exists b|right; right; exists v; split; [exact Av|]]; intros x; rewrite Hh, Sf, Sg; reflexivity.
      * right. left. exists a. intros x. rewrite Hh, Sf. reflexivity.
      * destruct Sg as [Sg|[[b Sg]|(v & Av & Sg)]].
        -- right. right. exists w. split; [exact Aw|]. intros x. rewrite Hh, Sf, Sg. reflexivity.
        -- right. left. eexists. intros x. rewrite Hh, Sf, Sg. reflexivity.
        -- right. right. exists (fun y => w (v y)). split; [apply (act_comp c w v); [exact Aw|exact Av|reflexivity]|]. intros x. rewrite Hh, Sf, Sg. reflexivity.
Qed.
Lemma st_ptr : stable (c_ptr zero c).
Proof.
  destruct H as [H1 H2]. split.
  - intros j. assert (G : (exists f, forall z, (a <- dec c (or_zero z) j ;; Ok (Some a)) = Ok (f z)) \/
      (exists e, forall z, (a <- dec c (or_zero z) j ;; Ok (Some a)) = Err e) \/ (forall z, (a <- dec c (or_zero z) j ;; Ok (Some a)) = Panic)).
    { destruct (H1 j) as [[f E]|[[e E]|E]]; [left; exists (fun z => Some (f (or_zero z)))|right; left; exists e|right; right]; intros z; rewrite E; reflexivity. }
    destruct j; try exact G. left. exists (fun _ => None). reflexivity.
  - intros f g Af Ag x. pose proof (ptr_act f Af) as Sf. pose proof (ptr_act g Ag) as Sg.
    destruct Sf as [Sf|[[a Sf]|(w & Aw & Sf)]]; [rewrite !Sf; reflexivity|rewrite !Sf; reflexivity|].
      destruct Sg as [Sg|[[b Sg]|(v & Av & Sg)]].
      * rewrite !Sg, !Sf. cbn [or_zero]. rewrite (settles_twice c w H2 Aw). reflexivity.
      * rewrite !Sg. reflexivity.
      * rewrite !Sf, !Sg, ?Sf. cbn [or_zero]. rewrite (H2 w v Aw Av). reflexivity.
Qed.
End Ptr.

(** ** Slices *)
Section Slice.
Context {A : Type} (zero : A) (c : codec A) (H : stable c).
Fixpoint elems (ws : list (A -> A)) (l : list A) : list A :=
  match ws with
  | [] => []
  | w :: ws' => w (match l with a :: _ => a | [] => zero end) :: elems ws' (match l with _ :: l' => l' | [] => [] end)
  end.
Fixpoint zip (ws vs : list (A -> A)) : list (A -> A) :=
  match ws with
  | [] => []
  | w :: ws' => match vs with
                | [] => (fun _ => w zero) :: zip ws' []
                | v :: vs' => (fun x => w (v x)) :: zip ws' vs'
                end
  end.
Lemma elems_zip ws : forall vs l, elems ws (elems vs l) = elems (zip ws vs) l.
Proof.
  induction ws as [|w ws IH]; intros vs l; [reflexivity|]. destruct vs as [|v vs]; cbn [elems zip]; f_equal.
  - change (@nil A) with (elems [] (match l with _ :: l' => l' | [] => [] end)) at 1. apply IH.
  - apply IH.
Qed.
Lemma zip_act ws : forall vs, Forall (act c) ws -> Forall (act c) vs -> Forall (act c) (zip ws vs).
Proof.
  induction ws as [|w ws IH]; intros vs Hw Hv; [constructor|]. cbn [zip]. pose proof (Forall_inv Hw) as W. pose proof (Forall_inv_tail Hw) as Ws.
  destruct vs as [|v vs]; constructor; [apply (act_const c _ (w zero)); reflexivity|apply IH; [exact Ws|constructor]| |apply IH; [exact Ws|exact (Forall_inv_tail Hv)]].
  apply (act_comp c w v); [exact W|exact (Forall_inv Hv)|reflexivity].
Qed.
Lemma elems_settle ws : Forall (act c) ws -> forall vs l, Forall (act c) vs -> elems ws (elems vs (elems ws l)) = elems ws (elems vs l).
Proof.
  destruct H as [_ H2]. induction 1 as [|w ws Hw _ IH]; intros vs l Hv; [reflexivity|]. destruct vs as [|v vs]; [reflexivity|]. cbn [elems].
  rewrite (H2 w v Hw (Forall_inv Hv)). f_equal. apply IH. exact (Forall_inv_tail Hv).
Qed.
Lemma elems_twice ws : Forall (act c) ws -> forall l, elems ws (elems ws l) = elems ws l.
Proof.
  destruct H as [_ H2]. induction 1 as [|w ws Hw _ IH]; intros l; [reflexivity|]. cbn [elems]. rewrite (settles_twice c w H2 Hw), IH. reflexivity.
Qed.
Lemma dec_elems_way l :
  (exists ws, Forall (act c) ws /\ forall old, dec_elems zero c old l = Ok (elems ws old)) \/
  (exists e, forall old, dec_elems zero c old l = Err e) \/ (forall old, dec_elems zero c old l = Panic).
Proof.
  destruct H as [H1 _]. induction l as [|j l IH]; [left; exists []; split; [constructor|reflexivity]|]. cbn [dec_elems].
  destruct (H1 j) as [[w E]|[[e E]|E]].
  - destruct IH as [(ws & Hws & IH)|[[e IH]|IH]].
    + left. exists (w :: ws). split; [constructor; [exact (act_dec c j w E)|exact Hws]|]. intros old. rewrite E. cbn [bind]. rewrite IH. reflexivity.
    + right. left. exists e. intros old. rewrite E. cbn [bind]. rewrite IH. reflexivity.
    + right. right. intros old. rewrite E. cbn [bind]. rewrite IH. reflexivity.
  - right. left. exists e. intros old. rewrite E. reflexivity.
  - right. right. intros old. rewrite E. reflexivity.
Qed.

(** Both kinds of slices, through the lists they hold. *)
Context {B : Type} (list_of : B -> list A) (of_list : list A -> B) (Hlo : forall l, list_of (of_list l) = l).
Definition slice_class (f : B -> B) : Prop :=
  (forall x, f x = x) \/ (exists a, forall x, f x = a) \/ (exists ws, Forall (act c) ws /\ forall o, f o = of_list (elems ws (list_of o))).
Context (s : codec B) (N : exists a, forall z, dec s z JNull = Ok a)
  (D : forall z j, match j with JNull => True | JArr l => dec s z j = (r <- dec_elems zero c (list_of z) l ;; Ok (of_list r)) | _ => exists e, forall z, dec s z j = Err e end).
Lemma list_way : forall j, (exists a, forall z, dec s z j = Ok a) \/ (exists ws, Forall (act c) ws /\ forall o, dec s o j = Ok (of_list (elems ws (list_of o)))) \/
    (exists e, forall z, dec s z j = Err e) \/ (forall z, dec s z j = Panic).
Proof.
  destruct N as [a0 N']. intros j. pose proof (D (of_list []) j) as D0. destruct j; try (right; right; left; exact D0); [left; exists a0; exact N'|].
    destruct (dec_elems_way l) as [(ws & Hws & E)|[[e E]|E]].
    - right. left. exists ws. split; [exact Hws|]. intros o. rewrite (D o (JArr l)), E. reflexivity.
    - right. right. left. exists e. intros z. rewrite (D z (JArr l)), E. reflexivity.
    - right. right. right. intros z. rewrite (D z (JArr l)), E. reflexivity.
Qed.
Lemma list_act f : act s f -> slice_class f.
Proof.
  pose proof list_way as G. revert f. apply act_ind_class.
    + intros f Hf. left. exact Hf.
    + intros f a Hf. right. left. exists a. exact Hf.
    + intros j f Hf. destruct (G j) as [[a E]|[(ws & Hws & E)|[[e E]|E]]].
      * right. left. exists a. intros x. specialize (Hf x). rewrite E in Hf. congruence.
      * right. right. exists ws. split; [exact Hws|]. intros x. specialize (Hf x). rewrite E in Hf. congruence.
      * specialize (Hf (of_list [])). rewrite E in Hf. discriminate.
      * specialize (Hf (of_list [])). rewrite E in Hf. discriminate.
    + intros f g h Sf Sg Hh. destruct Sf as [Sf|[[a Sf]|(w & Aw & Sf)]].
      * destruct Sg as [Sg|[[b Sg]|(v & Av & Sg)]]; [left|right; left; exists b|right; right; exists v; split; [exact Av|]]; intros x; rewrite Hh, Sf, Sg; reflexivity.
      * right. left. exists a. intros x. rewrite Hh, Sf. reflexivity.
      * destruct Sg as [Sg|[[b Sg]|(v & Av & Sg)]].
        -- right. right. exists w. split; [exact Aw|]. intros x. rewrite Hh, Sf, Sg. reflexivity.
        -- right. left. eexists. intros x. rewrite Hh, Sf, Sg. reflexivity.
        -- right. right. exists (zip w v). split; [exact (zip_act w v Aw Av)|]. intros x. rewrite Hh, Sf, Sg, Hlo, elems_zip. reflexivity.
Qed.
Lemma st_list : stable s.
Proof.
  pose proof list_way as G. split.
  - intros j. destruct (G j) as [[a E]|[(ws & _ & E)|[[e E]|E]]]; [left; exists (fun _ => a); exact E|left; eexists; exact E|right; left; exists e; exact E|right; right; exact E].
  - intros f g Af Ag x. pose proof (list_act f Af) as Sf. pose proof (list_act g Ag) as Sg.
    destruct Sf as [Sf|[[a Sf]|(w & Aw & Sf)]]; [rewrite !Sf; reflexivity|rewrite !Sf; reflexivity|].
      destruct Sg as [Sg|[[b Sg]|(v & Av & Sg)]].
      * rewrite !Sg, !Sf, Hlo, (elems_twice w Aw). reflexivity.
      * rewrite !Sg. reflexivity.
      * rewrite !Sf, !Sg, ?Sf, !Hlo, (elems_settle w Aw v _ Av). reflexivity.
Qed.
End Slice.
Lemma slice_dec {A} (zero : A) c z j : match j with JNull => True | JArr l => dec (c_slice zero c) z j = (r <- dec_elems zero c z l ;; Ok r) | _ => exists e, forall z, dec (c_slice zero c) z j = Err e end.
Proof.
  destruct j; try exact I; try (eexists; reflexivity). cbn [c_slice dec]. destruct (dec_elems zero c z l); reflexivity.
Qed.
Lemma st_slice {A} (zero : A) c : stable c -> stable (c_slice zero c).
Proof. intros H. apply (st_list zero c H (fun l => l) (fun l => l)); [reflexivity|exists []; reflexivity|]. exact (slice_dec zero c). Qed.
Lemma slice_act {A} (zero : A) c f : stable c -> act (c_slice zero c) f -> slice_class zero c (fun l => l) (fun l => l) f.
Proof. intros H. apply (list_act zero c H (fun l => l) (fun l => l)); [reflexivity|exists []; reflexivity|]. exact (slice_dec zero c). Qed.
Lemma st_oslice {A} (zero : A) c : stable c -> stable (c_oslice zero c).
Proof.
  intros H. apply (st_list zero c H (fun o => match o with Some l => l | None => [] end) Some); [reflexivity|exists None; reflexivity|].
  intros z j. destruct j; try exact I; try (eexists; reflexivity).
Qed.

(** ** Maps *)
Lemma map_set_same {A} k (v v' : A) m : map_set k v (map_set k v' m) = map_set k v m.
Proof.
  pose proof (compare_refl k) as R.
  induction m as [|[k1 v1] m IH]; cbn [map_set]; [rewrite R; reflexivity|].
  destruct (String.compare k k1) eqn:E; cbn [map_set].
  - rewrite R. reflexivity.
  - rewrite R. reflexivity.
  - rewrite E, IH. reflexivity.
Qed.
Lemma map_set_swap {A} k1 k2 (v1 v2 : A) m : String.compare k1 k2 = Lt -> map_set k1 v1 (map_set k2 v2 m) = map_set k2 v2 (map_set k1 v1 m).
Proof.
  intros L. assert (G : String.compare k2 k1 = Gt) by (rewrite String.compare_antisym, L; reflexivity).
  induction m as [|[k v] m IH]; cbn [map_set]; [rewrite L, G; reflexivity|].
  destruct (String.compare k2 k) eqn:E2.
  - apply compare_eq in E2. subst k. rewrite L. cbn [map_set]. rewrite L, G. cbn [map_set]. rewrite compare_refl. reflexivity.
  - rewrite (compare_trans k1 k2 k L E2). cbn [map_set]. rewrite L, G. cbn [map_set]. rewrite E2. reflexivity.
  - destruct (String.compare k1 k) eqn:E1; cbn [map_set].
    + rewrite E1. apply compare_eq in E1. subst k. cbn [map_set]. rewrite G. reflexivity.
    + rewrite E1, G. cbn [map_set]. rewrite E2. reflexivity.
    + rewrite E1, E2, IH. reflexivity.
Qed.
Lemma map_set_comm {A} k1 k2 (v1 v2 : A) m : k1 <> k2 -> map_set k1 v1 (map_set k2 v2 m) = map_set k2 v2 (map_set k1 v1 m).
Proof.
  intros N. destruct (String.compare k1 k2) eqn:E.
  - apply compare_eq in E. contradiction.
  - apply map_set_swap. exact E.
  - symmetry. apply map_set_swap. rewrite String.compare_antisym, E. reflexivity.
Qed.
Lemma map_sets_drop {A} k (v : A) r : In k (map fst r) -> forall m, map_sets (map_set k v m) r = map_sets m r.
Proof.
  induction r as [|[k1 v1] r IH]; intros I m; [destruct I|]. cbn [map_sets fold_left fst snd]. fold (@map_sets A). cbn [map fst] in I.
  destruct (string_dec k1 k) as [->|N].
  - unfold map_sets in *. cbn [fold_left fst snd]. rewrite map_set_same. reflexivity.
  - destruct I as [I|I]; [contradiction|]. unfold map_sets in *. cbn [fold_left fst snd]. rewrite map_set_comm by exact N. apply IH. exact I.
Qed.
Lemma map_sets_app {A} (s r : list (string * A)) m : map_sets m (s ++ r) = map_sets (map_sets m s) r.
Proof. unfold map_sets. apply fold_left_app. Qed.
Lemma map_sets_over {A} (s r : list (string * A)) : incl (map fst s) (map fst r) -> forall m, map_sets (map_sets m s) r = map_sets m r.
Proof.
  induction s as [|[k v] s IH] using rev_ind; intros I m; [reflexivity|]. rewrite map_app in I. rewrite map_sets_app.
  change (map_sets (map_sets m s) [(k, v)]) with (map_set k v (map_sets m s)). rewrite map_sets_drop.
  - apply IH. intros x Hx. apply I. apply in_or_app. left. exact Hx.
  - apply I. apply in_or_app. right. left. reflexivity.
Qed.
Section Maps.
Context {A B : Type} (map_of : B -> list (string * A)) (of_map : list (string * A) -> B) (Hmo : forall m, map_of (of_map m) = m).
Definition map_class (f : B -> B) : Prop :=
  (forall x, f x = x) \/ (exists a, forall x, f x = a) \/ (exists s, forall o, f o = of_map (map_sets (map_of o) s)).
Lemma st_map (c : codec B) :
  (forall j, (forall z, dec c z j = Ok z) \/ (exists a, forall z, dec c z j = Ok a) \/ (exists s, forall o, dec c o j = Ok (of_map (map_sets (map_of o) s))) \/
    (exists e, forall z, dec c z j = Err e) \/ (forall z, dec c z j = Panic)) -> stable c.
Proof.
  intros G. split.
  - intros j. destruct (G j) as [E|[[a E]|[(s & E)|[[e E]|E]]]];
      [left; exists (fun z => z); exact E|left; exists (fun _ => a); exact E|left; eexists; exact E|right; left; exists e; exact E|right; right; exact E].
  - apply (settles_by _ map_class).
    + intros f Hf. left. exact Hf.
    + intros f a Hf. right. left. exists a. exact Hf.
    + intros j f Hf. destruct (G j) as [E|[[a E]|[(s & E)|[[e E]|E]]]].
      * left. intros x. specialize (Hf x). rewrite E in Hf. congruence.
      * right. left. exists a. intros x. specialize (Hf x). rewrite E in Hf. congruence.
      * right. right. exists s. intros x. specialize (Hf x). rewrite E in Hf. congruence.
      * specialize (Hf (of_map [])). rewrite E in Hf. discriminate.
      * specialize (Hf (of_map [])). rewrite E in Hf. discriminate.
    + intros f g h Sf Sg Hh. destruct Sf as [Sf|[[a Sf]|(w & Sf)]].
      * destruct Sg as [Sg|[[b Sg]|(v & Sg)]]; [left|right; left; exists b|right; right; exists v]; intros x; rewrite Hh, Sf, Sg; reflexivity.
      * right. left. exists a. intros x. rewrite Hh, Sf. reflexivity.
      * destruct Sg as [Sg|[[b Sg]|(v & Sg)]].
        -- right. right. exists w. intros x. rewrite Hh, Sf, Sg. reflexivity.
        -- right. left. eexists. intros x. rewrite Hh, Sf, Sg. reflexivity.
        -- right. right. exists (v ++ w). intros x. rewrite Hh, Sf, Sg, Hmo, map_sets_app. reflexivity.
    + intros f g Sf Sg x. destruct Sf as [Sf|[[a Sf]|(w & Sf)]]; [rewrite !Sf; reflexivity|rewrite !Sf; reflexivity|].
      destruct Sg as [Sg|[[b Sg]|(v & Sg)]].
      * rewrite !Sg, !Sf, Hmo, (map_sets_over w w) by (intros y; tauto). reflexivity.
      * rewrite !Sg. reflexivity.
      * rewrite !Sf, !Sg, ?Sf, !Hmo. rewrite <- !map_sets_app. rewrite map_sets_app. rewrite (map_sets_over w (v ++ w)); [reflexivity|].
        rewrite map_app. intros y Hy. apply in_or_app. right. exact Hy.
Qed.
End Maps.
Lemma st_attrs : stable c_attrs.
Proof.
  apply (st_map (fun o => match o with Some m => m | None => [] end) Some); [reflexivity|]. intros j. cbn [c_attrs dec].
  destruct j; try (right; right; right; left; eexists; reflexivity); [right; left; exists None; reflexivity|].
  destruct (traverse _ m) as [kvs|e|]; cbn [bind]; [right; right; left; exists kvs; reflexivity|right; right; right; left; exists e; reflexivity|right; right; right; right; reflexivity].
Qed.
Lemma st_ext X : stable (c_ext X).
Proof.
  apply (st_map (fun m => m) (fun m => m)); [reflexivity|]. intros j. cbn [c_ext dec]. unfold dec_ext.
  destruct j; try (right; right; right; left; eexists; reflexivity); [left; reflexivity|].
  destruct (traverse _ m) as [raw|e|]; cbn [bind]; [|right; right; right; left; exists e; reflexivity|right; right; right; right; reflexivity].
  destruct (traverse _ (map_sets [] raw)) as [kvs|e|]; cbn [bind]; [right; right; left; exists kvs; reflexivity|right; right; right; left; exists e; reflexivity|right; right; right; right; reflexivity].
Qed.

(** ** Structs *)
Section Struct.
Context {T R : Type} (fs : list (field T)) (rest : T -> R).
Definition st_field (f : field T) : Prop := match f with Fld _ _ _ c _ => stable c end.
Context (Hst : Forall st_field fs) (Hlens : Forall lens fs) (Hind : ForallOrdPairs indep fs) (Hkeep : Forall (keeps rest) fs)
  (Heta : forall x y, Forall (agree x y) fs -> rest x = rest y -> x = y).
Definition moves (f : T -> T) (fl : field T) : Prop := match fl with Fld _ get _ c _ => exists w, act c w /\ forall x, get (f x) = w (get x) end.
Definition struct_class (f : T -> T) : Prop := Forall (moves f) fs /\ exists w, flat w /\ forall x, rest (f x) = w (rest x).

Lemma find_field_in k f : find_field fs k = Some f -> In f fs.
Proof.
  unfold find_field. destruct (find (fun f => String.eqb (fname f) k) fs) eqn:E; [intros [= ->]; exact (proj1 (find_some _ _ E))|]. intros E2. exact (proj1 (find_some _ _ E2)).
Qed.
Lemma ord_split {A} (P : A -> A -> Prop) l1 x l2 : (forall a b, P a b -> P b a) -> ForallOrdPairs P (l1 ++ x :: l2) -> Forall (P x) l1 /\ Forall (P x) l2.
Proof.
  intros S. induction l1 as [|a l1 IH]; cbn [app]; intros H; inversion H as [|? ? F1 F2]; subst.
  - split; [constructor|exact F1].
  - destruct (IH F2) as [I1 I2]. split; [constructor; [|exact I1]|exact I2]. rewrite Forall_forall in F1. apply S. apply F1. apply in_or_app. right. left. reflexivity.
Qed.
Lemma indep_sym (a b : field T) : indep a b -> indep b a.
Proof. destruct a, b. cbn. tauto. Qed.
Lemma class_id f : (forall x, f x = x) -> struct_class f.
Proof.
  intros H. split; [|exists (fun r => r); split; [left; reflexivity|intros x; rewrite H; reflexivity]].
  apply Forall_forall. intros [A n get set c o] _. exists (fun a => a). split; [apply act_id; reflexivity|]. intros x. rewrite H. reflexivity.
Qed.
Lemma class_const f a : (forall x, f x = a) -> struct_class f.
Proof.
  intros H. split; [|exists (fun _ => rest a); split; [right; exists (rest a); reflexivity|intros x; rewrite H; reflexivity]].
  apply Forall_forall. intros [A n get set c o] _. exists (fun _ => get a). split; [apply (act_const c _ (get a)); reflexivity|]. intros x. rewrite H. reflexivity.
Qed.
Lemma class_comp f g h : struct_class f -> struct_class g -> (forall x, h x = f (g x)) -> struct_class h.
Proof.
  intros [Hf (wf & Ff & Rf)] [Hg (wg & Fg & Rg)] Hh. split.
  - rewrite Forall_forall in *. intros fl I. specialize (Hf fl I). specialize (Hg fl I). destruct fl as [A n get set c o]. cbn [moves] in *.
    destruct Hf as (u & Au & Hf), Hg as (v & Av & Hg). exists (fun a => u (v a)). split; [apply (act_comp c u v); [exact Au|exact Av|reflexivity]|]. intros x. rewrite Hh, Hf, Hg. reflexivity.
  - exists (fun r => wf (wg r)). split; [apply (flat_comp wf wg); [exact Ff|exact Fg|reflexivity]|]. intros x. rewrite Hh, Rf, Rg. reflexivity.
Qed.
Lemma class_field fl j : In fl fs ->
  (exists f, struct_class f /\ forall x, dec_field fl x j = Ok (f x)) \/ (exists e, forall x, dec_field fl x j = Err e) \/ (forall x, dec_field fl x j = Panic).
Proof.
  intros I. destruct (in_split _ _ I) as (l1 & l2 & E). pose proof Hind as O. rewrite E in O. destruct (ord_split indep l1 fl l2 indep_sym O) as [O1 O2].
  rewrite Forall_forall in Hst. pose proof (Hst fl I) as S. rewrite Forall_forall in Hlens. pose proof (Hlens fl I) as L. rewrite Forall_forall in Hkeep. pose proof (Hkeep fl I) as K.
  destruct fl as [A n get set c o]. cbn [st_field lens keeps dec_field] in *. destruct (proj1 S j) as [[w D]|[[e D]|D]].
  - left. exists (fun x => set (w (get x)) x). split; [|intros x; rewrite D; reflexivity]. split.
    + rewrite E. rewrite Forall_forall in O1, O2. apply Forall_forall. intros fl' I'. apply in_app_or in I'.
      assert (G : indep (Fld n get set c o) fl' -> moves (fun x => set (w (get x)) x) fl').
      { destruct fl' as [A' n' get' set' c' o']. intros [G1 _]. exists (fun a => a). split; [apply act_id; reflexivity|]. intros x. apply G1. }
      destruct I' as [I'|[<-|I']]; [exact (G (O1 _ I'))| |exact (G (O2 _ I'))].
      exists w. split; [exact (act_dec c j w D)|]. intros x. apply L.
    + exists (fun r => r). split; [left; reflexivity|]. intros x. apply K.
  - right. left. exists e. intros x. rewrite D. reflexivity.
  - right. right. intros x. rewrite D. reflexivity.
Qed.
Lemma class_members m :
  (exists f, struct_class f /\ forall x, dec_members fs x m = Ok (f x)) \/ (exists e, forall x, dec_members fs x m = Err e) \/ (forall x, dec_members fs x m = Panic).
Proof.
  induction m as [|[raw j] m IH]; [left; exists (fun x => x); split; [apply class_id; reflexivity|reflexivity]|]. cbn [dec_members].
  destruct (key_of raw) as [k|e|]; cbn [bind]; [|right; left; exists e; reflexivity|right; right; reflexivity].
  destruct (find_field fs k) as [fl|] eqn:Ff.
  - destruct (class_field fl j (find_field_in k fl Ff)) as [(f & Sf & D)|[[e D]|D]].
    + destruct IH as [(g & Sg & IH)|[[e IH]|IH]].
      * left. exists (fun x => g (f x)). split; [apply (class_comp g f); [exact Sg|exact Sf|reflexivity]|]. intros x. rewrite D. cbn [bind]. apply IH.
      * right. left. exists e. intros x. rewrite D. cbn [bind]. apply IH.
      * right. right. intros x. rewrite D. cbn [bind]. apply IH.
    + right. left. exists e. intros x. rewrite D. reflexivity.
    + right. right. intros x. rewrite D. reflexivity.
  - cbn [bind]. exact IH.
Qed.
Lemma class_struct j :
  (exists f, struct_class f /\ forall x, dec_struct fs x j = Ok (f x)) \/ (exists e, forall x, dec_struct fs x j = Err e) \/ (forall x, dec_struct fs x j = Panic).
Proof.
  destruct j; try (right; left; eexists; reflexivity); [left; exists (fun x => x); split; [apply class_id; reflexivity|reflexivity]|apply class_members].
Qed.
Lemma class_act (c : codec T) : (forall x j, dec c x j = dec_struct fs x j) -> forall f, act c f -> struct_class f.
Proof.
  intros D. apply act_ind_class; [exact class_id|exact class_const| |exact class_comp]. intros j h Hh.
  destruct (class_struct j) as [(h' & Sh & E)|[[e E]|E]].
  - destruct Sh as [S1 (w & S2 & S3)]. assert (Q : forall y, h y = h' y) by (intros y; specialize (Hh y); rewrite D, E in Hh; congruence). split.
    + rewrite Forall_forall in *. intros fl I. specialize (S1 fl I). destruct fl as [A n get set cc o]. cbn [moves] in *. destruct S1 as (u & Au & Hu). exists u. split; [exact Au|]. intros y. rewrite Q. apply Hu.
    + exists w. split; [exact S2|]. intros y. rewrite Q. apply S3.
  - apply class_id. intros x. specialize (Hh x). rewrite D, E in Hh. discriminate.
  - apply class_id. intros x. specialize (Hh x). rewrite D, E in Hh. discriminate.
Qed.
Lemma st_struct (c : codec T) : (forall x j, dec c x j = dec_struct fs x j) -> stable c.
Proof.
  intros D. split.
  - intros j. destruct (class_struct j) as [(f & _ & E)|[[e E]|E]]; [left; exists f|right; left; exists e|right; right]; intros z; rewrite D; apply E.
  - intros f g Af Ag x. destruct (class_act c D f Af) as [F1 (u & F2 & F3)]. destruct (class_act c D g Ag) as [G1 (v & G2 & G3)]. apply Heta.
    + rewrite Forall_forall in *. intros fl I. specialize (F1 fl I). specialize (G1 fl I). specialize (Hst fl I). destruct fl as [A n get set cc o]. cbn [moves agree st_field] in *.
      destruct F1 as (a & Aa & F1), G1 as (b & Ab & G1). rewrite !F1, !G1, ?F1. exact (proj2 Hst a b Aa Ab (get x)).
    + rewrite !F3, !G3, ?F3. exact (flat_settles u v F2 G2 (rest x)).
Qed.
End Struct.
