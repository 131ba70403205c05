(** Ownership: programs that touch only what they own can be run side by side. *)
From Coq Require Permutation.
From Verif Require Import Base BaseFacts Types Binary Doc ModelerRead Memory.

(** Arrays with their contents: what is owned by a goroutine, or shared and
    never written. *)
Definition arrays : Type := nat -> option bytes.
Definition upd (o : arrays) (a : nat) (c : bytes) : arrays := fun b => if Nat.eqb a b then Some c else o b.
Definition del (o : arrays) (a : nat) : arrays := fun b => if Nat.eqb a b then None else o b.
Lemma upd_same o a c : upd o a c a = Some c.
Proof. unfold upd. rewrite Nat.eqb_refl. reflexivity. Qed.
Lemma upd_other o a c b : a <> b -> upd o a c b = o b.
Proof. intros H. unfold upd. apply Nat.eqb_neq in H. rewrite H. reflexivity. Qed.
Lemma del_same o a : del o a a = None.
Proof. unfold del. rewrite Nat.eqb_refl. reflexivity. Qed.
Lemma del_other o a b : a <> b -> del o a b = o b.
Proof. intros H. unfold del. apply Nat.eqb_neq in H. rewrite H. reflexivity. Qed.

Section Wp.
Context (D : arrays).

(** What is needed for a program that owns [o] to run safely and to end with
    [Q]. *)
Fixpoint wp {A} (o : arrays) (m : prog A) (Q : A -> arrays -> Prop) : Prop :=
  match m with
  | Ret a => Q a o
  | Alloc n k => forall a, o a = None -> D a = None -> wp (upd o a (zeros n)) (k a) Q
  | Load a off n k => exists c, (o a = Some c \/ D a = Some c) /\ (off + n <= List.length c)%nat /\ wp o (k (sub c off n)) Q
  | Store a off d k => exists c, o a = Some c /\ (off + List.length d <= List.length c)%nat /\ wp (upd o a (overwrite c off d)) k Q
  | Get p k => forall a c, o a = None -> D a = None -> List.length c = pool_bytes p -> wp (upd o a c) (k (pool_slice p a)) Q
  | Put p s k => exists a c, s = pool_slice p a /\ o a = Some c /\ List.length c = pool_bytes p /\ wp (del o a) k Q
  end.

Lemma wp_mono {A} (m : prog A) : forall o (Q R : A -> arrays -> Prop), (forall a o', Q a o' -> R a o') -> wp o m Q -> wp o m R.
Proof.
  induction m as [a|n k IH|a off n k IH|a off d k IH|p k IH|p s k IH]; intros o Q R H W; cbn [wp] in *.
  - apply H, W.
  - intros a H1 H2. eapply IH; [exact H|]. apply W; assumption.
  - destruct W as (c & W1 & W2 & W3). exists c. split; [exact W1|]. split; [exact W2|]. eapply IH; [exact H|exact W3].
  - destruct W as (c & W1 & W2 & W3). exists c. split; [exact W1|]. split; [exact W2|]. eapply IH; [exact H|exact W3].
  - intros a c H1 H2 H3. eapply IH; [exact H|]. apply W; assumption.
  - destruct W as (a & c & W0 & W1 & W2 & W3). exists a, c. split; [exact W0|]. split; [exact W1|]. split; [exact W2|]. eapply IH; [exact H|exact W3].
Qed.
Lemma wp_bind {A B} (m : prog A) (f : A -> prog B) : forall o Q, wp o m (fun a o' => wp o' (f a) Q) -> wp o (bindp m f) Q.
Proof.
  induction m as [a|n k IH|a off n k IH|a off d k IH|p k IH|p s k IH]; intros o Q W; cbn [wp bindp] in *.
  - exact W.
  - intros a H1 H2. apply IH, W; assumption.
  - destruct W as (c & W1 & W2 & W3). exists c. auto.
  - destruct W as (c & W1 & W2 & W3). exists c. auto.
  - intros a c H1 H2 H3. apply IH, W; assumption.
  - destruct W as (a & c & W0 & W1 & W2 & W3). exists a, c. auto 6.
Qed.
Lemma wp_bindr {A B} (m : prog (res A)) (f : A -> prog (res B)) o Q :
  wp o m (fun r o' => match r with Ok a => wp o' (f a) Q | Err e => Q (Err e) o' | Panic => Q Panic o' end) -> wp o (bindr m f) Q.
Proof. intros W. apply wp_bind. eapply wp_mono; [|exact W]. intros [a|e|] o' H; exact H. Qed.
End Wp.

(** ** Adequacy *)
(** The owned arrays [os] of the goroutines, the shared ones [D] and the memory
    fit together. *)
Definition in_pools (ps : pool -> list mslice) : list mslice := ps BufPool ++ ps U32Pool.
Definition apart (o1 o2 : arrays) : Prop := forall a, o1 a = None \/ o2 a = None.
Record world (D : arrays) (h : list bytes) (ps : pool -> list mslice) (os : list arrays) : Prop := mkWorld {
  w_own : forall o a c, In o os -> o a = Some c -> nth_error h a = Some c;
  w_shared : forall a c, D a = Some c -> nth_error h a = Some c;
  w_apart : forall i j o1 o2, i <> j -> nth_error os i = Some o1 -> nth_error os j = Some o2 -> apart o1 o2;
  w_apart_shared : forall o, In o os -> apart o D;
  w_pool : forall p s, In s (ps p) -> exists a c, s = pool_slice p a /\ nth_error h a = Some c /\ List.length c = pool_bytes p;
  w_pool_once : NoDup (map ms_arr (in_pools ps));
  w_pool_own : forall s o, In s (in_pools ps) -> In o os -> o (ms_arr s) = None;
  w_pool_shared : forall s, In s (in_pools ps) -> D (ms_arr s) = None
}.

(** One step of a goroutine keeps the others' memory. *)
Lemma nth_error_set_nth {A} (l : list A) n a m : nth_error (set_nth n a l) m = if Nat.eqb n m then (if (n <? List.length l)%nat then Some a else None) else nth_error l m.
Proof.
  revert n m. induction l as [|x l IH]; intros [|n] [|m]; cbn; try reflexivity.
  - destruct (Nat.eqb n m); reflexivity.
  - rewrite IH. destruct (Nat.eqb n m); [|reflexivity]. reflexivity.
Qed.

Section Step.
Context {A : Type} (D : arrays).

Lemma in_split_or {B} (x : B) l1 y l2 : In x (l1 ++ y :: l2) -> x = y \/ In x (l1 ++ l2).
Proof. rewrite !in_app_iff. cbn. intros [H|[H|H]]; auto. Qed.
Lemma in_insert {B} (x : B) l1 y l2 : x = y \/ In x (l1 ++ l2) -> In x (l1 ++ y :: l2).
Proof. rewrite !in_app_iff. cbn. intros [H|[H|H]]; auto. Qed.

Lemma nth_replaced {B} (l1 : list B) x y l2 j : nth_error (l1 ++ y :: l2) j = if Nat.eqb j (List.length l1) then Some y else nth_error (l1 ++ x :: l2) j.
Proof.
  destruct (Nat.eqb j (List.length l1)) eqn:E.
  - apply Nat.eqb_eq in E. subst j. rewrite nth_error_app2, Nat.sub_diag by lia. reflexivity.
  - apply Nat.eqb_neq in E. destruct (Nat.lt_ge_cases j (List.length l1)) as [L|L].
    + rewrite !nth_error_app1 by lia. reflexivity.
    + rewrite !nth_error_app2 by lia. destruct (j - List.length l1)%nat eqn:K; [lia|]. reflexivity.
Qed.

(** The goroutine at a place in the list gets other arrays [o'], disjoint from
    the rest. *)
Lemma world_change h ps os1 o os2 h' ps' o' :
  world D h ps (os1 ++ o :: os2) ->
  (forall a c, o' a = Some c -> nth_error h' a = Some c) ->
  (forall a c, D a = Some c -> nth_error h' a = Some c) ->
  (forall o2 a c, In o2 (os1 ++ os2) -> o2 a = Some c -> nth_error h' a = Some c) ->
  (forall o2, In o2 (os1 ++ os2) -> apart o' o2) -> apart o' D ->
  (forall p s, In s (ps' p) -> exists a c, s = pool_slice p a /\ nth_error h' a = Some c /\ List.length c = pool_bytes p) ->
  NoDup (map ms_arr (in_pools ps')) ->
  (forall s, In s (in_pools ps') -> o' (ms_arr s) = None /\ D (ms_arr s) = None /\ forall o2, In o2 (os1 ++ os2) -> o2 (ms_arr s) = None) ->
  world D h' ps' (os1 ++ o' :: os2).
Proof.
  intros W H1 H2 H3 H4 H5 H6 H7 H8. split.
  - intros o2 a c I E. apply in_split_or in I. destruct I as [->|I]; [exact (H1 a c E)|exact (H3 o2 a c I E)].
  - exact H2.
  - intros i j o1 o2 N E1 E2. rewrite (nth_replaced os1 o o' os2) in E1, E2.
    assert (O : forall k ok, k <> List.length os1 -> nth_error (os1 ++ o :: os2) k = Some ok -> In ok (os1 ++ os2)).
    { intros k ok Nk Ek. destruct (Nat.lt_ge_cases k (List.length os1)) as [L|L].
      - rewrite nth_error_app1 in Ek by lia. apply in_or_app. left. apply nth_error_In in Ek. exact Ek.
      - rewrite nth_error_app2 in Ek by lia. destruct (k - List.length os1)%nat eqn:K; [lia|]. apply in_or_app. right. cbn [nth_error] in Ek. apply nth_error_In in Ek. exact Ek. }
    destruct (Nat.eqb i (List.length os1)) eqn:Ei; destruct (Nat.eqb j (List.length os1)) eqn:Ej.
    + apply Nat.eqb_eq in Ei, Ej. lia.
    + injection E1 as <-. apply Nat.eqb_neq in Ej. exact (H4 o2 (O j o2 Ej E2)).
    + injection E2 as <-. apply Nat.eqb_neq in Ei. intros a. destruct (H4 o1 (O i o1 Ei E1) a); auto.
    + exact (w_apart _ _ _ _ W i j o1 o2 N E1 E2).
  - intros o2 I. apply in_split_or in I. destruct I as [->|I]; [exact H5|]. apply (w_apart_shared _ _ _ _ W). apply in_insert. auto.
  - exact H6.
  - exact H7.
  - intros s o2 I I2. apply in_split_or in I2. destruct (H8 s I) as (E1 & _ & E3). destruct I2 as [->|I2]; [exact E1|exact (E3 o2 I2)].
  - intros s I. destruct (H8 s I) as (_ & E & _). exact E.
Qed.

Lemma others_apart h ps os1 o os2 o2 : world D h ps (os1 ++ o :: os2) -> In o2 (os1 ++ os2) -> apart o o2.
Proof.
  intros W I. apply in_app_or in I. destruct I as [I|I]; apply In_nth_error in I; destruct I as [k E].
  - assert (L : (k < List.length os1)%nat) by (apply nth_error_Some; congruence).
    apply (w_apart _ _ _ _ W (List.length os1) k); [lia| |].
    + rewrite nth_error_app2, Nat.sub_diag by lia. reflexivity.
    + rewrite nth_error_app1 by lia. exact E.
  - apply (w_apart _ _ _ _ W (List.length os1) (List.length os1 + S k)); [lia| |].
    + rewrite nth_error_app2, Nat.sub_diag by lia. reflexivity.
    + rewrite nth_error_app2 by lia. replace (List.length os1 + S k - List.length os1)%nat with (S k) by lia. exact E.
Qed.
Lemma own_in {B} (x : B) l1 l2 : In x (l1 ++ x :: l2).
Proof. apply in_or_app. right. left. reflexivity. Qed.

(** A new array. *)
Lemma world_alloc h ps os1 o os2 c : world D h ps (os1 ++ o :: os2) ->
  o (List.length h) = None /\ D (List.length h) = None /\
  world D (h ++ [c]) ps (os1 ++ upd o (List.length h) c :: os2).
Proof.
  intros W. set (a := List.length h).
  assert (Na : nth_error h a = None) by (apply nth_error_None; unfold a; lia).
  assert (F : forall o2, In o2 (os1 ++ o :: os2) -> o2 a = None).
  { intros o2 I. destruct (o2 a) as [x|] eqn:E; [|reflexivity]. rewrite (w_own _ _ _ _ W o2 a x I E) in Na. discriminate. }
  assert (FD : D a = None). { destruct (D a) as [x|] eqn:E; [|reflexivity]. rewrite (w_shared _ _ _ _ W a x E) in Na. discriminate. }
  assert (K : forall b x, nth_error h b = Some x -> nth_error (h ++ [c]) b = Some x).
  { intros b x E. rewrite nth_error_app1; [exact E|]. apply nth_error_Some. congruence. }
  split; [apply F, own_in|]. split; [exact FD|].
  apply (world_change h ps os1 o os2); [exact W| | | | | | | |].
  - intros b x E. unfold upd in E. destruct (Nat.eqb a b) eqn:Eb.
    + apply Nat.eqb_eq in Eb. subst b. injection E as <-. rewrite nth_error_app2 by (unfold a; lia). unfold a. rewrite Nat.sub_diag. reflexivity.
    + apply K, (w_own _ _ _ _ W o b x (own_in _ _ _) E).
  - intros b x E. apply K, (w_shared _ _ _ _ W b x E).
  - intros o2 b x I E. apply K, (w_own _ _ _ _ W o2 b x (in_insert _ _ _ _ (or_intror I)) E).
  - intros o2 I b. unfold upd. destruct (Nat.eqb a b) eqn:Eb.
    + apply Nat.eqb_eq in Eb. subst b. right. apply F, in_insert. auto.
    + exact (others_apart _ _ _ _ _ _ W I b).
  - intros b. unfold upd. destruct (Nat.eqb a b) eqn:Eb.
    + apply Nat.eqb_eq in Eb. subst b. right. exact FD.
    + exact (w_apart_shared _ _ _ _ W o (own_in _ _ _) b).
  - intros p s I. destruct (w_pool _ _ _ _ W p s I) as (b & x & E1 & E2 & E3). exists b, x. auto.
  - exact (w_pool_once _ _ _ _ W).
  - intros s I. split; [|split].
    + unfold upd. destruct (Nat.eqb a (ms_arr s)) eqn:Eb; [|exact (w_pool_own _ _ _ _ W s o I (own_in _ _ _))].
      apply Nat.eqb_eq in Eb. exfalso.
      assert (exists p, In s (ps p)) as [p Ip]. { unfold in_pools in I. apply in_app_or in I. destruct I; [exists BufPool|exists U32Pool]; assumption. }
      destruct (w_pool _ _ _ _ W p s Ip) as (b & x & E1 & E2 & E3). subst s. cbn in Eb. subst b. congruence.
    + exact (w_pool_shared _ _ _ _ W s I).
    + intros o2 I2. exact (w_pool_own _ _ _ _ W s o2 I (in_insert _ _ _ _ (or_intror I2))).
Qed.

(** A store into an owned array. *)
Lemma world_store h ps os1 o os2 a c c' : world D h ps (os1 ++ o :: os2) -> o a = Some c -> List.length c' = List.length c ->
  world D (set_nth a c' h) ps (os1 ++ upd o a c' :: os2).
Proof.
  intros W Oa Lc. pose proof (w_own _ _ _ _ W o a c (own_in _ _ _) Oa) as Ha.
  assert (La : (a < List.length h)%nat) by (apply nth_error_Some; congruence).
  assert (S : forall b, nth_error (set_nth a c' h) b = if Nat.eqb a b then Some c' else nth_error h b).
  { intros b. rewrite nth_error_set_nth. apply Nat.ltb_lt in La. rewrite La. reflexivity. }
  assert (Da : D a = None). { destruct (w_apart_shared _ _ _ _ W o (own_in _ _ _) a) as [E|E]; [congruence|exact E]. }
  assert (Fa : forall o2, In o2 (os1 ++ os2) -> o2 a = None). { intros o2 I. destruct (others_apart _ _ _ _ _ _ W I a); [congruence|assumption]. }
  apply (world_change h ps os1 o os2); [exact W| | | | | | | |].
  - intros b x E. rewrite S. unfold upd in E. destruct (Nat.eqb a b); [exact E|]. exact (w_own _ _ _ _ W o b x (own_in _ _ _) E).
  - intros b x E. rewrite S. destruct (Nat.eqb a b) eqn:Eb; [apply Nat.eqb_eq in Eb; subst b; congruence|]. exact (w_shared _ _ _ _ W b x E).
  - intros o2 b x I E. rewrite S. destruct (Nat.eqb a b) eqn:Eb; [apply Nat.eqb_eq in Eb; subst b; rewrite (Fa o2 I) in E; discriminate|].
    exact (w_own _ _ _ _ W o2 b x (in_insert _ _ _ _ (or_intror I)) E).
  - intros o2 I b. unfold upd. destruct (Nat.eqb a b) eqn:Eb; [apply Nat.eqb_eq in Eb; subst b; right; exact (Fa o2 I)|]. exact (others_apart _ _ _ _ _ _ W I b).
  - intros b. unfold upd. destruct (Nat.eqb a b) eqn:Eb; [apply Nat.eqb_eq in Eb; subst b; right; exact Da|]. exact (w_apart_shared _ _ _ _ W o (own_in _ _ _) b).
  - intros p s I. destruct (w_pool _ _ _ _ W p s I) as (b & x & E1 & E2 & E3). exists b. rewrite S. destruct (Nat.eqb a b) eqn:Eb.
    + exists c'. apply Nat.eqb_eq in Eb. subst b. split; [exact E1|]. split; [reflexivity|]. congruence.
    + exists x. auto.
  - exact (w_pool_once _ _ _ _ W).
  - intros s I. split; [|split].
    + unfold upd. pose proof (w_pool_own _ _ _ _ W s o I (own_in _ _ _)) as E. destruct (Nat.eqb a (ms_arr s)) eqn:Eb; [apply Nat.eqb_eq in Eb; congruence|exact E].
    + exact (w_pool_shared _ _ _ _ W s I).
    + intros o2 I2. exact (w_pool_own _ _ _ _ W s o2 I (in_insert _ _ _ _ (or_intror I2))).
Qed.

Lemma in_set_pool ps p l q s : In s (set_pool ps p l q) -> (p = q /\ In s l) \/ (p <> q /\ In s (ps q)).
Proof. destruct p, q; cbn; intros H; auto; right; (split; [discriminate|exact H]). Qed.
Lemma in_pools_iff ps s : In s (in_pools ps) <-> exists p, In s (ps p).
Proof.
  unfold in_pools. rewrite in_app_iff. split; [intros [H|H]; eauto|]. intros [[|] H]; auto.
Qed.
Lemma NoDup_mid {B} (l1 : list B) x l2 : NoDup (l1 ++ x :: l2) -> NoDup (l1 ++ l2) /\ ~ In x (l1 ++ l2).
Proof. intros H. split; [exact (NoDup_remove_1 _ _ _ H)|exact (NoDup_remove_2 _ _ _ H)]. Qed.

(** Taking a slice out of a pool. *)
Lemma world_get h ps os1 o os2 p l1 s l2 : world D h ps (os1 ++ o :: os2) -> ps p = l1 ++ s :: l2 ->
  exists a c, s = pool_slice p a /\ o a = None /\ D a = None /\ List.length c = pool_bytes p /\
    world D h (set_pool ps p (l1 ++ l2)) (os1 ++ upd o a c :: os2).
Proof.
  intros W E. assert (Is : In s (ps p)) by (rewrite E; apply own_in).
  destruct (w_pool _ _ _ _ W p s Is) as (a & c & E1 & E2 & E3). exists a, c. split; [exact E1|].
  assert (Isp : In s (in_pools ps)) by (apply in_pools_iff; eauto).
  assert (Ea : ms_arr s = a) by (subst s; reflexivity).
  assert (Oa : forall o2, In o2 (os1 ++ o :: os2) -> o2 a = None). { intros o2 I. rewrite <- Ea. exact (w_pool_own _ _ _ _ W s o2 Isp I). }
  assert (Da : D a = None). { rewrite <- Ea. exact (w_pool_shared _ _ _ _ W s Isp). }
  split; [apply Oa, own_in|]. split; [exact Da|]. split; [exact E3|].
  assert (ND : NoDup (map ms_arr (in_pools (set_pool ps p (l1 ++ l2)))) /\ ~ In a (map ms_arr (in_pools (set_pool ps p (l1 ++ l2))))).
  { pose proof (w_pool_once _ _ _ _ W) as N. unfold in_pools in *. destruct p; cbn [set_pool] in *; rewrite E in N.
    - rewrite <- app_assoc in N. cbn [app] in N. rewrite map_app in N. cbn [map] in N. apply NoDup_mid in N. rewrite <- app_assoc, map_app. rewrite <- Ea. exact N.
    - rewrite app_assoc in N. rewrite map_app in N. cbn [map] in N. apply NoDup_mid in N. rewrite app_assoc, map_app, <- Ea. exact N. }
  destruct ND as [ND1 ND2].
  assert (Sub : forall q s', In s' (set_pool ps p (l1 ++ l2) q) -> In s' (ps q)).
  { intros q s' I. apply in_set_pool in I. destruct I as [[<- I]|[_ I]]; [|exact I]. rewrite E. apply in_insert. auto. }
  apply (world_change h ps os1 o os2); [exact W| | | | | | | |].
  - intros b x Eb. unfold upd in Eb. destruct (Nat.eqb a b) eqn:Q; [apply Nat.eqb_eq in Q; subst b; congruence|]. exact (w_own _ _ _ _ W o b x (own_in _ _ _) Eb).
  - exact (w_shared _ _ _ _ W).
  - intros o2 b x I. exact (w_own _ _ _ _ W o2 b x (in_insert _ _ _ _ (or_intror I))).
  - intros o2 I b. unfold upd. destruct (Nat.eqb a b) eqn:Q; [apply Nat.eqb_eq in Q; subst b; right; apply Oa, in_insert; auto|]. exact (others_apart _ _ _ _ _ _ W I b).
  - intros b. unfold upd. destruct (Nat.eqb a b) eqn:Q; [apply Nat.eqb_eq in Q; subst b; right; exact Da|]. exact (w_apart_shared _ _ _ _ W o (own_in _ _ _) b).
  - intros q s' I. exact (w_pool _ _ _ _ W q s' (Sub q s' I)).
  - exact ND1.
  - intros s' I. assert (I' : In s' (in_pools ps)). { apply in_pools_iff in I. destruct I as [q I]. apply in_pools_iff. exists q. exact (Sub q s' I). }
    split; [|split].
    + unfold upd. destruct (Nat.eqb a (ms_arr s')) eqn:Q; [|exact (w_pool_own _ _ _ _ W s' o I' (own_in _ _ _))].
      apply Nat.eqb_eq in Q. destruct ND2. rewrite Q. apply in_map. exact I.
    + exact (w_pool_shared _ _ _ _ W s' I').
    + intros o2 I2. exact (w_pool_own _ _ _ _ W s' o2 I' (in_insert _ _ _ _ (or_intror I2))).
Qed.

(** Giving it back. *)
Lemma world_put h ps os1 o os2 p a c : world D h ps (os1 ++ o :: os2) -> o a = Some c -> List.length c = pool_bytes p ->
  world D h (set_pool ps p (pool_slice p a :: ps p)) (os1 ++ del o a :: os2).
Proof.
  intros W Oa Lc. pose proof (w_own _ _ _ _ W o a c (own_in _ _ _) Oa) as Ha.
  assert (Na : ~ In a (map ms_arr (in_pools ps))). { intros I. apply in_map_iff in I. destruct I as (s & Es & I). rewrite <- Es, (w_pool_own _ _ _ _ W s o I (own_in _ _ _)) in Oa. discriminate. }
  apply (world_change h ps os1 o os2); [exact W| | | | | | | |].
  - intros b x E. unfold del in E. destruct (Nat.eqb a b); [discriminate|]. exact (w_own _ _ _ _ W o b x (own_in _ _ _) E).
  - exact (w_shared _ _ _ _ W).
  - intros o2 b x I. exact (w_own _ _ _ _ W o2 b x (in_insert _ _ _ _ (or_intror I))).
  - intros o2 I b. unfold del. destruct (Nat.eqb a b); [left; reflexivity|]. exact (others_apart _ _ _ _ _ _ W I b).
  - intros b. unfold del. destruct (Nat.eqb a b); [left; reflexivity|]. exact (w_apart_shared _ _ _ _ W o (own_in _ _ _) b).
  - intros q s I. apply in_set_pool in I. destruct I as [[<- [<-|I]]|[_ I]].
    + exists a, c. auto.
    + exact (w_pool _ _ _ _ W p s I).
    + exact (w_pool _ _ _ _ W q s I).
  - pose proof (w_pool_once _ _ _ _ W) as N. unfold in_pools in *. destruct p; cbn [set_pool].
    + cbn [app map]. constructor; [exact Na|exact N].
    + rewrite map_app. cbn [map]. change (ms_arr (pool_slice U32Pool a)) with a. rewrite map_app in N, Na.
      apply (Permutation.Permutation_NoDup (l := a :: map ms_arr (ps BufPool) ++ map ms_arr (ps U32Pool))); [apply Permutation.Permutation_middle|]. constructor; assumption.
  - intros s I. apply in_pools_iff in I. destruct I as [q I]. apply in_set_pool in I.
    assert (C : s = pool_slice p a \/ In s (in_pools ps)). { destruct I as [[<- [<-|I]]|[_ I]]; [left; reflexivity| |]; right; apply in_pools_iff; eauto. }
    destruct C as [->|C].
    + cbn [ms_arr pool_slice]. split; [apply del_same|]. split.
      * destruct (w_apart_shared _ _ _ _ W o (own_in _ _ _) a); [congruence|assumption].
      * intros o2 I2. destruct (others_apart _ _ _ _ _ _ W I2 a); [congruence|assumption].
    + split; [|split].
      * unfold del. destruct (Nat.eqb a (ms_arr s)); [reflexivity|]. exact (w_pool_own _ _ _ _ W s o C (own_in _ _ _)).
      * exact (w_pool_shared _ _ _ _ W s C).
      * intros o2 I2. exact (w_pool_own _ _ _ _ W s o2 C (in_insert _ _ _ _ (or_intror I2))).
Qed.

(** A step of a goroutine that is safe with what it owns. *)
Lemma step1_ok h ps os1 o os2 (m : prog A) Q h' ps' m' :
  world D h ps (os1 ++ o :: os2) -> wp D o m Q -> step1 (h, ps, m) (h', ps', m') ->
  exists o', world D h' ps' (os1 ++ o' :: os2) /\ wp D o' m' Q.
Proof.
  intros W S T. inversion T; subst; cbn [wp] in S.
  - destruct (world_alloc _ _ _ _ _ (zeros n) W) as (E1 & E2 & W'). eexists. split; [exact W'|]. apply S; assumption.
  - destruct S as (c' & [E|E] & L & S); [rewrite (w_own _ _ _ _ W o a c' (own_in _ _ _) E) in *|rewrite (w_shared _ _ _ _ W a c' E) in *];
      (match goal with H : Some _ = Some _ |- _ => injection H as -> end); exists o; split; assumption.
  - destruct S as (c' & E & L & S). pose proof (w_own _ _ _ _ W o a c' (own_in _ _ _) E) as Ha. assert (c' = c) as -> by congruence.
    eexists. split; [|exact S]. apply (world_store _ _ _ _ _ a c); [exact W|exact E|]. apply overwrite_length. exact L.
  - destruct (world_get _ _ _ _ _ p l1 s l2 W ltac:(assumption)) as (a & c & -> & E1 & E2 & E3 & W'). eexists. split; [exact W'|]. apply S; assumption.
  - destruct (world_alloc _ _ _ _ _ (zeros (pool_bytes p)) W) as (E1 & E2 & W'). eexists. split; [exact W'|]. apply S; [assumption|assumption|].
    unfold zeros. apply repeat_length.
  - destruct S as (a & c & -> & E & L & S). eexists. split; [|exact S]. exact (world_put _ _ _ _ _ p a c W E L).
Qed.
(** It is never stuck. *)
Lemma step1_progress h ps os1 o os2 (m : prog A) Q : world D h ps (os1 ++ o :: os2) -> wp D o m Q ->
  (exists a, m = Ret a) \/ exists h' ps' m', step1 (h, ps, m) (h', ps', m').
Proof.
  intros W S. destruct m; cbn [wp] in S; [left; eauto|right..].
  - do 3 eexists. apply s_alloc.
  - destruct S as (c & [E|E] & L & _); [apply (w_own _ _ _ _ W o a c (own_in _ _ _)) in E|apply (w_shared _ _ _ _ W) in E]; do 3 eexists; eapply s_load; eauto.
  - destruct S as (c & E & L & _). apply (w_own _ _ _ _ W o a c (own_in _ _ _)) in E. do 3 eexists. eapply s_store; eauto.
  - do 3 eexists. apply s_new.
  - do 3 eexists. apply s_put.
Qed.

(** All goroutines, each with its own goal. *)
Definition safe (os : list arrays) (Qs : list (A -> arrays -> Prop)) (ms : list (prog A)) : Prop :=
  List.length os = List.length ms /\ List.length Qs = List.length ms /\
  forall i o Q m, nth_error os i = Some o -> nth_error Qs i = Some Q -> nth_error ms i = Some m -> wp D o m Q.

Lemma step_ok Qs os s s' : world D (st_heap s) (st_pool s) os -> safe os Qs (st_run s) -> step s s' ->
  exists os', world D (st_heap s') (st_pool s') os' /\ safe os' Qs (st_run s') /\
    forall i o a, nth_error os i = Some o -> nth_error (st_run s) i = Some (Ret a) -> nth_error os' i = Some o.
Proof.
  intros W (L1 & L2 & S) T. destruct T as [h ps l1 m l2 h' ps' m' T]. cbn [st_heap st_pool st_run] in *.
  rewrite app_length in L1, L2. cbn [List.length] in L1, L2.
  destruct (nth_error os (List.length l1)) as [o|] eqn:Eo; [|apply nth_error_None in Eo; lia].
  destruct (nth_error Qs (List.length l1)) as [Q|] eqn:EQ; [|apply nth_error_None in EQ; lia].
  destruct (nth_error_split os _ Eo) as (os1 & os2 & -> & Lo).
  assert (Em : nth_error (l1 ++ m :: l2) (List.length l1) = Some m) by (rewrite nth_error_app2, Nat.sub_diag by lia; reflexivity).
  destruct (step1_ok _ _ _ _ _ m Q _ _ _ W (S _ _ _ _ Eo EQ Em) T) as (o' & W' & S').
  exists (os1 ++ o' :: os2). split; [exact W'|]. split; [split; [|split]|].
  - rewrite !app_length in *. cbn [List.length] in *. lia.
  - rewrite app_length. cbn [List.length]. lia.
  - intros i o2 Q2 m2 E1 E2 E3. rewrite (nth_replaced os1 o o' os2) in E1. rewrite (nth_replaced l1 m m' l2) in E3. rewrite <- Lo in E3.
    destruct (Nat.eqb i (List.length os1)) eqn:Ei.
    + apply Nat.eqb_eq in Ei. subst i. rewrite Lo in E2. rewrite EQ in E2. injection E1 as <-. injection E2 as <-. injection E3 as <-. exact S'.
    + exact (S i o2 Q2 m2 E1 E2 E3).
  - intros i o2 a E1 E2. rewrite (nth_replaced os1 o o' os2). destruct (Nat.eqb i (List.length os1)) eqn:Ei; [|exact E1].
    exfalso. apply Nat.eqb_eq in Ei. subst i. rewrite Lo, Em in E2. injection E2 as ->. inversion T.
Qed.
Lemma steps_ok Qs s s' : steps s s' -> forall os, world D (st_heap s) (st_pool s) os -> safe os Qs (st_run s) ->
  exists os', world D (st_heap s') (st_pool s') os' /\ safe os' Qs (st_run s') /\
    forall i o a, nth_error os i = Some o -> nth_error (st_run s) i = Some (Ret a) -> nth_error os' i = Some o /\ nth_error (st_run s') i = Some (Ret a).
Proof.
  induction 1 as [s|s s' s'' T _ IH]; intros os W S; [exists os; split; [exact W|]; split; [exact S|]; auto|].
  destruct (step_ok Qs os s s' W S T) as (os' & W' & S' & K). destruct (IH os' W' S') as (os'' & W'' & S'' & K'').
  exists os''. split; [exact W''|]. split; [exact S''|]. intros i o a E1 E2. pose proof (K i o a E1 E2) as E3. apply (K'' i o a E3).
  clear - T E2. destruct T as [h ps l1 m l2 h' ps' m' T]. cbn [st_run] in *. rewrite (nth_replaced l1 m m' l2).
  destruct (Nat.eqb i (List.length l1)) eqn:Ei; [|exact E2]. apply Nat.eqb_eq in Ei. subst i. rewrite nth_error_app2, Nat.sub_diag in E2 by lia. injection E2 as ->. inversion T.
Qed.
End Step.
