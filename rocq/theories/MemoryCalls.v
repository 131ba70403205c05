(** Any number of calls on one document, run side by side. *)
From Verif Require Import Base BaseFacts Types Binary SpecLayout BinaryProofs SliceProofs Doc ModelerRead ModelerReadSpecProofs Memory SpecMemory MemoryProofs MemoryReads MemoryRead2 MemoryTyped MemoryAccessor.

(** ** Ranges of what the readers store *)
Lemma wf_comps c t e : wf_elem c t e -> comps (rows t * columns t) (256 ^ Z.of_nat (comp_bytes c)) e.
Proof. intros H. exact H. Qed.
Lemma comps_map n m m' f e : (forall x, 0 <= x < m -> 0 <= f x < m') -> comps n m e -> comps n m' (map f e).
Proof.
  intros H [L F]. split; [rewrite map_length; exact L|]. apply Forall_forall. intros y Hy. apply in_map_iff in Hy. destruct Hy as (x & <- & Hx). rewrite Forall_forall in F. apply H, F, Hx.
Qed.
Lemma comps_snoc n m e x : comps n m e -> 0 <= x < m -> comps (S n) m (e ++ [x]).
Proof. intros [L F] H. split; [rewrite app_length, L; cbn; lia|]. apply Forall_app. split; [exact F|]. constructor; [exact H|constructor]. Qed.
Lemma comps_mono n m m' e : m <= m' -> comps n m e -> comps n m' e.
Proof. intros H [L F]. split; [exact L|]. eapply Forall_impl; [|exact F]. cbv beta. intros. lia. Qed.
Lemma widen8_range x : 0 <= x < 256 -> 0 <= widen8 x < 65536.
Proof.
  intros H. unfold widen8. rewrite Z.mod_small by lia. replace (x * 256) with (Z.shiftl x 8) by (rewrite Z.shiftl_mul_pow2 by lia; reflexivity).
  assert (0 <= Z.lor x (Z.shiftl x 8)) by (apply Z.lor_nonneg; split; [lia|apply Z.shiftl_nonneg; lia]). split; [assumption|].
  destruct (Z.eq_dec (Z.lor x (Z.shiftl x 8)) 0) as [->|N]; [lia|]. apply Z.log2_lt_cancel. change (Z.log2 65536) with 16. rewrite Z.log2_lor by (try apply Z.shiftl_nonneg; lia).
  assert (Z.log2 x < 8). { destruct (Z.eq_dec x 0) as [->|]; [cbn; lia|]. apply Z.log2_lt_pow2; lia. }
  apply Z.max_lub_lt; [lia|]. destruct (Z.eq_dec x 0) as [->|]; [cbn; lia|]. rewrite Z.log2_shiftl by lia. lia.
Qed.

Lemma comps_image w e : forall c, Z.to_nat (ByteSize c) = w -> image w e = image (Z.to_nat (ByteSize c)) e.
Proof. intros c ->. reflexivity. Qed.

Section Calls.
Context (cv : conversions) (HC : conv_ranges cv) (doc : Document) (ds : list mslice).

Lemma copies_of_inv c0 t0 c t f : copies_of c0 t0 (SK c t) = Some f -> c = c0 /\ t = t0 /\ f = ident.
Proof.
  unfold copies_of. destruct (ct_eqb c0 c && at_eqb t0 t)%bool eqn:E; [|discriminate]. intros [= <-]. apply andb_prop in E. destruct E as [E1 E2].
  split; [|split; [|reflexivity]].
  - destruct c0, c; try discriminate E1; try reflexivity. cbn in E1. apply Z.eqb_eq in E1. congruence.
  - destruct t0, t; try discriminate E2; try reflexivity. cbn in E2. apply Z.eqb_eq in E2. congruence.
Qed.
Lemma copies_ok c0 t0 w n c t f : copies_of c0 t0 (SK c t) = Some f -> Z.to_nat (ByteSize c0) = w -> (rows t0 * columns t0)%nat = n -> comp_bytes c0 = w ->
  forall e, wf_elem c t e -> comps_ok w n (f e) /\ image w (f e) = image (Z.to_nat (ByteSize c)) e.
Proof. intros E Ew En Eb e W. apply copies_of_inv in E. destruct E as (-> & -> & ->). unfold ident. subst. split; [|reflexivity]. unfold comps_ok. rewrite <- Eb. exact W. Qed.

Definition typed_post (D : arrays) (o : arrays) (rd : typed_reader) (acr : Accessor) (buf : mslice) (vs : list elem) (r : res mslice) (o' : arrays) : Prop :=
  exists b p, List.length b = pool_bytes BufPool /\ pools_ok p /\ list_post (image (comp_width rd)) (comps_ok (comp_width rd) (comp_count rd)) (touch buf) o (typed_value cv rd doc acr vs b p) r o'.

Lemma typed_call_spec D o rd acr buf vs : doc_at D doc ds -> owns o buf (imgs (image (comp_width rd)) vs) -> Forall (elem_ok rd) vs ->
  wp D o (call_prog cv doc ds (CallTyped rd acr buf vs)) (typed_post D o rd acr buf vs).
Proof.
  intros HD O V. destruct HC as (H1 & H2 & H3 & H4 & H5 & H6). unfold typed_post. cbn [call_prog].
  destruct rd; cbn [comp_width comp_count typed_value];
    unfold ReadNormal_m, ReadTangent_m, ReadTextureCoord_m, ReadWeights_m, ReadJoints_m, ReadPosition_m, ReadColor_m, ReadColor64_m, ReadInverseBindMatrices_m;
    unfold ReadNormal, ReadTangent, ReadTextureCoord, ReadWeights, ReadJoints, ReadPosition, ReadColor, ReadColor64, ReadInverseBindMatrices;
    (apply read_typed_spec; [exact HD|lia|lia| | |exact O|exact V]); intros Hk f E; try discriminate E;
    try (eapply copies_ok; [exact E|reflexivity..]);
    (destruct (acr_ComponentType acr); try discriminate E; destruct (acr_Type acr); try discriminate E; injection E as <-; intros e W; apply wf_comps in W; cbn [rows columns comp_bytes Nat.mul Nat.add] in W; unfold comps_ok).
  - exact (comps_map 2 256 (2 ^ 32) _ e H1 W).
  - exact (comps_map 2 65536 (2 ^ 32) _ e H2 W).
  - exact (comps_map 4 256 (2 ^ 32) _ e H1 W).
  - exact (comps_map 4 65536 (2 ^ 32) _ e H2 W).
  - exact (comps_mono 4 256 65536 e ltac:(lia) W).
  - apply (comps_snoc 3 256); [|lia]. apply H3. exact W.
  - apply H4. exact W.
  - exact (comps_snoc 3 256 e 255 W ltac:(lia)).
  - apply (comps_snoc 3 256); [|lia]. apply (comps_map 3 65536 256); [intros; apply Z.mod_pos_bound; lia|exact W].
  - apply (comps_map 4 65536 256); [intros; apply Z.mod_pos_bound; lia|exact W].
  - apply (comps_snoc 3 65536); [|lia]. apply H5. exact W.
  - apply H6. exact W.
  - apply (comps_snoc 3 65536); [|lia]. exact (comps_map 3 256 65536 _ e widen8_range W).
  - exact (comps_map 4 256 65536 _ e widen8_range W).
  - apply (comps_snoc 3 65536); [exact W|lia].
Qed.

(** ** The first state *)
Section Start.
Context (ks : list call) (st : state (res mslice)) (HR : ready doc ds ks st).
Notation h := (st_heap st).

Definition has_buffer (a : nat) (k : call) : bool := (negb (Nat.eqb (ms_cap (call_buffer k)) 0) && Nat.eqb (ms_arr (call_buffer k)) a)%bool.
Lemma has_buffer_true a k : has_buffer a k = true <-> ms_cap (call_buffer k) <> 0%nat /\ ms_arr (call_buffer k) = a.
Proof. unfold has_buffer. rewrite andb_true_iff, negb_true_iff, Nat.eqb_neq, Nat.eqb_eq. tauto. Qed.
Definition own (k : call) : arrays := fun a => if has_buffer a k then nth_error h a else None.
Definition rest : arrays := fun a => if (existsb (has_buffer a) ks || existsb (fun s => Nat.eqb (ms_arr s) a) (in_pools (st_pool st)))%bool then None else nth_error h a.
Lemma rest_call a : existsb (has_buffer a) ks = true <-> call_array ks a.
Proof. rewrite existsb_exists. split; [intros (k & I & E); apply has_buffer_true in E; exists k; tauto|intros (k & I & E); exists k; split; [exact I|]; apply has_buffer_true; tauto]. Qed.
Lemma rest_pool a : existsb (fun s => Nat.eqb (ms_arr s) a) (in_pools (st_pool st)) = true <-> pooled st a.
Proof.
  rewrite existsb_exists. unfold in_pools, pooled. split.
  - intros (s & I & E). apply Nat.eqb_eq in E. apply in_app_or in I. destruct I as [I|I]; [exists BufPool, s|exists U32Pool, s]; auto.
  - intros (p & s & I & E). exists s. split; [|apply Nat.eqb_eq; exact E]. apply in_or_app. destruct p; auto.
Qed.
Lemma rest_some a : ~ call_array ks a -> ~ pooled st a -> rest a = nth_error h a.
Proof.
  intros N1 N2. unfold rest. destruct (existsb (has_buffer a) ks) eqn:E1; [apply rest_call in E1; tauto|]. destruct (existsb _ (in_pools (st_pool st))) eqn:E2; [apply rest_pool in E2; tauto|]. reflexivity.
Qed.
Lemma rest_call_none a : call_array ks a -> rest a = None.
Proof. intros H. apply rest_call in H. unfold rest. rewrite H. reflexivity. Qed.
Lemma rest_pool_none a : pooled st a -> rest a = None.
Proof. intros H. apply rest_pool in H. unfold rest. rewrite H, orb_true_r. reflexivity. Qed.

Lemma start_world : world rest h (st_pool st) (map own ks).
Proof.
  destruct HR as [R1 R2 R3 R4 R5 R6 R7]. split.
  - intros o a c I E. apply in_map_iff in I. destruct I as (k & <- & I). unfold own in E. destruct (has_buffer a k); [exact E|discriminate].
  - intros a c E. unfold rest in E. destruct (_ || _)%bool; [discriminate|exact E].
  - intros i j o1 o2 N E1 E2 a. rewrite nth_error_map in E1, E2. destruct (nth_error ks i) as [k1|] eqn:K1; [|discriminate]. destruct (nth_error ks j) as [k2|] eqn:K2; [|discriminate]. injection E1 as <-. injection E2 as <-.
    unfold own. destruct (has_buffer a k1) eqn:B1; [|left; reflexivity]. destruct (has_buffer a k2) eqn:B2; [|right; reflexivity]. apply has_buffer_true in B1, B2. destruct B1 as [B1 B1'], B2 as [B2 B2']. destruct (R3 i j k1 k2 N K1 K2 B1 B2). congruence.
  - intros o I a. apply in_map_iff in I. destruct I as (k & <- & I). unfold own. destruct (has_buffer a k) eqn:B; [|left; reflexivity]. right. apply rest_call_none. apply has_buffer_true in B. exists k. tauto.
  - exact R5.
  - exact R6.
  - intros s o I I2. apply in_map_iff in I2. destruct I2 as (k & <- & I2). unfold own. destruct (has_buffer (ms_arr s) k) eqn:B; [|reflexivity]. exfalso. apply has_buffer_true in B.
    apply (proj2 (R7 (ms_arr s) ltac:(unfold in_pools in I; apply in_app_or in I; destruct I as [I|I]; [exists BufPool, s|exists U32Pool, s]; auto))). exists k. tauto.
  - intros s I. apply rest_pool_none. unfold in_pools in I. apply in_app_or in I. destruct I as [I|I]; [exists BufPool, s|exists U32Pool, s]; auto.
Qed.
Lemma start_doc : doc_at rest doc ds.
Proof.
  destruct HR as [R1 R2 R3 R4 R5 R6 R7]. unfold doc_at. unfold doc_loaded in R1.
  assert (K : forall s, In s ds -> ms_len s <> 0%nat -> rest (ms_arr s) = nth_error h (ms_arr s)).
  { intros s I L. assert (DA : doc_array ds (ms_arr s)) by (exists s; auto). apply rest_some; [intros C; exact (R4 _ C DA)|intros C; exact (proj1 (R7 _ C) DA)]. }
  clear HR R4 R7. revert K. induction R1 as [|b s bs ss [H1 H2] _ IH]; intros K; constructor.
  - destruct b as [b|]; [|exact I]. destruct H2 as [H2 H3]. split; [exact H2|]. split; [exact H1|]. destruct (Nat.eq_dec (ms_len s) 0) as [Z|Z]; [left; exact Z|]. right.
    destruct H3 as [H3|(c & E & L & V)]; [congruence|]. exists c. rewrite (K s (or_introl eq_refl) Z). auto.
  - apply IH. intros s' I. apply K. right. exact I.
Qed.

(** What a call is about to do. *)
Definition goal (k : call) (r : res mslice) (o' : arrays) : Prop :=
  match k with
  | CallAccessor acr buf b => exists p, pools_ok p /\ slice_post (acr_ComponentType acr) (acr_Type acr) (touch buf) (own k) (ReadAccessor doc acr b p) r o'
  | CallIndices acr buf vs => exists b p, List.length b = pool_bytes BufPool /\ pools_ok p /\ list_post (le_bytes 4) u32_ok (touch buf) (own k) (ReadIndices doc acr vs b p) r o'
  | CallTyped rd acr buf vs => typed_post rest (own k) rd acr buf vs r o'
  end.
Lemma start_owns k s v : in_memory h (call_buffer k) -> holds h s v -> ms_arr s = ms_arr (call_buffer k) -> ms_off s = ms_off (call_buffer k) -> ms_cap s = ms_cap (call_buffer k) -> (ms_len s <= ms_cap s)%nat -> owns (own k) s v.
Proof.
  intros [_ M] [H1 H2] E1 E2 E3 L. split; [exact H1|]. split; [exact L|]. destruct (Nat.eq_dec (ms_cap s) 0) as [Z|Z]; [left; exact Z|]. right.
  destruct M as [M|(c & E & Lc)]; [congruence|]. exists c. split.
  - unfold own. replace (has_buffer (ms_arr s) k) with true; [congruence|]. symmetry. apply has_buffer_true. split; congruence.
  - split; [congruence|]. destruct H2 as [H2|(c' & E' & L' & V')].
    + rewrite H2 in *. destruct v; [reflexivity|discriminate].
    + assert (c' = c) by congruence. subst c'. exact V'.
Qed.
Lemma start_wp k : In k ks -> wp rest (own k) (call_prog cv doc ds k) (goal k).
Proof.
  intros I. pose proof (r_calls _ _ _ _ HR) as RC. rewrite Forall_forall in RC. destruct (RC k I) as [M R]. pose proof M as [Lm _]. destruct k as [acr s b|acr s vs|rd acr s vs]; cbn [call_buffer] in *.
  - cbn [call_prog goal]. apply (ReadAccessor_spec rest doc ds start_doc). apply (start_owns (CallAccessor acr s b)); cbn [call_buffer extended ms_arr ms_off ms_len ms_cap]; try reflexivity; try assumption.
  - destruct R as [R V]. cbn [call_prog goal]. apply (ReadIndices_spec rest doc ds start_doc); [|exact V]. apply (start_owns (CallIndices acr s vs)); try reflexivity; try assumption.
  - destruct R as [R V]. cbn [goal]. apply typed_call_spec; [exact start_doc| |exact V]. apply (start_owns (CallTyped rd acr s vs)); try reflexivity; try assumption.
Qed.
Lemma start_safe : st_run st = map (call_prog cv doc ds) ks -> safe rest (map own ks) (map goal ks) (st_run st).
Proof.
  intros E. rewrite E. split; [rewrite !map_length; reflexivity|]. split; [rewrite !map_length; reflexivity|]. intros i o Q m E1 E2 E3. rewrite nth_error_map in E1, E2, E3.
  destruct (nth_error ks i) as [k|] eqn:K; [|discriminate]. injection E1 as <-. injection E2 as <-. injection E3 as <-. apply start_wp. eapply nth_error_In. exact K.
Qed.

(** ** Every state after it *)
Lemma owns_holds o h' s v : (forall a c, o a = Some c -> nth_error h' a = Some c) -> owns o s v -> holds h' s v.
Proof.
  intros W (L1 & L2 & K). split; [exact L1|]. destruct (Nat.eq_dec (ms_len s) 0) as [Z|Z]; [left; exact Z|]. right. destruct K as [K|(c & E & L & V)]; [lia|]. exists c. split; [exact (W _ _ E)|]. split; [lia|exact V].
Qed.
Lemma goal_owns k s o' : goal k (Ok s) o' -> exists v, owns o' s v.
Proof.
  destruct k; cbn [goal].
  - intros (p & _ & _ & R). destruct (ReadAccessor doc acr b p); try discriminate R. destruct R as (s' & E & _ & _ & _ & _ & O & _). injection E as ->. eauto.
  - intros (b & p & _ & _ & _ & R). destruct (ReadIndices doc acr vs b p); try discriminate R. destruct R as (s' & E & _ & O & _). injection E as ->. eauto.
  - intros (b & p & _ & _ & _ & R). destruct (typed_value cv r doc acr vs b p); try discriminate R. destruct R as (s' & E & _ & O & _). injection E as ->. eauto.
Qed.
Lemma goal_finished k r o' h' : (forall a c, o' a = Some c -> nth_error h' a = Some c) -> goal k r o' -> finished cv doc h' k r.
Proof.
  intros W. unfold finished. destruct k; cbn [goal].
  - intros (p & Gp & _ & R). exists fresh_buf, p. split; [reflexivity|]. split; [exact Gp|]. unfold agrees. destruct (ReadAccessor doc acr b p); try exact R. destruct R as (s' & -> & _ & _ & _ & _ & O & _). exists s'. split; [reflexivity|]. exact (owns_holds _ _ _ _ W O).
  - intros (b & p & L & Gp & _ & R). exists b, p. split; [exact L|]. split; [exact Gp|]. unfold agrees. destruct (ReadIndices doc acr vs b p); try exact R. destruct R as (s' & -> & _ & O & _). exists s'. split; [reflexivity|]. exact (owns_holds _ _ _ _ W O).
  - intros (b & p & L & Gp & _ & R). exists b, p. split; [exact L|]. split; [exact Gp|]. unfold agrees. destruct (typed_value cv r0 doc acr vs b p); try exact R. destruct R as (s' & -> & _ & O & _). exists s'. split; [reflexivity|]. exact (owns_holds _ _ _ _ W O).
Qed.

Section After.
Context (D : arrays) (Qs : list (res mslice -> arrays -> Prop)) (os : list arrays) (st' : state (res mslice)).
Context (W : world D (st_heap st') (st_pool st') os) (S : safe D os Qs (st_run st')).
Lemma after_own i m : nth_error (st_run st') i = Some m -> exists o Q, nth_error os i = Some o /\ nth_error Qs i = Some Q /\ wp D o m Q.
Proof.
  intros E. destruct S as (L1 & L2 & H). assert (Li : (i < List.length (st_run st'))%nat) by (apply nth_error_Some; congruence).
  destruct (nth_error os i) as [o|] eqn:Eo; [|apply nth_error_None in Eo; lia]. destruct (nth_error Qs i) as [Q|] eqn:EQ; [|apply nth_error_None in EQ; lia]. exists o, Q. split; [reflexivity|]. split; [reflexivity|]. exact (H i o Q m Eo EQ E).
Qed.
Lemma after_access i m a w : nth_error (st_run st') i = Some m -> next_access m = Some (a, w) -> exists o c, nth_error os i = Some o /\ (o a = Some c \/ (w = false /\ D a = Some c)).
Proof.
  intros E N. destruct (after_own i m E) as (o & Q & Eo & _ & H). exists o. destruct m; cbn [next_access] in N; try discriminate N; injection N as <- <-; cbn [wp] in H.
  - destruct H as (c & [H|H] & _); exists c; auto.
  - destruct H as (c & H & _). exists c. auto.
Qed.
Lemma after_no_race : ~ race st'.
Proof.
  intros (i & j & mi & mj & a & wi & wj & N & Ei & Ej & Ai & Aj & Hw).
  destruct (after_access i mi a wi Ei Ai) as (oi & ci & Oi & Hi). destruct (after_access j mj a wj Ej Aj) as (oj & cj & Oj & Hj).
  pose proof (w_apart _ _ _ _ W i j oi oj N Oi Oj a) as A1. pose proof (w_apart_shared _ _ _ _ W oi (nth_error_In _ _ Oi) a) as A2. pose proof (w_apart_shared _ _ _ _ W oj (nth_error_In _ _ Oj) a) as A3.
  destruct Hi as [Hi|[-> Hi]], Hj as [Hj|[-> Hj]]; destruct A1, A2, A3, Hw; congruence.
Qed.
Lemma pooled_in a : pooled st' a -> exists s, In s (in_pools (st_pool st')) /\ ms_arr s = a.
Proof. intros (p & s & I & E). exists s. split; [|exact E]. unfold in_pools. apply in_or_app. destruct p; auto. Qed.
Lemma after_no_use : ~ use_after_put st'.
Proof.
  intros (i & m & a & w & E & N & P). destruct (after_access i m a w E N) as (o & c & O & H). apply pooled_in in P. destruct P as (s & I & <-).
  pose proof (w_pool_own _ _ _ _ W s o I (nth_error_In _ _ O)). pose proof (w_pool_shared _ _ _ _ W s I). destruct H as [H|[_ H]]; congruence.
Qed.
Lemma after_not_stuck : ~ stuck st'.
Proof.
  intros (i & m & E & N & T). destruct (after_own i m E) as (o & Q & Eo & _ & H). destruct (nth_error_split os i Eo) as (os1 & os2 & E' & _). pose proof W as W'. rewrite E' in W'.
  destruct (step1_progress D _ _ os1 o os2 m Q W' H) as [[a ->]|(h' & ps' & m' & P)]; [exact (N a eq_refl)|exact (T _ _ _ P)].
Qed.
End After.
End Start.
End Calls.

(** ** Executions end *)
Definition next {A} (m' m : prog A) : Prop := exists h ps h' ps', step1 (h, ps, m) (h', ps', m').
Lemma prog_acc {A} (m : prog A) : Acc next m.
Proof.
  induction m as [a|n k IH|a off n k IH|a off d k IH|p k IH|p s k IH]; constructor; intros m' (h & ps & h' & ps' & T); inversion T; subst; auto.
Qed.
Inductive next_list {A} : list (prog A) -> list (prog A) -> Prop :=
| next_at l1 m m' l2 : next m' m -> next_list (l1 ++ m' :: l2) (l1 ++ m :: l2).
Lemma list_acc {A} (l : list (prog A)) : Acc next_list l.
Proof.
  induction l as [|m l IH]; [constructor; intros l' H; inversion H as [l1 m m' l2 N E1 E2]; destruct l1; discriminate|].
  revert l IH. induction (prog_acc m) as [m _ IHm]. intros l IHl. induction IHl as [l Hl IHl].
  constructor. intros l' H. inversion H as [l1 m0 m1 l2 N E1 E2]. destruct l1 as [|x l1]; cbn in *; injection E2 as E3 E4; subst.
  - apply IHm; [exact N|]. constructor. exact Hl.
  - apply IHl. constructor. exact N.
Qed.
Lemma state_acc {A} (st : state A) : Acc (fun s' s => step s s') st.
Proof.
  destruct st as [h ps l]. revert h ps. induction (list_acc l) as [l _ IH]. intros h ps. constructor. intros s' T. inversion T as [h0 ps0 l1 m l2 h' ps' m' T1 E1 E2]; subst. apply IH. constructor. exists h, ps, h', ps'. exact T1.
Qed.
