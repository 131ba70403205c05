(** C95: the outcome of ReadAccessor and of the typed readers, for every
    document and accessor of modest size (SpecFetch.v). *)
From Verif Require Import BaseFacts Types Binary SpecLayout Doc F64 SpecDoc ModelerRead ModelerSparseProofs ModelerReadSpecProofs
  PropsModelerRead SpecFetch FetchProofs.

(** ** C95 *)
(** It panics exactly for the documents [accessor_crashes] describes and
    returns elements exactly when [accessor_reads] holds of them; in all other
    cases it reports an error. *)
Theorem C95_outcome :
  forall d a buf p, modest d a ->
  (ReadAccessor d a buf p = Panic <-> accessor_crashes d a buf (p_idx p) (p_val p)) /\
  (forall vs, ReadAccessor d a buf p = Ok (mkSlice (SK (acr_ComponentType a) (acr_Type a)) vs) <->
     accessor_reads d a buf (p_idx p) (p_val p) vs) /\
  (forall s, ReadAccessor d a buf p = Ok s -> sk s = SK (acr_ComponentType a) (acr_Type a)) /\
  (forall vs, accessor_reads d a buf (p_idx p) (p_val p) vs -> ~ accessor_crashes d a buf (p_idx p) (p_val p)).
Proof.
  intros d a buf p M. pose proof (accessor_fate d a buf p M) as F. unfold fetch_outcome in F.
  destruct (ReadAccessor d a buf p) as [s|e|].
  - destruct F as (F1 & F2 & F3). split; [split; [discriminate|contradiction]|]. split; [|split].
    + intros vs. split.
      * intros E. assert (s = mkSlice (SK (acr_ComponentType a) (acr_Type a)) vs) by congruence. subst s. exact F3.
      * intros R. rewrite (accessor_reads_unique _ _ _ _ _ _ _ R F3). rewrite <- F2. destruct s; reflexivity.
    + intros s' E. assert (s' = s) by congruence. subst s'. exact F2.
    + intros vs _. exact F1.
  - destruct F as [F1 F2]. split; [split; [discriminate|contradiction]|]. split; [|split].
    + intros vs. split; [discriminate|]. intros R. destruct (F2 vs R).
    + discriminate.
    + intros vs R. destruct (F2 vs R).
  - destruct F as [F1 F2]. split; [split; [intros _; exact F1|reflexivity]|]. split; [|split].
    + intros vs. split; [discriminate|]. intros R. destruct (F2 vs R).
    + discriminate.
    + intros vs R. destruct (F2 vs R).
Qed.
Print Assumptions C95_outcome.

(** The typed readers go through a pooled buffer [pool]; they add a check of
    the format and nothing that can crash. *)
Definition settles {A} (r : res A) (format : Prop) (d : Document) (a : Accessor) (pool : bytes) (p : pools) : Prop :=
  (r = Panic <-> format /\ accessor_crashes d a pool (p_idx p) (p_val p)) /\
  ((exists x, r = Ok x) <-> format /\ exists vs, accessor_reads d a pool (p_idx p) (p_val p) vs).

Lemma typed_settles {A} (read : Document -> Accessor -> list A -> bytes -> pools -> res (list A)) fmt (format : Prop) d a buf pool p :
  modest d a -> typed_by read fmt -> (format <-> fmt (acr_ComponentType a) (acr_Type a) <> None) -> settles (read d a buf pool p) format d a pool p.
Proof.
  intros M T FM. specialize (T d a). unfold settles. destruct (fmt (acr_ComponentType a) (acr_Type a)) as [f|].
  2:{ assert (NF : ~ format) by (rewrite FM; intros H; apply H; reflexivity). destruct T as [e T]. rewrite T. split; split; try discriminate; try (intros [H _]; contradiction).
      intros [x X]. discriminate. }
  assert (YF : format) by (apply FM; discriminate). specialize (T buf pool p). pose proof (accessor_fate d a pool p M) as F. unfold fetch_outcome in F.
  destruct (ReadAccessor d a pool p) as [s|e|].
  - destruct T as (r & -> & _). destruct F as (F1 & _ & F3). split; split; try discriminate; [intros [_ H]; contradiction|eauto|eauto].
  - rewrite T. destruct F as [F1 F2]. split; split; try discriminate; [intros [_ H]; contradiction|intros [x X]; discriminate|intros [_ [vs R]]; destruct (F2 vs R)].
  - rewrite T. destruct F as [F1 F2]. split; split; auto; [intros [x X]; discriminate|intros [_ [vs R]]; destruct (F2 vs R)].
Qed.

Theorem C95_helpers :
  forall cv d a pool p, modest d a ->
  let c := acr_ComponentType a in let t := acr_Type a in
  let normalizable := c = CUbyte \/ c = CUshort \/ c = CFloat in
  (forall buf, settles (ReadIndices d a buf pool p) ((c = CUbyte \/ c = CUshort \/ c = CUint) /\ t = AScalar) d a pool p) /\
  forall buf,
  settles (ReadNormal d a buf pool p) (c = CFloat /\ t = AVec3) d a pool p /\
  settles (ReadPosition d a buf pool p) (c = CFloat /\ t = AVec3) d a pool p /\
  settles (ReadTangent d a buf pool p) (c = CFloat /\ t = AVec4) d a pool p /\
  settles (ReadInverseBindMatrices d a buf pool p) (c = CFloat /\ t = AMat4) d a pool p /\
  settles (ReadTextureCoord cv d a buf pool p) (normalizable /\ t = AVec2) d a pool p /\
  settles (ReadWeights cv d a buf pool p) (normalizable /\ t = AVec4) d a pool p /\
  settles (ReadJoints d a buf pool p) ((c = CUbyte \/ c = CUshort) /\ t = AVec4) d a pool p /\
  settles (ReadColor cv d a buf pool p) (normalizable /\ (t = AVec3 \/ t = AVec4)) d a pool p /\
  settles (ReadColor64 cv d a buf pool p) (normalizable /\ (t = AVec3 \/ t = AVec4)) d a pool p.
Proof.
  intros cv d a pool p M c t normalizable. unfold normalizable, c, t.
  assert (S : forall A (read : Document -> Accessor -> list A -> bytes -> pools -> res (list A)) fmt (format : Prop) buf,
    typed_by read fmt -> (format <-> fmt (acr_ComponentType a) (acr_Type a) <> None) -> settles (read d a buf pool p) format d a pool p) by (intros; eapply typed_settles; eauto).
  destruct (acr_ComponentType a), (acr_Type a);
  (refine (conj (fun buf => (S _ ReadIndices _ _ buf ReadIndices_by _)) (fun buf => (conj (S _ ReadNormal _ _ buf ReadNormal_by _)
    (conj (S _ ReadPosition _ _ buf ReadPosition_by _)
    (conj (S _ ReadTangent _ _ buf ReadTangent_by _)
    (conj (S _ ReadInverseBindMatrices _ _ buf ReadInverseBindMatrices_by _)
    (conj (S _ (ReadTextureCoord cv) _ _ buf (ReadTextureCoord_by cv) _)
    (conj (S _ (ReadWeights cv) _ _ buf (ReadWeights_by cv) _)
    (conj (S _ ReadJoints _ _ buf ReadJoints_by _)
    (conj (S _ (ReadColor cv) _ _ buf (ReadColor_by cv) _)
    (S _ (ReadColor64 cv) _ _ buf (ReadColor64_by cv) _)))))))))));
   cbn; split; intros H; try discriminate; try (exfalso; apply H; reflexivity);
   try (repeat match goal with H : _ /\ _ |- _ => destruct H | H : _ \/ _ |- _ => destruct H end; discriminate); auto 6).
Qed.
Print Assumptions C95_helpers.

(** Two substitutions, an index beyond the accessor, a stride that goes
    backwards, and a view that is too short. *)
Definition ex95_doc : Document :=
  rd_doc [10; 0; 11; 0; 12; 0;  2; 0;  20; 0; 21; 0] [(0, 6, 0); (6, 2, 0); (8, 4, 0); (0, 6, -2)].
Definition ex95_acr (n : Z) : Accessor :=
  set_acr_Sparse (Some (rd_sparse 2 1 0 CUbyte 2 0)) (rd_acr (Some 0) 0 CUshort AScalar n).
Lemma ex95_modest n : n < 2 ^ 31 -> modest ex95_doc (ex95_acr n) /\ forall i, modest ex95_doc (rd_acr (Some i) 0 CUshort AScalar n).
Proof.
  intros N. assert (V : forall v, In (Some v) (doc_BufferViews ex95_doc) -> modest_view v).
  { intros v I. assert (G : Forall (fun o => match o with Some v => modest_view v | None => True end) (doc_BufferViews ex95_doc)).
    { unfold modest_view. repeat constructor; cbn; lia. }
    rewrite Forall_forall in G. exact (G _ I). }
  split; [|intros i]; (split; [exact V|]; split; [exact N|]; intros sp E); [|discriminate].
  assert (spa_Count sp = 2) by (apply (f_equal (fun o => match o with Some s => spa_Count s | None => 0 end)) in E; symmetry; exact E). lia.
Qed.

Example C95_example :
  accessor_reads ex95_doc (ex95_acr 3) [] (p_idx fresh_pools) (p_val fresh_pools) [[21]; [11]; [20]] /\
  accessor_crashes ex95_doc (ex95_acr 2) [] (p_idx fresh_pools) (p_val fresh_pools) /\
  accessor_crashes ex95_doc (rd_acr (Some 3) 0 CUshort AScalar 2) [] (p_idx fresh_pools) (p_val fresh_pools) /\
  (~ accessor_crashes ex95_doc (rd_acr (Some 0) 0 CUshort AScalar 4) [] (p_idx fresh_pools) (p_val fresh_pools) /\
   forall vs, ~ accessor_reads ex95_doc (rd_acr (Some 0) 0 CUshort AScalar 4) [] (p_idx fresh_pools) (p_val fresh_pools) vs).
Proof.
  split; [|split; [|split; [|split]]].
  - apply (proj1 (proj2 (C95_outcome ex95_doc (ex95_acr 3) [] fresh_pools (proj1 (ex95_modest 3 ltac:(lia)))))). vm_compute. reflexivity.
  - apply (proj1 (C95_outcome ex95_doc (ex95_acr 2) [] fresh_pools (proj1 (ex95_modest 2 ltac:(lia))))). vm_compute. reflexivity.
  - left. split; [reflexivity|]. split; [reflexivity|]. right. exists 3. split; [reflexivity|]. right. do 2 eexists. split; [|split].
    + repeat split; try reflexivity; vm_compute; discriminate.
    + repeat split; vm_compute; discriminate.
    + right. right. split; [vm_compute; discriminate|]. right. split; [reflexivity|]. split; vm_compute; [discriminate|reflexivity].
  - intros C. apply (proj1 (C95_outcome ex95_doc _ [] fresh_pools (proj2 (ex95_modest 4 ltac:(lia)) 0))) in C. vm_compute in C. discriminate.
  - intros vs R. apply (proj1 (proj2 (C95_outcome ex95_doc _ [] fresh_pools (proj2 (ex95_modest 4 ltac:(lia)) 0)))) in R. vm_compute in R. discriminate.
Qed.
