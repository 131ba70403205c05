(** Proofs about documents written with the modeler and then saved, second
    part: the whole document is storable; reads on what was loaded. *)
From Verif Require Import Base BaseFacts Types Binary SpecLayout BinaryProofs SliceProofs Doc F64 F64Facts SpecText SpecData JsonText Codec SpecJson SpecJsonDoc
  CodecProofs DocCodecBase DocInvBase SpecMarshal SpecFile SpecDoc SpecSaved ModelerWrite ModelerRead ModelerWriteProofs ModelerReadProofs
  ModelerLayoutProofs ModelerShapeProofs ModelerAttrProofs SavedProofs.

(** ** From the parts to the document *)
Section Document.
Context (X : ext_lib) (n : nat).

Lemma plain_last d : Forall plain_buffer (doc_Buffers d) -> Forall (opt (wf_Buffer X n)) (doc_Buffers d) -> appendable d -> bufs_ok X n (doc_Buffers d).
Proof.
  intros HP HW HA. destruct (doc_Buffers d) as [|x l] eqn:E using rev_ind; [left; reflexivity|]. clear IHl. right.
  apply Forall_app in HP as [P1 P2]. apply Forall_app in HW as [W1 W2]. apply Forall_inv in P2. apply Forall_inv in W2. destruct x as [b|]; [|destruct P2].
  exists l, b. split; [reflexivity|]. split; [exact P1|]. split; [exact W1|]. destruct W2 as (H1 & H2 & H3 & H4 & H5). destruct P2 as (L & _ & _).
  unfold open_buffer. repeat (split; [assumption|]). split; [exact (HA l b E)|]. rewrite <- L. apply H5.
Qed.
Lemma wf_parts d : wf_Document X n d -> Forall plain_buffer (doc_Buffers d) -> Forall plain_image (doc_Images d) -> appendable d -> parts X n d.
Proof.
  intros (_ & _ & _ & _ & A & _ & _ & B & V & _ & I & _) PB PI HA. split; [|split; [|split; [|split]]].
  - eapply Forall_impl; [|exact A]. intros [a|] H; [|exact H]. destruct H as (H1 & H2 & H3 & _ & _ & _ & _ & _ & H4 & H5 & _). repeat (split; [assumption|]). exact H5.
  - eapply Forall_impl; [|exact V]. intros [a|] H; [|exact H]. destruct H as (H1 & H2 & _ & _ & _ & _ & H4 & H5). repeat (split; [assumption|]). exact H5.
  - eapply Forall_impl; [|exact I]. intros [a|] H; [|exact H]. destruct H as (H1 & H2 & H3 & H4 & H5 & _). repeat (split; [assumption|]). exact H5.
  - exact PI.
  - apply plain_last; assumption.
Qed.

Lemma nat_i64 k : Z.of_nat k < 2 ^ 63 -> in_i64 (Z.of_nat k).
Proof. intros H. unfold in_i64. change (2 ^ 63) with 9223372036854775808 in *. lia. Qed.
Lemma pos_i64 k : 0 <= k < 2 ^ 63 -> in_i64 k.
Proof. intros H. unfold in_i64. change (2 ^ 63) with 9223372036854775808 in *. lia. Qed.
Lemma nth_lt {A} (l : list A) k x : nth_error l k = Some x -> Z.of_nat k < zlen l.
Proof. intros H. assert (k < List.length l)%nat by (apply nth_error_Some; congruence). unfold zlen. lia. Qed.

Lemma buffers_small d : parts X n d -> consistent d -> forall b, In (Some b) (doc_Buffers d) -> zlen (buf_Data b) < 2 ^ 63.
Proof.
  intros (_ & _ & _ & _ & B) (C & _) b I. destruct B as [E|(pre & b' & E & PB & WB & O)]; rewrite E in I; [destruct I|].
  apply in_app_or in I as [I|[I|[]]].
  - rewrite Forall_forall in PB, WB. specialize (PB _ I). specialize (WB _ I). destruct PB as (L & _). destruct WB as (_ & _ & _ & _ & W). rewrite <- L. apply W.
  - injection I as <-. apply O.
Qed.
Lemma parts_document d0 d : wf_Document X n d0 -> doc_rest d = doc_rest d0 -> parts X n d -> consistent d -> go_sized d -> has_data d ->
  wf_Document X n d /\ Forall plain_buffer (doc_Buffers d) /\ Forall plain_image (doc_Images d).
Proof.
  intros W R P C (S1 & S2 & S3 & S4 & S5) D. pose proof (buffers_small d P C) as SB. destruct P as (A & V & I & PI & B).
  assert (C' := C). destruct C' as (CB & CV & CA & CI).
  assert (BS : Forall plain_buffer (doc_Buffers d) /\ Forall (opt (wf_Buffer X n)) (doc_Buffers d)).
  { destruct B as [E|(pre & b & E & PB & WB & O)]; [rewrite E; split; constructor|]. rewrite E.
    assert (VB : valid_buffer b). { unfold all_some in CB. rewrite Forall_forall in CB. destruct (CB (Some b)) as (b' & E' & VB); [rewrite E; apply in_or_app; right; left; reflexivity|]. injection E' as <-. exact VB. }
    destruct O as (H1 & H2 & H3 & H4 & H5 & H6). unfold valid_buffer in VB. split; apply Forall_app; (split; [assumption|]); (constructor; [|constructor]).
    - split; [exact VB|]. split; [exact (D pre b E)|]. destruct H5 as [H5|H5]; [left; exact H5|right; right; exact H5].
    - cbn. split; [exact H1|]. split; [exact H2|]. split; [exact H3|]. split; [exact H4|]. rewrite VB. apply pos_i64. split; [apply zlen_nonneg|exact H6]. }
  destruct BS as [PB WB]. split; [|split; [exact PB|exact PI]].
  assert (VW : forall v, In (Some v) (doc_BufferViews d) -> wf_BufferView X n v /\ bvw_ByteLength v < 2 ^ 63).
  { intros v Iv. unfold all_some in CV. rewrite Forall_forall in V, CV, S5. specialize (V _ Iv). specialize (S5 _ Iv). destruct (CV _ Iv) as (v' & E & (k & b & K1 & K2 & K3 & K4 & K5 & K6)). injection E as <-.
    cbn in V, S5. destruct V as (V1 & V2 & V3 & V4). pose proof (SB b (nth_error_In _ _ K2)). pose proof (nth_lt _ _ _ K2). split; [|lia].
    unfold wf_BufferView. split; [exact V1|]. split; [exact V2|]. split; [rewrite K1; apply nat_i64; lia|]. split; [apply pos_i64; lia|]. split; [apply pos_i64; lia|].
    split; [apply pos_i64; lia|]. split; [exact V3|exact V4]. }
  destruct d0 as [e1 x1 u1 r1 a1 an1 as1 b1 bv1 c1 i1 m1 me1 no1 s1 sc1 scs1 sk1 t1], d as [e2 x2 u2 r2 a2 an2 as2 b2 bv2 c2 i2 m2 me2 no2 s2 sc2 scs2 sk2 t2].
  unfold doc_rest in R. cbn in R. injection R as -> -> -> -> -> -> -> -> -> -> -> -> -> -> ->.
  unfold wf_Document in *. cbn in *. destruct W as (W1 & W2 & W3 & W4 & _ & W6 & W7 & _ & _ & W10 & _ & W12 & W13 & W14 & W15 & W16 & W17 & W18 & W19).
  split; [exact W1|]. split; [exact W2|]. split; [exact W3|]. split; [exact W4|]. split.
  { rewrite Forall_forall in *. intros [a|] Ia; [|exact Logic.I]. specialize (A _ Ia). unfold all_some in CA. rewrite Forall_forall in CA. destruct (CA _ Ia) as (a' & E & VA). injection E as <-.
    cbn in A |- *. destruct A as (A1 & A2 & A3 & A4 & A5). destruct VA as (T1 & T2 & T3 & k & v & m & K1 & K2 & K3 & K4 & K5 & K6). cbn in K2.
    destruct (VW v (nth_error_In _ _ K2)) as [_ L]. pose proof (nth_lt _ _ _ K2).
    assert (M : (m <= needed (acr_ComponentType a) (acr_Type a) (eff_stride (acr_ComponentType a) (acr_Type a) (Z.to_nat (bvw_ByteStride v))) m)%nat).
    { pose proof (element_size_pos _ _ T1 T2) as EP. destruct m as [|m]; [cbn; lia|]. cbn [needed].
      assert (1 <= eff_stride (acr_ComponentType a) (acr_Type a) (Z.to_nat (bvw_ByteStride v)))%nat by (unfold eff_stride; destruct (_ =? 0)%nat eqn:EZ; [lia|apply Nat.eqb_neq in EZ; lia]). nia. }
    unfold wf_Accessor. split; [exact A1|]. split; [exact A2|]. split; [exact A3|]. split; [rewrite K1; cbn; apply nat_i64; lia|]. split; [apply pos_i64; lia|].
    split; [exact T1|]. split; [rewrite K3; apply nat_i64; lia|]. split; [exact T2|]. split; [exact A4|]. split; [exact A5|]. rewrite T3. exact Logic.I. }
  split; [exact W6|]. split; [exact W7|]. split; [exact WB|]. split.
  { rewrite Forall_forall. intros [v|] Iv; [|exact Logic.I]. exact (proj1 (VW v Iv)). }
  split; [exact W10|]. split.
  { rewrite Forall_forall in *. intros [im|] Ii; [|exact Logic.I]. specialize (I _ Ii). unfold all_some in CI. rewrite Forall_forall in CI. destruct (CI _ Ii) as (im' & E & VI). injection E as <-.
    cbn in I |- *. destruct I as (I1 & I2 & I3 & I4 & I5). unfold wf_Image. repeat (split; [assumption|]). unfold valid_image in VI. cbn in VI. destruct (img_BufferView im) as [k|]; [|exact Logic.I].
    cbn. apply pos_i64. lia. }
  repeat (split; [assumption|]). assumption.
Qed.
End Document.

(** ** Reads *)
Definition same_view (v w : BufferView) : Prop :=
  bvw_Buffer v = bvw_Buffer w /\ bvw_ByteOffset v = bvw_ByteOffset w /\ bvw_ByteLength v = bvw_ByteLength w /\ bvw_ByteStride v = bvw_ByteStride w.
Definition same_store (d d' : Document) : Prop :=
  Forall2 (opt_rel (fun b b' => buf_Data b = buf_Data b')) (doc_Buffers d) (doc_Buffers d') /\
  Forall2 (opt_rel same_view) (doc_BufferViews d) (doc_BufferViews d').

Lemma Forall2_zlen {A B} (R : A -> B -> Prop) l m : Forall2 R l m -> zlen l = zlen m.
Proof. intros H. unfold zlen. rewrite (Forall2_len _ _ _ H). reflexivity. Qed.
Lemma Forall2_nth {A B} (R : A -> B -> Prop) l m : Forall2 R l m -> forall k, match nth_error l k, nth_error m k with Some x, Some y => R x y | None, None => True | _, _ => False end.
Proof. induction 1; intros [|k]; cbn; auto. apply IHForall2. Qed.
Lemma index_rel {A B} (R : A -> B -> Prop) l m i : Forall2 R l m ->
  (index l i = Panic /\ index m i = Panic) \/ (exists x y, index l i = Ok x /\ index m i = Ok y /\ R x y).
Proof.
  intros H. unfold index. rewrite (Forall2_zlen R l m H). destruct ((0 <=? i) && (i <? zlen m)); [|left; split; reflexivity].
  pose proof (Forall2_nth R l m H (Z.to_nat i)) as N. destruct (nth_error l (Z.to_nat i)), (nth_error m (Z.to_nat i)); try contradiction; [right; eauto|left; split; reflexivity].
Qed.
Lemma ReadBufferView_same d d' v w : same_store d d' -> opt_rel same_view v w -> ReadBufferView d v = ReadBufferView d' w.
Proof.
  intros [HB HV] R. destruct v as [v|], w as [w|]; try contradiction; [|reflexivity]. cbn in R. destruct R as (R1 & R2 & R3 & R4).
  unfold ReadBufferView. cbn [deref bind]. rewrite R1, R2, R3, (Forall2_zlen _ _ _ HB). destruct (zlen (doc_Buffers d') <=? bvw_Buffer w); [reflexivity|].
  destruct (index_rel _ _ _ (bvw_Buffer w) HB) as [[-> ->]|(x & y & -> & -> & E)]; [reflexivity|]. cbn [bind]. destruct x, y; try contradiction; [|reflexivity].
  cbn in E |- *. rewrite E. reflexivity.
Qed.
Lemma read_dense_same d d' c t bv off k buffer : same_store d d' -> read_dense d c t bv off k buffer = read_dense d' c t bv off k buffer.
Proof.
  intros H. pose proof H as [HB HV]. unfold read_dense. destruct (MakeSliceBuffer c t k buffer); [|reflexivity|reflexivity]. cbn [bind]. destruct bv as [i|]; [|reflexivity].
  unfold readBufferView. rewrite (Forall2_zlen _ _ _ HV). destruct (zlen (doc_BufferViews d') <=? i); [reflexivity|].
  destruct (index_rel _ _ _ i HV) as [[-> ->]|(x & y & -> & -> & E)]; [reflexivity|]. cbn [bind]. rewrite (ReadBufferView_same d d' x y H E).
  destruct (ReadBufferView d' y); [|reflexivity|reflexivity]. cbn [bind]. destruct x as [v|], y as [w|]; try contradiction; [|reflexivity]. cbn in E. destruct E as (_ & _ & _ & E).
  cbn [deref bind]. rewrite E. reflexivity.
Qed.
Lemma ReadAccessor_same d d' a buffer p : same_store d d' -> ReadAccessor d a buffer p = ReadAccessor d' a buffer p.
Proof.
  intros H. unfold ReadAccessor. rewrite (read_dense_same d d' _ _ _ _ _ _ H). destruct (read_dense d' _ _ _ _ _ buffer); [|reflexivity|reflexivity]. cbn [bind].
  destruct (acr_Sparse a) as [sp|]; [|reflexivity]. cbv zeta. unfold read_indices_dense. rewrite (read_dense_same d d' (spi_ComponentType (spa_Indices sp)) _ _ _ _ _ H), (read_dense_same d d' _ _ (Some (spv_BufferView _)) _ _ _ H).
  reflexivity.
Qed.
Lemma ReadAccessor_norm X d a buffer p : ReadAccessor d (norm_Accessor X a) buffer p = ReadAccessor d a buffer p.
Proof. unfold ReadAccessor. destruct a as [e x nm bv off c nz ct t mx mn [sp|]]; reflexivity. Qed.

Lemma restored_store X clean asBinary d : same_store d (restored X clean asBinary d).
Proof.
  split; unfold restored; cbn [doc_Buffers doc_BufferViews norm_Document].
  - unfold restored_buffers. generalize 0%nat as i. induction (doc_Buffers d) as [|o l IH]; intros i; cbn [List.length seq combine map]; constructor; [|apply IH].
    destruct o as [b|]; cbn; [reflexivity|exact I].
  - induction (doc_BufferViews d) as [|o l IH]; cbn [map]; constructor; [|exact IH]. destruct o as [v|]; cbn; [|exact I]. repeat split.
Qed.
Lemma restored_accessor X clean asBinary d k : nth_error (doc_Accessors (restored X clean asBinary d)) k = option_map (option_map (norm_Accessor X)) (nth_error (doc_Accessors d) k).
Proof. unfold restored. cbn [doc_Accessors norm_Document]. apply nth_error_map. Qed.
Lemma ReadAccessor_restored X clean asBinary d a buffer p :
  ReadAccessor (restored X clean asBinary d) (norm_Accessor X a) buffer p = ReadAccessor d a buffer p.
Proof. rewrite ReadAccessor_norm. symmetry. apply ReadAccessor_same. apply restored_store. Qed.

(** Readers that look at the document only through ReadAccessor, and at the
    accessor through its format and count. *)
Lemma read_typed_restored {A} (zero : A) check convert copies X clean asBinary d a buffer pool p :
  read_typed zero check convert copies (restored X clean asBinary d) (norm_Accessor X a) buffer pool p =
  read_typed zero check convert copies d a buffer pool p.
Proof. unfold read_typed. rewrite ReadAccessor_restored. reflexivity. Qed.
Lemma ReadIndices_restored X clean asBinary d a buffer pool p :
  ReadIndices (restored X clean asBinary d) (norm_Accessor X a) buffer pool p = ReadIndices d a buffer pool p.
Proof. unfold ReadIndices. rewrite ReadAccessor_restored. reflexivity. Qed.
