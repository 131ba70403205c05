(** Proofs: what the modeler writes are the accessors of glTF 2.0. *)
From Verif Require Import BaseFacts Types Binary SpecLayout BinaryProofs SliceProofs Doc F64 SpecDoc SpecTarget ModelerWrite ModelerRead
  ModelerWriteProofs ModelerReadProofs ModelerSparseProofs ModelerLayoutProofs ModelerShapeProofs ModelerAttrProofs ModelerTargetProofs
  SpecAccessor AccessorProofs.
Local Open Scope nat_scope.

Lemma kind_ct_packed_array c t tgt : ct_valid c = true -> at_valid t = true ->
  packed_size c t = element_size c t \/ tgt = 34962%Z ->
  forall st, Z.of_nat st = single_stride tgt c t ->
  gltf_stride c t st = element_size c t /\
  (st = 0 \/ packed_size c t <= st /\ 4 <= st <= 252 /\ st mod 4 = 0).
Proof.
  intros Hc Ht HP st HS. unfold single_stride in HS.
  assert (HT : tgt = 34962%Z \/ packed_size c t = element_size c t) by tauto. clear HP.
  unfold gltf_stride.
  destruct (tgt =? TargetArrayBuffer)%Z eqn:E; cbn [andb] in HS.
  - destruct (ByteSize c * Components t =? SizeOfElement c t)%Z eqn:E2; cbn [negb] in HS.
    + assert (st = 0) as -> by lia. cbn [Nat.eqb]. split; [|auto]. clear HS HT E. all_ct c t; try discriminate; reflexivity.
    + rewrite SizeOfElement_nat in HS by auto. assert (st = element_size c t) as -> by lia. clear HS HT E.
      all_ct c t; try discriminate; (split; [reflexivity|right; vm_compute; repeat split; lia]).
  - assert (st = 0) as -> by lia. cbn [Nat.eqb]. split; [|auto].
    destruct HT as [->|HT]; [discriminate|exact HT].
Qed.

Lemma comp_divides c : ct_valid c = true -> forall x, x mod 4 = 0 -> x mod comp_bytes c = 0.
Proof.
  intros Hc x H. apply Nat.mod_divides in H as [q ->]; [|lia].
  destruct c; try discriminate; cbn [comp_bytes].
  all: first [apply Nat.mod_1_r
             |rewrite Nat.mul_comm; apply Nat.mod_mul; lia
             |replace (4 * q) with (2 * q * 2) by lia; apply Nat.mod_mul; lia].
Qed.

Lemma sum_mod4 data : Forall (fun s => elem_bytes s mod 4 = 0) data -> forall k, sum_sizes (firstn k data) mod 4 = 0.
Proof.
  induction 1 as [|s l H HF IH]; intros [|k]; try reflexivity.
  cbn [firstn]. rewrite sum_sizes_cons. specialize (IH k).
  rewrite Nat.add_mod, H, IH by lia. reflexivity.
Qed.

(** What one call stores. *)
Lemma writeBufferViews_stored d tgt data d' vi :
  writeBufferViews d tgt data = Ok (d', Ok vi) ->
  (exists pre b, last_buffer_is d pre b /\ (zlen (buf_Data b) mod 4 = 0)%Z) ->
  Forall wf_slice data -> writable tgt data ->
  Forall (fun s => els s <> []) data ->
  vi = Z.of_nat (List.length (doc_BufferViews d)) /\
  forall k s c t, nth_error data k = Some s -> kind_ct (sk s) = Some (c, t) ->
    gltf_stored d' (List.length (doc_BufferViews d)) (sum_sizes (firstn k data)) c t (List.length (els s)) (els s) /\
    (Forall (fun s => elem_bytes s mod 4 = 0) data ->
     exists v st, nth_error (doc_BufferViews d') (List.length (doc_BufferViews d)) = Some (Some v) /\
       bvw_ByteStride v = Z.of_nat st /\ sum_sizes (firstn k data) mod 4 = 0 /\ gltf_stride c t st mod 4 = 0).
Proof.
  intros H HAl HW HWr HNe.
  apply writeBufferViews_inv in H as [(e & [=] & _)|H].
  destruct H as (pre & b & stride & size & written & b' & [= ->] & HV & HLB & _ & HM & HD & HL & _ & -> & ->).
  assert (HB4 : (List.length (buf_Data b)) mod 4 = 0).
  { destruct HAl as (pre' & b0 & HL0 & H4).
    assert (b0 = b).
    { destruct HL0 as [E0|(E0 & -> & ->)], HLB as [E1|(E1 & -> & ->)]; try congruence.
      - rewrite E0 in E1. apply app_inj_tail in E1 as [_ E1]. congruence.
      - rewrite E1 in E0. destruct pre'; discriminate.
      - rewrite E0 in E1. destruct pre; discriminate. }
    subst b0. unfold zlen in H4. apply Nat2Z.inj. rewrite Nat2Z.inj_mod. exact H4. }
  split; [reflexivity|]. intros k s c t Hk Hs.
  assert (Hne : data <> []) by (intros ->; destruct k; discriminate).
  pose proof HV as HV0.
  destruct (view_loop_sized _ _ _ _ Hne HV) as (st & e & n & -> & Hsz & ->).
  pose proof (sized_nth _ _ _ _ _ _ Hsz Hk) as (c' & t' & Hs' & Hn & He & Hst).
  rewrite Hs in Hs'. injection Hs' as <- <-.
  destruct (kind_ct_valid _ _ _ Hs) as [Hc Ht].
  pose proof (element_size_pos c t Hc Ht) as Hpos.
  pose proof (packed_le c t Hc Ht) as (P1 & P2 & P3 & P4 & P5 & P6).
  pose proof Hsz as (HF & Hsum & Hone).
  assert (Hn1 : 0 < n).
  { rewrite Forall_forall in HNe. specialize (HNe s (nth_error_In _ _ Hk)). rewrite <- Hn. destruct (els s); [contradiction|cbn; lia]. }
  set (base := List.length (buf_Data b)) in *.
  set (buf := buf_Data b ++ zeros (Z.to_nat (Z.of_nat (n * e)))) in *.
  assert (Lb : List.length buf = base + n * e).
  { unfold buf. rewrite app_length, zeros_length. unfold base. lia. }
  assert (HMx : (Z.of_nat (base + n * e) <= max_alloc)%Z) by (unfold zlen in HM; fold base in HM; lia).
  assert (Hm63 : (max_alloc < 2 ^ 63)%Z) by (vm_compute; reflexivity).
  (* the stride *)
  assert (HSt : gltf_stride c t st = e /\ (st = 0 \/ packed_size c t <= st /\ 4 <= st <= 252 /\ st mod 4 = 0) /\
                (sk s = SK CUbyte AScalar -> st <= 1 /\ data = [s])).
  { destruct (Nat.lt_ge_cases 1 (List.length data)) as [H2|H2].
    - assert (HWr' : sum_sizes data mod 4 = 0 /\ sum_sizes data <= 252 /\ Forall (fun s => sk s <> SK CUbyte AScalar) data).
      { unfold writable in HWr. destruct data as [|s0 [|s1 data]]; cbn in H2; try lia. destruct HWr as (A1 & A2 & A3 & _). auto. }
      destruct HWr' as (W0 & W2 & W1). destruct Hone as [Hone|[_ Hone]]; [lia|]. subst st.
      assert (HE4 : e mod 4 = 0).
      { rewrite <- Hsum. exact W0. }
      pose proof (sum_sizes_in s data (nth_error_In _ _ Hk)) as Hin. rewrite (elem_bytes_kind _ _ _ Hs) in Hin.
      assert (e <> 0) by lia.
      assert (4 <= e) by (apply Nat.mod_divides in HE4 as [q Hq]; lia).
      unfold gltf_stride. destruct (Nat.eqb_spec e 0); [contradiction|].
      split; [reflexivity|]. split; [right; repeat split; lia|].
      intros Hk0. exfalso. rewrite Forall_forall in W1. exact (W1 s (nth_error_In _ _ Hk) Hk0).
    - assert (Hd : data = [s]).
      { destruct data as [|s0 [|]]; cbn in H2; try lia; [congruence|].
        destruct k as [|[|k]]; try discriminate. injection Hk as ->. reflexivity. }
      subst data. rewrite sum_sizes_cons, (elem_bytes_kind _ _ _ Hs) in Hsum. cbn in Hsum.
      cbn [List.length] in HV0. rewrite (view_loop_one _ _ _ _ Hs) in HV0. injection HV0 as HV0 _.
      destruct (kind_ct_packed_array c t tgt Hc Ht (HWr c t Hs) st (eq_sym HV0)) as [Q1 Q2].
      split; [lia|]. split; [exact Q2|]. intros Hk0. split; [|reflexivity].
      rewrite Hk0 in Hs. cbn in Hs. assert (c = CUbyte /\ t = AScalar) as [-> ->] by (injection Hs; auto).
      unfold single_stride in HV0. rewrite andb_false_r in HV0. lia. }
  destruct HSt as (HSt & HStr & HUb).
  destruct (write_data_loop_spec data buf st e n base 0) as (buf' & HD' & Hl' & _ & Hst'); auto.
  { apply Forall_forall. intros x Hx Hxk.
    destruct (Nat.lt_ge_cases 1 (List.length data)) as [H2|H2].
    - exfalso. unfold writable in HWr. destruct data as [|s0 [|s1 data]]; cbn in H2; try lia.
      destruct HWr as (_ & _ & W1 & _). rewrite Forall_forall in W1. exact (W1 x Hx Hxk).
    - assert (Hd : data = [s]).
      { destruct data as [|s0 [|]]; cbn in H2; try lia; [congruence|].
        destruct k as [|[|k]]; try discriminate. injection Hk as ->. reflexivity. }
      subst data. destruct Hx as [<-|[]]. apply HUb. exact Hxk. }
  { lia. }
  { unfold zlen. lia. }
  rewrite Nat.add_0_r in HD'.
  assert (written = buf') as -> by (unfold zlen in HD; fold base in HD; congruence). clear HD'.
  pose proof (sum_sizes_split _ _ _ Hk) as Hspl. rewrite (elem_bytes_kind _ _ _ Hs) in Hspl.
  assert (HO : sum_sizes (firstn k data) mod (if columns t =? 1 then comp_bytes c else 4) = 0).
  { destruct k as [|k]; [cbn [firstn]; apply Nat.mod_0_l; destruct (columns t =? 1); [destruct c; discriminate|discriminate]|].
    unfold writable in HWr. destruct data as [|s0 [|s1 data]]; [congruence|destruct k; discriminate|].
    destruct HWr as (_ & _ & _ & HWr). exact (HWr _ _ _ _ Hk Hs). }
  set (o := sum_sizes (firstn k data)) in *.
  assert (HC0 : comp_bytes c <> 0) by (destruct c; discriminate).
  assert (HOC : o mod comp_bytes c = 0) by (destruct (columns t =? 1); [exact HO|exact (comp_divides c Hc o HO)]).
  assert (HBC : (base + o) mod comp_bytes c = 0) by (rewrite Nat.add_mod, (comp_divides c Hc base HB4), HOC by exact HC0; apply Nat.mod_0_l; exact HC0).
  assert (HM4 : columns t <> 1 -> o mod 4 = 0 /\ (base + o) mod 4 = 0).
  { intros M. destruct (Nat.eqb_spec (columns t) 1); [contradiction|]. split; [exact HO|]. rewrite Nat.add_mod, HB4, HO by lia. reflexivity. }
  assert (NE : n * e = e * (n - 1) + e) by (destruct n; [lia|]; replace (S n - 1) with n by lia; lia).
  split.
  - exists (mk_view (zlen pre) (zlen (buf_Data b)) (Z.of_nat (n * e)) (Z.of_nat st) tgt), (List.length pre),
      (set_buf_Data buf' (set_buf_ByteLength (i64 (buf_ByteLength b + Z.of_nat (n * e))) b)), base, (n * e), st.
    split. { cbn [doc_BufferViews set_doc_BufferViews]. rewrite nth_error_app2 by lia. rewrite Nat.sub_diag. reflexivity. }
    split; [reflexivity|]. split.
    { cbn [doc_Buffers set_doc_BufferViews set_doc_Buffers]. rewrite nth_error_app2 by lia. rewrite Nat.sub_diag. reflexivity. }
    split; [reflexivity|]. split; [reflexivity|]. split; [reflexivity|].
    split; [cbn [buf_Data set_buf_Data]; lia|]. split; [exact HStr|].
    split; [exact HOC|]. split; [exact HBC|]. split; [exact HM4|].
    split; [lia|]. rewrite HSt, Hn. split; [lia|].
    cbn [buf_Data set_buf_Data]. apply nth_error_ext. intros i. rewrite nth_error_map.
    destruct (nth_error (els s) i) as [v|] eqn:Ei.
    + assert (Hi : i < n) by (rewrite <- Hn; apply nth_error_Some; congruence).
      rewrite nth_error_nth' with (d := 0) by (rewrite seq_length; auto).
      rewrite seq_nth by auto. cbn [option_map plus]. f_equal. rewrite gltf_element_decode.
      rewrite Forall_forall in HW. pose proof (HW s (nth_error_In _ _ Hk)) as (c2 & t2 & K2 & W2).
      rewrite Hs in K2. injection K2 as <- <-. rewrite Forall_forall in W2.
      symmetry. apply stored_at_decode; auto.
      * apply W2. eapply nth_error_In. exact Ei.
      * rewrite Hl', Lb. assert (e * i <= e * (n - 1)) by (apply Nat.mul_le_mono_l; lia). lia.
      * pose proof (Hst' _ _ _ _ _ _ Hk Hs Ei) as Q.
        replace (base + o + e * i) with (base + 0 + o + e * i) by lia. exact Q.
    + replace (nth_error (seq 0 n) i) with (@None nat); [reflexivity|].
      symmetry. apply nth_error_None. rewrite seq_length. apply nth_error_None in Ei. lia.
  - intros HA4. eexists. exists st. split.
    { cbn [doc_BufferViews set_doc_BufferViews]. rewrite nth_error_app2 by lia. rewrite Nat.sub_diag. reflexivity. }
    split; [reflexivity|]. split; [exact (sum_mod4 data HA4 k)|]. rewrite HSt, <- Hsum.
    pose proof (sum_mod4 data HA4 (List.length data)) as Q. rewrite firstn_all in Q. exact Q.
Qed.

(** ** Later writes *)
Lemma extends_view d d' i v : extends d d' -> nth_error (doc_BufferViews d) i = Some (Some v) ->
  nth_error (doc_BufferViews d') i = Some (Some v).
Proof.
  intros (_ & [l ->] & _) H. rewrite nth_error_app1; [exact H|]. apply nth_error_Some. congruence.
Qed.

Lemma extends_buffer d d' k b : extends d d' -> nth_error (doc_Buffers d) k = Some (Some b) ->
  exists b' more, nth_error (doc_Buffers d') k = Some (Some b') /\ buf_Data b' = buf_Data b ++ more.
Proof.
  intros (_ & _ & _ & HB & _) H. apply HB in H as ([b'|] & H & R); cbn in R; [|contradiction].
  destruct R as ([more R] & _). exists b', more. auto.
Qed.

Lemma sub_app_l {A} (l m : list A) p n : p + n <= List.length l -> sub (l ++ m) p n = sub l p n.
Proof.
  intros H. unfold sub. rewrite skipn_app, firstn_app.
  replace (n - _) with 0 by (rewrite skipn_length; lia). cbn. apply app_nil_r.
Qed.

Lemma offset_extent c t f : ct_valid c = true -> at_valid t = true -> f < rows t * columns t ->
  component_offset c t (f / columns t) (f mod columns t) + comp_bytes c <= extent c t.
Proof.
  intros Hc Ht Hf. unfold extent, component_offset.
  assert (columns t <> 0) by (destruct t; discriminate || (cbn; lia)).
  pose proof (Nat.mod_upper_bound f (columns t) ltac:(auto)) as H1.
  assert (H2 : f / columns t < rows t) by (apply Nat.div_lt_upper_bound; [auto|lia]).
  apply Nat.add_le_mono_r, Nat.add_le_mono; apply Nat.mul_le_mono_r; lia.
Qed.

Lemma gltf_stored_mono d d' i ao c t n vs : ct_valid c = true -> at_valid t = true ->
  extends d d' -> gltf_stored d i ao c t n vs -> gltf_stored d' i ao c t n vs.
Proof.
  intros Hc Ht E (v & kb & b & vo & vl & st & H1 & H2 & H3 & H4 & H5 & H6 & H7 & H8 & H9 & H10 & H11 & H12 & H13 & ->).
  destruct (extends_buffer _ _ _ _ E H3) as (b' & more & Hb' & HD).
  exists v, kb, b', vo, vl, st. split; [eapply extends_view; eauto|].
  do 5 (split; [assumption|]). split; [rewrite HD, app_length; lia|]. do 6 (split; [assumption|]).
  apply map_ext_in. intros k Hk. apply in_seq in Hk. unfold gltf_element. apply map_ext_in. intros f Hf. apply in_seq in Hf.
  rewrite HD, sub_app_l; [reflexivity|].
  pose proof (offset_extent c t f Hc Ht ltac:(lia)) as Q.
  assert (gltf_stride c t st * k <= gltf_stride c t st * (n - 1)) by (apply Nat.mul_le_mono_l; lia). lia.
Qed.

(** ** The accessors of one call *)
(** What an accessor is to mean: the elements of a slice. *)
Definition means (d : Document) (a : Accessor) (s : slice) : Prop :=
  acr_Sparse a = None /\ kind_ct (sk s) = Some (acr_ComponentType a, acr_Type a) /\ gltf_elements d a (els s).

Lemma same_core_means d a b s : same_core a b -> means d b s -> means d a s.
Proof.
  intros (H1 & H2 & H3 & H4 & H5 & H6). unfold means, gltf_elements, gltf_base. rewrite H1, H2, H3, H4, H5, H6. auto.
Qed.

Lemma same_core_aligned d a b : same_core a b -> vertex_aligned d b -> vertex_aligned d a.
Proof.
  intros (H1 & H2 & H3 & H4 & H5 & H6). unfold vertex_aligned. rewrite H1, H2, H3, H4. auto.
Qed.

Lemma means_mono d d' a s : extends d d' -> means d a s -> means d' a s.
Proof.
  intros E (H1 & H2 & Hc & Ht & n & base & Hn & N1 & HB & HS). split; [exact H1|]. split; [exact H2|]. split; [exact Hc|]. split; [exact Ht|].
  exists n, base. split; [exact Hn|]. split; [exact N1|]. rewrite H1 in *. split; [|exact HS].
  unfold gltf_base in *. destruct (acr_BufferView a) as [z|]; [|exact HB].
  destruct HB as (i & ao & Q1 & Q2 & Q3). exists i, ao. split; [exact Q1|]. split; [exact Q2|]. eapply gltf_stored_mono; eauto.
Qed.

Lemma aligned_mono d d' a : extends d d' -> vertex_aligned d a -> vertex_aligned d' a.
Proof.
  intros E (i & ao & v & st & H1 & H2 & H3 & H4 & H5 & H6). exists i, ao, v, st.
  split; [exact H1|]. split; [exact H2|]. split; [eapply extends_view; eauto|]. auto.
Qed.

Definition shaped (d : Document) (tgt : Z) (data : list slice) (d' : Document) : Prop :=
  exists d0 d1 vi accs, ensurePadding d = Ok d0 /\ writeBufferViews d0 tgt data = Ok (d1, Ok vi) /\
    d' = with_accs d1 (doc_Accessors d) accs /\ fresh_accs vi data accs.

Lemma shaped_means d tgt data d' :
  shaped d tgt data d' -> Forall wf_slice data -> writable tgt data -> Forall (fun s => els s <> []) data ->
  forall k s, nth_error data k = Some s ->
  exists a, nth_error (doc_Accessors d') (List.length (doc_Accessors d) + k) = Some (Some a) /\ means d' a s /\
    (Forall (fun s => elem_bytes s mod 4 = 0) data -> vertex_aligned d' a).
Proof.
  intros (d0 & d1 & vi & accs & HP & HV & -> & [_ HF]) HW HWr HN k s Hk.
  destruct (HF k s Hk) as (c & t & a & Hs & Ha & HC). exists a. split.
  { unfold with_accs. cbn [doc_Accessors set_doc_Accessors]. rewrite nth_error_app2 by lia.
    replace (_ + k - _) with k by lia. rewrite nth_error_map, Ha. reflexivity. }
  assert (HAl : exists pre b, last_buffer_is d0 pre b /\ (zlen (buf_Data b) mod 4 = 0)%Z).
  { apply ensurePadding_inv in HP as (pre & b & b' & pad & _ & -> & _ & _ & H4 & _). exists pre, b'. split; [left; reflexivity|exact H4]. }
  destruct (writeBufferViews_stored _ _ _ _ _ HV HAl HW HWr HN) as [-> HSt].
  destruct (HSt k s c t Hk Hs) as [G1 G2]. destruct (kind_ct_valid _ _ _ Hs) as [Hc Ht].
  split.
  - eapply same_core_means; [exact HC|]. split; [reflexivity|]. split; [exact Hs|].
    split; [exact Hc|]. split; [exact Ht|]. exists (List.length (els s)), (els s).
    split; [reflexivity|]. split.
    { rewrite Forall_forall in HN. specialize (HN s (nth_error_In _ _ Hk)). destruct (els s); [contradiction|cbn; lia]. }
    split; [|reflexivity]. unfold gltf_base. cbn [acr_BufferView new_accessor set_acr_BufferView set_acr_ByteOffset set_acr_ComponentType set_acr_Type set_acr_Count].
    exists (List.length (doc_BufferViews d0)), (sum_sizes (firstn k data)).
    split; [reflexivity|]. split; [reflexivity|]. exact G1.
  - intros H4. eapply same_core_aligned; [exact HC|]. destruct (G2 H4) as (v & st & Q1 & Q2 & Q3 & Q4).
    exists (List.length (doc_BufferViews d0)), (sum_sizes (firstn k data)), v, st.
    split; [reflexivity|]. split; [reflexivity|]. split; [exact Q1|]. split; [exact Q2|]. split; [exact Q3|]. exact Q4.
Qed.

(** ** Each writer *)
Lemma WriteAccessor_shaped d tgt data d' i : WriteAccessor d tgt data = Ok (d', i) -> shaped d tgt [data] d'.
Proof.
  intros H. apply WriteAccessor_shape in H as (_ & d0 & d1 & vi & accs & H1 & H2 & H3 & H4 & _).
  exists d0, d1, vi, accs. auto.
Qed.

Lemma shaped_update d tgt data d1 i f d' :
  shaped d tgt data d1 -> (zlen (doc_Accessors d) <= i)%Z -> (forall a, same_core (f a) a) ->
  update_accessor d1 i f = Ok d' -> shaped d tgt data d'.
Proof.
  intros (d0 & d2 & vi & accs & HP & HV & -> & HF) Hi Hf HU.
  apply update_tail_core in HU as (accs' & -> & HF'); auto.
  exists d0, d2, vi, accs'. split; [exact HP|]. split; [exact HV|]. split; [reflexivity|]. eapply fresh_accs_core; eauto.
Qed.

Lemma write_normalized_shaped ck d data d' i :
  write_normalized ck d data = Ok (d', i) -> shaped d TargetArrayBuffer [data] d'.
Proof.
  unfold write_normalized. intros H. inv_ok H. inv_ok H. destruct x0 as [d1 j]. inv_ok H. injection H as <- <-.
  pose proof (WriteAccessor_shape _ _ _ _ _ Hx0) as (-> & _).
  eapply shaped_update; [eapply WriteAccessor_shaped; eauto|apply Z.le_refl| |exact Hx1]. intros; apply same_core_Normalized.
Qed.

Lemma WritePosition_shaped d data d' i :
  WritePosition d data = Ok (d', i) -> shaped d TargetArrayBuffer [mkSlice (SK CFloat AVec3) data] d'.
Proof.
  unfold WritePosition. intros H. inv_ok H. destruct x as [d1 j].
  destruct (minMaxFloat32 data) as [mn mx]. inv_ok H. inv_ok H. injection H as <- <-.
  pose proof (WriteAccessor_shape _ _ _ _ _ Hx) as (-> & _).
  eapply shaped_update; [|apply Z.le_refl| |exact Hx1]; [|intros; apply same_core_Max].
  eapply shaped_update; [|apply Z.le_refl| |exact Hx0]; [|intros; apply same_core_Min].
  eapply WriteAccessor_shaped; eauto.
Qed.

Lemma WriteAccessorsInterleaved_shaped d data d' idx :
  WriteAccessorsInterleaved d data = Ok (d', Ok idx) -> shaped d TargetArrayBuffer data d'.
Proof.
  intros H. apply WriteAccessorsInterleaved_shape in H as [(e & [=] & _)|H].
  destruct H as (d0 & d1 & vi & accs & H1 & H2 & H3 & H4 & _). exists d0, d1, vi, accs. auto.
Qed.

Lemma WritePrimitiveAttributes_shaped d attr d' m :
  WritePrimitiveAttributes d attr = Ok (d', Ok m) -> shaped d TargetArrayBuffer (flat_map data_of (kept attr)) d'.
Proof.
  unfold WritePrimitiveAttributes. intros H.
  destruct (attrs_loop attr [] [] (repeat 0%Z 3, repeat 0%Z 3)) as [[[data props] [mn mx]]|e|] eqn:EA; try discriminate.
  apply attrs_loop_spec in EA as (-> & -> & _). cbn [app] in *.
  set (data := flat_map data_of (kept attr)) in *.
  inv_ok H. destruct x as [d1 r1].
  apply WriteAccessorsInterleaved_shape in Hx as [(e & -> & HP & _)|Hx]; [discriminate|].
  destruct Hx as (d0 & d2 & vi & accs & HP & HV & -> & HF & -> & _).
  assert (F : Forall (fun i => (zlen (doc_Accessors d) <= i)%Z)
                (map (fun k => (zlen (doc_Accessors d) + Z.of_nat k)%Z) (seq 0 (List.length data)))).
  { apply Forall_forall. intros x Hx. apply in_map_iff in Hx as (k & <- & _). lia. }
  inv_ok H. destruct x as [d3 attrs].
  pose proof (set_props_loop_attrs _ _ _ [] _ _ (fun i => (zlen (doc_Accessors d) <= i)%Z) F
    ltac:(intros k v Hk; discriminate Hk) Hx) as HP2. cbv beta in HP2.
  apply set_props_tail in Hx as (accs1 & -> & HF1); auto.
  assert (G : shaped d TargetArrayBuffer data (with_accs d2 (doc_Accessors d) accs1)).
  { exists d0, d2, vi, accs1. split; [exact HP|]. split; [exact HV|]. split; [reflexivity|]. eapply fresh_accs_core; eauto. }
  destruct (map_get "POSITION" attrs) as [pos|] eqn:EP.
  - apply HP2 in EP. inv_ok H. inv_ok H. injection H as <- <-.
    eapply shaped_update; [|exact EP| |exact Hx0]; [|intros; apply same_core_Max].
    eapply shaped_update; [|exact EP| |exact Hx]; [|intros; apply same_core_Min]. exact G.
  - injection H as <- <-. exact G.
Qed.
