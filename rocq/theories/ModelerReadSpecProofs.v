(** Proofs about modeler/read.go: independence from reuse buffers and pools,
    absence of panics, ReadBufferView, typed helpers. *)
From Verif Require Import BaseFacts Types Binary SpecLayout BinaryProofs SliceProofs Doc F64 SpecDoc
  ModelerWrite ModelerRead ModelerWriteProofs ModelerReadProofs ModelerSparseProofs.

(** ** Independence from old contents *)
Lemma copy_over {A} (l m : list A) : (List.length l <= List.length m)%nat -> copy l m = firstn (List.length l) m.
Proof.
  intros H. unfold copy. rewrite Nat.min_l by lia. rewrite skipn_all. apply app_nil_r.
Qed.

Lemma Read_indep b st c t old1 old2 :
  ct_valid c = true -> at_valid t = true ->
  List.length old1 = List.length old2 ->
  (byte_scalar (SK c t) -> 0 <= st /\ fits c t (eff_stride c t (Z.to_nat st)) (List.length old1)) ->
  Read b st (mkSlice (SK c t) old1) = Read b st (mkSlice (SK c t) old2).
Proof.
  intros Hc Ht HL HB.
  assert (D : byte_scalar (SK c t) \/ ~ byte_scalar (SK c t)).
  { unfold byte_scalar. destruct c, t; try (left; auto; fail); right; intros [[=]|[=]]. }
  destruct D as [D|D].
  - destruct (HB D) as [H0 HF].
    replace st with (Z.of_nat (Z.to_nat st)) by lia. set (n := Z.to_nat st) in *.
    assert (HF2 : fits c t (eff_stride c t n) (List.length old2)) by (rewrite <- HL; exact HF).
    assert (HK : kind_ct (SK c t) = Some (c, t)) by (cbn; rewrite Hc, Ht; reflexivity).
    rewrite (Read_unfold (SK c t) c t old1 b n HK HF), (Read_unfold (SK c t) c t old2 b n HK HF2).
    rewrite <- HL. destruct (zlen b <? _) eqn:E; [reflexivity|].
    assert (Hlen : (List.length old1 <= List.length b)%nat).
    { assert (1 <= eff_stride c t n)%nat.
      { unfold eff_stride. destruct (n =? 0)%nat eqn:En; [apply element_size_pos; auto|lia]. }
      assert (element_size c t = 1%nat) by (destruct D as [[= -> ->]|[= -> ->]]; reflexivity).
      unfold zlen in E. nia. }
    assert (HC : copy old1 (map (fun x => [b2z x]) b) = copy old2 (map (fun x => [b2z x]) b)).
    { rewrite !copy_over by (rewrite map_length; lia). rewrite HL. reflexivity. }
    destruct D as [[= -> ->]|[= -> ->]]; rewrite HC; unfold zlen; rewrite HL; reflexivity.
  - unfold Read, TypeOf. cbn [sk els]. rewrite Hc, Ht. cbn [andb bind].
    unfold zlen. rewrite HL.
    destruct c, t; try reflexivity; exfalso; apply D; unfold byte_scalar; auto.
Qed.

Lemma MakeSliceBuffer_indep c t count b1 b2 :
  ~ (c = CUint /\ t = AMat3) -> count * Z.of_nat (mem_size c t) <= max_alloc ->
  (exists v1 v2, MakeSliceBuffer c t count b1 = Ok (mkSlice (SK c t) v1) /\
     MakeSliceBuffer c t count b2 = Ok (mkSlice (SK c t) v2) /\ List.length v1 = List.length v2 /\
     zlen v1 = count /\ ct_valid c = true /\ at_valid t = true) \/
  (MakeSliceBuffer c t count b1 = MakeSliceBuffer c t count b2 /\ forall s, MakeSliceBuffer c t count b1 <> Ok s).
Proof.
  intros HU HM. destruct (ct_valid c && at_valid t) eqn:HV.
  - apply andb_true_iff in HV as [Hc Ht]. destruct (Z.lt_ge_cases count 0) as [Hn|Hn].
    + right. assert (G : forall b, MakeSliceBuffer c t count b = Panic).
      { intros b. unfold MakeSliceBuffer. rewrite checkAccessorType_ok by auto. cbn [bind].
        destruct (zlen b =? 0).
        - unfold MakeSlice. rewrite checkAccessorType_ok by auto. cbn [bind].
          destruct ((count <? 0) || _) eqn:E; [reflexivity|lia].
        - unfold castSlice. destruct (_ =? 0); [reflexivity|].
          assert (0 <= zlen b / (ByteSize c * Components t)).
          { rewrite mem_size_Z. pose proof (mem_size_pos c t Hc Ht). apply Z.div_pos; [apply zlen_nonneg|lia]. }
          set (l := zlen b / _) in *. clearbody l.
          destruct (count <? l) eqn:E1; [|lia]. destruct (l <? count) eqn:E2; [lia|].
          rewrite Hc, Ht. cbn [andb]. unfold reslice. destruct (count <? 0) eqn:E3; [|lia].
          destruct c, t; reflexivity. }
      rewrite !G. split; auto. discriminate.
    + left. assert (G : forall b, MakeSliceBuffer c t count b =
          Ok (mkSlice (SK c t) (map (buffer_elem c t b) (seq 0 (Z.to_nat count))))).
      { intros b. rewrite <- (Z2Nat.id count) at 1 by lia. apply MakeSliceBuffer_ok; auto. nia. }
      rewrite !G. do 2 eexists. split; [reflexivity|]. split; [reflexivity|].
      unfold zlen. rewrite !map_length, !seq_length. split; auto. split; [lia|auto].
  - right. unfold MakeSliceBuffer. destruct (checkAccessorType_err c t HV) as [e He]. rewrite He. cbn. split; auto. discriminate.
Qed.

Lemma read_dense_indep d c t i off count b1 b2 :
  ~ (c = CUint /\ t = AMat3) -> count * Z.of_nat (mem_size c t) <= max_alloc -> stride_ok d c t i count ->
  read_dense d c t (Some i) off count b1 = read_dense d c t (Some i) off count b2.
Proof.
  intros HU HM HS. unfold read_dense.
  destruct (MakeSliceBuffer_indep c t count b1 b2 HU HM) as [(v1 & v2 & -> & -> & HL & HC & Hc & Ht)|[<- Hn]].
  - cbn [bind]. destruct (readBufferView d i); try reflexivity. cbn [bind].
    destruct (index (doc_BufferViews d) i) as [bv| |] eqn:Ei; try reflexivity. cbn [bind].
    destruct bv as [v|]; try reflexivity. cbn [deref bind].
    destruct (slice_from _ off); try reflexivity. cbn [bind].
    apply index_inv in Ei as [Hi Hv]. apply Read_indep; auto. intros HB.
    destruct (HS HB v Hv) as [H1 H2]. split; auto. unfold zlen in HC.
    replace (List.length v1) with (Z.to_nat count) by lia. exact H2.
  - destruct (MakeSliceBuffer c t count b1); [exfalso; eapply Hn; reflexivity| |]; reflexivity.
Qed.

Lemma sparse_loop_prefix n : forall i ind1 ind2 vals s,
  (forall k, (i <= k < i + n)%nat -> nth_error ind1 k = nth_error ind2 k) ->
  sparse_loop i n ind1 vals s = sparse_loop i n ind2 vals s.
Proof.
  induction n as [|n IH]; intros i ind1 ind2 vals s H; [reflexivity|]. cbn [sparse_loop].
  assert (E : index ind1 (Z.of_nat i) = index ind2 (Z.of_nat i)).
  { pose proof (H i ltac:(lia)) as Hi. destruct (nth_error ind2 i) as [x|] eqn:E2.
    - rewrite (index_ok _ _ _ Hi), (index_ok _ _ _ E2). reflexivity.
    - unfold index. rewrite Nat2Z.id, Hi, E2. apply nth_error_None in Hi. apply nth_error_None in E2.
      destruct (_ && _), (_ && _); reflexivity. }
  rewrite E. destruct (index ind2 (Z.of_nat i)); try reflexivity. cbn [bind].
  destruct (index vals (Z.of_nat i)); try reflexivity. cbn [bind].
  destruct (set_index s _ _); try reflexivity. cbn [bind]. apply IH. intros k Hk. apply H. lia.
Qed.

Lemma check_indices_ok c t : check_indices c t = Ok tt -> index_type c /\ t = AScalar.
Proof. unfold check_indices, index_type. destruct c, t; try discriminate; auto. Qed.

Lemma check_indices_spec c t :
  (index_type c /\ t = AScalar /\ check_indices c t = Ok tt) \/
  (~ (index_type c /\ t = AScalar) /\ exists e, check_indices c t = Err e).
Proof.
  unfold index_type. destruct c, t; cbn; try (left; auto; fail); right; (split; [intros [[H|[H|H]] H2]; discriminate|eauto]).
Qed.

(** Two runs of the index reader: the same outcome, and the same first
    [count] indices. *)
Lemma read_indices_indep d c i off count u1 u2 b1 b2 :
  count * Z.of_nat (mem_size c AScalar) <= max_alloc -> stride_ok d c AScalar i count ->
  (exists r1 r2, read_indices_dense d c AScalar (Some i) off count u1 b1 = Ok r1 /\
     read_indices_dense d c AScalar (Some i) off count u2 b2 = Ok r2 /\
     0 <= count /\ firstn (Z.to_nat count) r1 = firstn (Z.to_nat count) r2 /\
     List.length (firstn (Z.to_nat count) r1) = Z.to_nat count /\
     (count <> 0 \/ u1 = [] -> r1 = firstn (Z.to_nat count) r1)) \/
  (read_indices_dense d c AScalar (Some i) off count u1 b1 = read_indices_dense d c AScalar (Some i) off count u2 b2 /\
   forall r, read_indices_dense d c AScalar (Some i) off count u1 b1 <> Ok r).
Proof.
  intros HM HS. unfold read_indices_dense.
  destruct (check_indices_spec c AScalar) as [(Hi & _ & ->)|(_ & e & ->)].
  2:{ right. cbn. split; auto. discriminate. }
  cbn [bind].
  rewrite (read_dense_indep d c AScalar i off count b1 b2); auto.
  2:{ intros [_ [=]]. }
  destruct (read_dense d c AScalar (Some i) off count b2) as [s| |] eqn:E;
    [|right; cbn; split; auto; discriminate|right; cbn; split; auto; discriminate].
  left. cbn [bind]. apply read_dense_inv in E as [E1 E2]. destruct s as [k vs]. cbn [sk els] in *. subst k.
  destruct (convert_indices_ok count u1 c vs Hi E2) as (r1 & -> & P1 & Q1).
  destruct (convert_indices_ok count u2 c vs Hi E2) as (r2 & -> & P2 & Q2).
  pose proof (zlen_nonneg vs). replace (Z.to_nat count) with (List.length vs) by (unfold zlen in *; lia).
  exists r1, r2. split; auto. split; auto. split; [lia|]. split; [congruence|].
  split; [rewrite P1; apply map_length|]. intros Hc. rewrite P1. auto.
Qed.

Theorem ReadAccessor_indep d a b1 b2 p1 p2 :
  reusable d a -> ReadAccessor d a b1 p1 = ReadAccessor d a b2 p2.
Proof.
  intros (HU & HM & (i & Hi & HS) & HSp). unfold ReadAccessor. rewrite Hi.
  rewrite (read_dense_indep d _ _ i _ _ b1 b2 HU HM HS).
  destruct (read_dense _ _ _ (Some i) _ _ b2) as [data| |]; try reflexivity. cbn [bind].
  destruct (acr_Sparse a) as [sp|]; [|reflexivity]. destruct HSp as (M1 & M2 & S1 & S2).
  rewrite (read_dense_indep d _ _ (spv_BufferView (spa_Values sp)) _ _ (p_val p1) (p_val p2) HU M1 S2).
  destruct (read_indices_indep d _ _ (spi_ByteOffset (spa_Indices sp)) _ (p_u32 p1) (p_u32 p2) (p_idx p1) (p_idx p2) M2 S1)
    as [(r1 & r2 & -> & -> & H0 & HE & HL & _)|[<- Hn]].
  - cbn [bind]. destruct (read_dense _ _ _ _ _ _ (p_val p2)); try reflexivity. cbn [bind].
    erewrite sparse_loop_prefix; [reflexivity|]. intros k Hk.
    pose proof (nth_error_firstn' r1 (Z.to_nat (spa_Count sp)) k) as F1.
    pose proof (nth_error_firstn' r2 (Z.to_nat (spa_Count sp)) k) as F2.
    destruct (k <? Z.to_nat (spa_Count sp))%nat eqn:Ek; [|lia]. rewrite <- F1, <- F2, HE. reflexivity.
  - destruct (read_indices_dense d _ _ _ _ _ (p_u32 p1) (p_idx p1)); try reflexivity.
Qed.

(** ** Absence of panics *)
Lemma index_total {A} (l : list A) i : 0 <= i < zlen l -> exists x, index l i = Ok x /\ nth_error l (Z.to_nat i) = Some x.
Proof.
  intros H. destruct (nth_error l (Z.to_nat i)) as [x|] eqn:E.
  - exists x. split; auto. replace i with (Z.of_nat (Z.to_nat i)) by lia. apply index_ok. exact E.
  - apply nth_error_None in E. unfold zlen in H. lia.
Qed.

(** What the document holds for one buffer view, and the outcome. *)
Theorem ReadBufferView_exact d v :
  0 <= bvw_Buffer v -> 0 <= bvw_ByteOffset v -> 0 <= bvw_ByteLength v ->
  bvw_ByteOffset v + bvw_ByteLength v < 2 ^ 63 ->
  nth_error (doc_Buffers d) (Z.to_nat (bvw_Buffer v)) <> Some None ->
  (exists b, nth_error (doc_Buffers d) (Z.to_nat (bvw_Buffer v)) = Some (Some b) /\
     bvw_ByteOffset v + bvw_ByteLength v <= zlen (buf_Data b) /\
     ReadBufferView d (Some v) = Ok (sub (buf_Data b) (Z.to_nat (bvw_ByteOffset v)) (Z.to_nat (bvw_ByteLength v)))) \/
  ((forall b, nth_error (doc_Buffers d) (Z.to_nat (bvw_Buffer v)) = Some (Some b) ->
      zlen (buf_Data b) < bvw_ByteOffset v + bvw_ByteLength v) /\
   exists e, ReadBufferView d (Some v) = Err e).
Proof.
  intros H0 H1 H2 H3 H4. unfold ReadBufferView. cbn [deref bind].
  destruct (zlen (doc_Buffers d) <=? bvw_Buffer v) eqn:E.
  - right. split; [|eauto]. intros b Hb.
    assert (Z.to_nat (bvw_Buffer v) < List.length (doc_Buffers d))%nat by (apply nth_error_Some; congruence).
    unfold zlen in E. lia.
  - destruct (index_total (doc_Buffers d) (bvw_Buffer v)) as (x & -> & Hx); [lia|].
    destruct x as [b|]; [|congruence]. cbn [bind deref]. rewrite i64_id by (unfold in_i64; lia).
    destruct (zlen (buf_Data b) <? _) eqn:E2.
    + right. split; [|eauto]. rewrite Hx. intros b' [= ->]. lia.
    + left. exists b. split; auto. split; [lia|]. unfold slice_range.
      destruct ((0 <=? bvw_ByteOffset v) && _ && _) eqn:E3; [|lia]. unfold sub. f_equal. f_equal. lia.
Qed.

(** Whatever the fields, a success returns exactly the bytes of the range. *)
Theorem ReadBufferView_sound d bv bs :
  ReadBufferView d bv = Ok bs ->
  exists v b, bv = Some v /\ 0 <= bvw_Buffer v /\
    nth_error (doc_Buffers d) (Z.to_nat (bvw_Buffer v)) = Some (Some b) /\
    0 <= bvw_ByteOffset v /\
    (- 2 ^ 63 <= bvw_ByteLength v < 2 ^ 63 -> bvw_ByteOffset v < 2 ^ 63 -> zlen (buf_Data b) < 2 ^ 63 ->
     0 <= bvw_ByteLength v /\ bvw_ByteOffset v + bvw_ByteLength v <= zlen (buf_Data b) /\
     bs = sub (buf_Data b) (Z.to_nat (bvw_ByteOffset v)) (Z.to_nat (bvw_ByteLength v))).
Proof.
  unfold ReadBufferView. intros H. destruct bv as [v|]; [|discriminate]. cbn [deref bind] in H.
  destruct (zlen (doc_Buffers d) <=? bvw_Buffer v); [discriminate|]. inv_ok H. inv_ok H.
  destruct x as [b|]; [|discriminate]. injection Hx0 as <-. apply index_inv in Hx as [Hi Hn].
  destruct (zlen (buf_Data b) <? _) eqn:E; [discriminate|]. unfold slice_range in H.
  destruct ((0 <=? bvw_ByteOffset v) && _ && _) eqn:E3; [|discriminate]. injection H as <-.
  exists v, b. split; auto. split; [lia|]. split; auto. split; [lia|]. intros H1 H2 H3.
  assert (HI : i64 (bvw_ByteOffset v + bvw_ByteLength v) = bvw_ByteOffset v + bvw_ByteLength v).
  { destruct (Z.lt_ge_cases (bvw_ByteOffset v + bvw_ByteLength v) (2 ^ 63)) as [G|G]; [apply i64_id; unfold in_i64; lia|].
    exfalso. assert (i64 (bvw_ByteOffset v + bvw_ByteLength v) < 0); [|lia].
    unfold i64. clear -G H1 H2.
    set (s := bvw_ByteOffset v + bvw_ByteLength v) in *. assert (s < 2 ^ 64) by lia. clearbody s.
    replace ((s + 2 ^ 63) mod 2 ^ 64) with (s + 2 ^ 63 - 2 ^ 64); [lia|].
    apply Z.mod_unique with 1; lia. }
  rewrite HI in *. split; [lia|]. split; [lia|]. unfold sub. f_equal. lia.
Qed.

Lemma readBufferView_safe d c t i off count :
  view_safe d c t i off count ->
  (exists e, readBufferView d i = Err e) \/
  (exists v b, readBufferView d i = Ok (sub (buf_Data b) (Z.to_nat (bvw_ByteOffset v)) (Z.to_nat (bvw_ByteLength v))) /\
     index (doc_BufferViews d) i = Ok (Some v) /\ nth_error (doc_BufferViews d) (Z.to_nat i) = Some (Some v) /\
     zlen (buf_Data b) < 2 ^ 63 /\
     bvw_ByteOffset v + bvw_ByteLength v <= zlen (buf_Data b)).
Proof.
  intros [H0 HV]. unfold readBufferView.
  destruct (zlen (doc_BufferViews d) <=? i) eqn:E; [left; eauto|].
  destruct (index_total (doc_BufferViews d) i) as (x & Ex & Hx); [lia|]. rewrite Ex. cbn [bind].
  destruct (HV x Hx) as (v & -> & B0 & O0 & L0 & S63 & _ & _ & _ & _ & HB).
  destruct (ReadBufferView_exact d v B0 O0 L0 S63) as [(b & Hb & Hr & ->)|[_ [e ->]]].
  - intros Hc. destruct (HB _ Hc) as (b & [=] & _).
  - right. exists v, b. destruct (HB _ Hb) as (b' & [= <-] & H63). auto.
  - left. eauto.
Qed.

Lemma sub_length_exact {A} (l : list A) o n : (o + n <= List.length l)%nat -> List.length (sub l o n) = n.
Proof. intros H. unfold sub. rewrite firstn_length, skipn_length. lia. Qed.

Theorem read_dense_safe d c t bv off count buf :
  (buf = [] \/ ~ (c = CUint /\ t = AMat3)) -> countable c t count ->
  (forall i, bv = Some i -> view_safe d c t i off count) ->
  read_dense d c t bv off count buf <> Panic.
Proof.
  intros HU [H0 HM] HV HP. unfold read_dense in HP.
  destruct (ct_valid c && at_valid t) eqn:V.
  2:{ destruct (MakeSliceBuffer_invalid c t count buf V) as [[e He] _]. rewrite He in HP. discriminate. }
  apply andb_true_iff in V as [Hc Ht].
  rewrite <- (Z2Nat.id count H0) in HP at 1. rewrite MakeSliceBuffer_ok in HP; auto; [|nia]. cbn [bind] in HP.
  destruct bv as [i|]; [|discriminate]. specialize (HV i eq_refl).
  destruct (readBufferView_safe d c t i off count HV) as [[e He]|(v & b & He & Hi & Hnv & H63 & Hr)]; rewrite He in HP; [discriminate|].
  cbn [bind] in HP. rewrite Hi in HP. cbn [bind deref] in HP.
  destruct HV as [_ HV]. destruct (HV _ Hnv) as (v' & [= <-] & B0 & O0 & L0 & S63 & HO & HS & HF & HB & _).
  unfold slice_from, zlen in HP. rewrite sub_length_exact in HP by (unfold zlen in Hr; lia).
  destruct ((0 <=? off) && _) eqn:E; [|lia]. cbn [bind] in HP.
  rewrite <- (Z2Nat.id (bvw_ByteStride v) HS) in HP.
  set (old := map _ _) in HP. assert (HL : List.length old = Z.to_nat count) by (unfold old; rewrite map_length, seq_length; reflexivity).
  set (tail := skipn _ _) in HP.
  assert (HT : zlen tail = bvw_ByteLength v - off).
  { unfold tail, zlen. rewrite skipn_length, sub_length_exact by (unfold zlen in Hr; lia). lia. }
  assert (HK : kind_ct (SK c t) = Some (c, t)) by (cbn; rewrite Hc, Ht; reflexivity).
  specialize (HF Hc Ht). rewrite <- HL in HF.
  assert (D : (c = CByte /\ t = AScalar) \/ SK c t <> SK CByte AScalar).
  { destruct c, t; try (right; intros [=]; fail). left; auto. }
  destruct D as [[-> ->]|D].
  - rewrite (Read_unfold _ _ _ _ _ _ HK HF) in HP.
    destruct (zlen tail <? _); [discriminate|]. specialize (HB (conj eq_refl eq_refl)).
    destruct (zlen old <? zlen tail) eqn:E2; [|discriminate]. unfold zlen at 1 in E2. lia.
  - revert HP. apply (Read_no_panic _ _ _ _ _ _ HK D HF). unfold zlen in *. lia.
Qed.

Lemma view_safe_stride d c t i off count :
  ct_valid c = true -> at_valid t = true -> view_safe d c t i off count -> stride_ok d c t i count.
Proof.
  intros Hc Ht [H0 H] _ v Hv. destruct (H _ Hv) as (v' & [= <-] & _ & _ & _ & _ & _ & HS & HF & _). auto.
Qed.

(** The accessor ReadAccessor builds for the sparse indices (read.go:51-57). *)
Definition index_accessor (sp : Sparse) : Accessor :=
  set_acr_BufferView (Some (spi_BufferView (spa_Indices sp)))
   (set_acr_ByteOffset (spi_ByteOffset (spa_Indices sp))
    (set_acr_ComponentType (spi_ComponentType (spa_Indices sp))
     (set_acr_Type AScalar (set_acr_Count (spa_Count sp) zero_Accessor)))).

Theorem ReadAccessor_no_panic d a buf p :
  (buf = [] /\ p_val p = [] \/ ~ (acr_ComponentType a = CUint /\ acr_Type a = AMat3)) ->
  countable (acr_ComponentType a) (acr_Type a) (acr_Count a) ->
  (forall i, acr_BufferView a = Some i ->
     view_safe d (acr_ComponentType a) (acr_Type a) i (acr_ByteOffset a) (acr_Count a)) ->
  (forall sp, acr_Sparse a = Some sp ->
     let ci := spi_ComponentType (spa_Indices sp) in
     countable ci AScalar (spa_Count sp) /\ countable (acr_ComponentType a) (acr_Type a) (spa_Count sp) /\
     view_safe d ci AScalar (spi_BufferView (spa_Indices sp)) (spi_ByteOffset (spa_Indices sp)) (spa_Count sp) /\
     view_safe d (acr_ComponentType a) (acr_Type a) (spv_BufferView (spa_Values sp)) (spv_ByteOffset (spa_Values sp)) (spa_Count sp) /\
     forall idx, ReadIndices d (index_accessor sp) [] [] fresh_pools = Ok idx ->
       Forall (fun x => 0 <= x < acr_Count a) idx) ->
  ReadAccessor d a buf p <> Panic.
Proof.
  intros HU HC HV HS HP. unfold ReadAccessor in HP.
  destruct (read_dense d _ _ (acr_BufferView a) _ _ buf) as [data| |] eqn:ED; cbn [bind] in HP; try discriminate.
  2:{ revert ED. apply read_dense_safe; auto. destruct HU as [[-> _]|HU]; auto. }
  destruct (acr_Sparse a) as [sp|] eqn:Esp; [|discriminate].
  destruct (HS sp eq_refl) as (C1 & C2 & V1 & V2 & HI). cbn zeta in *.
  destruct (read_indices_dense d _ _ _ _ _ (p_u32 p) (p_idx p)) as [idx| |] eqn:EI; cbn [bind] in HP; try discriminate.
  2:{ unfold read_indices_dense in EI.
      destruct (check_indices_spec (spi_ComponentType (spa_Indices sp)) AScalar) as [(Hi & _ & He)|(_ & e & He)];
        rewrite He in EI; cbn [bind] in EI; [|discriminate].
      destruct (read_dense d _ AScalar _ _ _ (p_idx p)) as [s| |] eqn:E2; cbn [bind] in EI; try discriminate.
      - pose proof (read_dense_inv _ _ _ _ _ _ _ _ E2) as [K1 K2]. destruct s as [k vs]. cbn [sk els] in *. subst k.
        destruct (convert_indices_ok _ (p_u32 p) _ vs Hi K2) as (r & Er & _). rewrite Er in EI. discriminate.
      - revert E2. apply read_dense_safe; auto; [right; intros [_ [=]]|]. intros i [= <-]. exact V1. }
  destruct (read_dense d _ _ _ _ _ (p_val p)) as [vals| |] eqn:EV; cbn [bind] in HP; try discriminate.
  2:{ revert EV. apply read_dense_safe; auto; [destruct HU as [[_ ->]|HU]; auto|]. intros i [= <-]. exact V2. }
  destruct (sparse_loop 0 _ _ _ _) eqn:EL; cbn [bind] in HP; try discriminate.
  apply read_dense_inv in ED as [D1 D2]. apply read_dense_inv in EV as [E1 E2].
  destruct C1 as [C1 C1'].
  assert (Hci : index_type (spi_ComponentType (spa_Indices sp))).
  { unfold read_indices_dense in EI. inv_ok EI. destruct x. apply check_indices_ok in Hx as [H _]. exact H. }
  assert (Hv : ct_valid (spi_ComponentType (spa_Indices sp)) = true) by (destruct Hci as [->|[->| ->]]; reflexivity).
  destruct (read_indices_indep d _ _ (spi_ByteOffset (spa_Indices sp)) _ [] (p_u32 p) [] (p_idx p) C1'
              (view_safe_stride d _ AScalar _ _ _ Hv eq_refl V1))
    as [(r1 & r2 & R1 & R2 & H0 & HE & HL & HQ)|[Heq Hn]].
  2:{ rewrite Heq in Hn. eapply Hn. exact EI. }
  rewrite EI in R2. injection R2 as <-. specialize (HQ (or_intror eq_refl)).
  assert (HR : ReadIndices d (index_accessor sp) [] [] fresh_pools = Ok r1).
  { rewrite <- R1. unfold ReadIndices, read_indices_dense, ReadAccessor. cbn.
    destruct (check_indices _ _); try reflexivity. cbn [bind].
    destruct (read_dense _ _ _ _ _ _ _); reflexivity. }
  specialize (HI _ HR). rewrite Forall_forall in HI.
  set (n := Z.to_nat (spa_Count sp)) in *.
  destruct (sparse_loop_ok n 0 idx (els vals) (els data)) as (s' & Es & _).
  - cbn [Nat.add]. rewrite <- HL, HE, firstn_length. lia.
  - cbn [Nat.add]. unfold zlen in E2. lia.
  - intros k Hk. assert (Hk' : (k < List.length (firstn n idx))%nat) by (rewrite <- HE, HL; lia).
    replace (nth k idx 0) with (nth k (firstn n idx) 0).
    + rewrite D2. apply HI. rewrite HQ, HE. apply nth_In. exact Hk'.
    + rewrite <- (firstn_skipn n idx) at 2. rewrite app_nth1; auto.
  - rewrite Es in EL. discriminate.
Qed.

(** ** Typed helpers *)
Lemma read_typed_spec {A} (z : A) check cv cp d a buffer pool p :
  read_typed z check cv cp d a buffer pool p =
  (_ <- check (acr_ComponentType a) (acr_Type a) ;;
   data <- ReadAccessor d a pool p ;;
   read_typed z (fun _ _ => Ok tt) cv cp d a buffer pool p).
Proof.
  unfold read_typed. destruct (check _ _) as [u| |]; try reflexivity. cbn [bind].
  destruct (ReadAccessor d a pool p); reflexivity.
Qed.

(** The conversion applied to a slice of kind [k]. *)
Definition conv_of {A} (cv cp : skind -> option (elem -> A)) (k : skind) : option (elem -> A) :=
  match cp k with Some f => Some f | None => cv k end.

Lemma read_typed_ok {A} (z : A) check cv cp d a buffer pool p data f :
  check (acr_ComponentType a) (acr_Type a) = Ok tt ->
  ReadAccessor d a pool p = Ok data ->
  conv_of cv cp (SK (acr_ComponentType a) (acr_Type a)) = Some f ->
  exists r, read_typed z check cv cp d a buffer pool p = Ok r /\
    firstn (Z.to_nat (acr_Count a)) r = map f (els data) /\
    (acr_Count a <> 0 \/ buffer = [] -> r = map f (els data)).
Proof.
  intros Hc Hr Hf. unfold read_typed. rewrite Hc, Hr. cbn [bind].
  apply ReadAccessor_count in Hr as [HC HK]. rewrite HK. unfold conv_of in Hf.
  replace (Z.to_nat (acr_Count a)) with (List.length (els data)) by (unfold zlen in HC; lia).
  destruct (cp (SK (acr_ComponentType a) (acr_Type a))) as [g|].
  - injection Hf as ->. apply convert_copy; auto.
  - rewrite Hf. apply convert_fill; auto.
Qed.

Lemma read_typed_err {A} (z : A) check cv cp d a buffer pool p e :
  check (acr_ComponentType a) (acr_Type a) = Ok tt ->
  ReadAccessor d a pool p = Err e -> read_typed z check cv cp d a buffer pool p = Err e.
Proof. intros Hc Hr. unfold read_typed. rewrite Hc, Hr. reflexivity. Qed.

Lemma read_typed_panic {A} (z : A) check cv cp d a buffer pool p :
  check (acr_ComponentType a) (acr_Type a) = Ok tt ->
  ReadAccessor d a pool p = Panic -> read_typed z check cv cp d a buffer pool p = Panic.
Proof. intros Hc Hr. unfold read_typed. rewrite Hc, Hr. reflexivity. Qed.

Lemma read_typed_reject {A} (z : A) check cv cp d a buffer pool p e :
  check (acr_ComponentType a) (acr_Type a) = Err e -> read_typed z check cv cp d a buffer pool p = Err e.
Proof. intros Hc. unfold read_typed. rewrite Hc. reflexivity. Qed.

(** A helper is described by the formats it takes and the conversion of each. *)
Definition typed_by {A} (read : Document -> Accessor -> list A -> bytes -> pools -> res (list A))
    (fmt : ComponentType -> AccessorType -> option (elem -> A)) : Prop :=
  forall d a,
  match fmt (acr_ComponentType a) (acr_Type a) with
  | None => exists e, forall buffer pool p, read d a buffer pool p = Err e
  | Some f => forall buffer pool p,
      match ReadAccessor d a pool p with
      | Ok data => exists r, read d a buffer pool p = Ok r /\
          firstn (Z.to_nat (acr_Count a)) r = map f (els data) /\
          (acr_Count a <> 0 \/ buffer = [] -> r = map f (els data))
      | Err e => read d a buffer pool p = Err e
      | Panic => read d a buffer pool p = Panic
      end
  end.

Lemma read_typed_by {A} (z : A) check cv cp fmt :
  (forall c t, match fmt c t with
     | None => exists e, check c t = Err e
     | Some f => check c t = Ok tt /\ conv_of cv cp (SK c t) = Some f
     end) ->
  typed_by (read_typed z check cv cp) fmt.
Proof.
  intros H d a. specialize (H (acr_ComponentType a) (acr_Type a)).
  destruct (fmt _ _) as [f|].
  - intros buffer pool p. destruct H as [H1 H2]. destruct (ReadAccessor d a pool p) as [data|e|] eqn:E.
    + eapply read_typed_ok; eauto.
    + apply read_typed_err; auto.
    + apply read_typed_panic; auto.
  - destruct H as [e H]. exists e. intros. apply read_typed_reject. exact H.
Qed.

Definition fmt_one (c0 : ComponentType) (t0 : AccessorType) (c : ComponentType) (t : AccessorType) : option (elem -> elem) :=
  if ct_eqb c c0 && at_eqb t t0 then Some ident else None.

Ltac by_formats :=
  apply read_typed_by; intros c t; destruct c, t; cbn; eauto.

Lemma ReadNormal_by : typed_by ReadNormal (fmt_one CFloat AVec3).
Proof. unfold ReadNormal. by_formats. Qed.
Lemma ReadTangent_by : typed_by ReadTangent (fmt_one CFloat AVec4).
Proof. unfold ReadTangent. by_formats. Qed.
Lemma ReadPosition_by : typed_by ReadPosition (fmt_one CFloat AVec3).
Proof. unfold ReadPosition. by_formats. Qed.
Lemma ReadInverseBindMatrices_by : typed_by ReadInverseBindMatrices (fmt_one CFloat AMat4).
Proof. unfold ReadInverseBindMatrices. by_formats. Qed.

Definition fmt_norm (cv : conversions) (t0 : AccessorType) (c : ComponentType) (t : AccessorType) : option (elem -> elem) :=
  if at_eqb t t0 then
    match c with
    | CFloat => Some ident
    | CUbyte => Some (map (cv_DenormalizeUbyte cv))
    | CUshort => Some (map (cv_DenormalizeUshort cv))
    | _ => None
    end
  else None.
Lemma ReadTextureCoord_by cv : typed_by (ReadTextureCoord cv) (fmt_norm cv AVec2).
Proof. unfold ReadTextureCoord. by_formats. Qed.
Lemma ReadWeights_by cv : typed_by (ReadWeights cv) (fmt_norm cv AVec4).
Proof. unfold ReadWeights. by_formats. Qed.

Definition fmt_joints (c : ComponentType) (t : AccessorType) : option (elem -> elem) :=
  match c, t with CUbyte, AVec4 | CUshort, AVec4 => Some ident | _, _ => None end.
Lemma ReadJoints_by : typed_by ReadJoints fmt_joints.
Proof. unfold ReadJoints. by_formats. Qed.

Definition fmt_color (cv : conversions) (c : ComponentType) (t : AccessorType) : option (elem -> elem) :=
  match c, t with
  | CUbyte, AVec3 => Some (fun e => e ++ [255])
  | CUbyte, AVec4 => Some ident
  | CUshort, AVec3 => Some (fun e => map (fun x => x mod 256) e ++ [255])
  | CUshort, AVec4 => Some (map (fun x => x mod 256))
  | CFloat, AVec3 => Some (fun e => cv_NormalizeRGB cv e ++ [255])
  | CFloat, AVec4 => Some (cv_NormalizeRGBA cv)
  | _, _ => None
  end.
Lemma ReadColor_by cv : typed_by (ReadColor cv) (fmt_color cv).
Proof. unfold ReadColor. by_formats. Qed.

Definition fmt_color64 (cv : conversions) (c : ComponentType) (t : AccessorType) : option (elem -> elem) :=
  match c, t with
  | CUbyte, AVec3 => Some (fun e => map widen8 e ++ [65535])
  | CUbyte, AVec4 => Some (map widen8)
  | CUshort, AVec3 => Some (fun e => e ++ [65535])
  | CUshort, AVec4 => Some ident
  | CFloat, AVec3 => Some (fun e => cv_NormalizeRGB64 cv e ++ [65535])
  | CFloat, AVec4 => Some (cv_NormalizeRGBA64 cv)
  | _, _ => None
  end.
Lemma ReadColor64_by cv : typed_by (ReadColor64 cv) (fmt_color64 cv).
Proof. unfold ReadColor64. by_formats. Qed.

Definition fmt_indices (c : ComponentType) (t : AccessorType) : option (elem -> Z) :=
  match c, t with CUbyte, AScalar | CUshort, AScalar | CUint, AScalar => Some scalar | _, _ => None end.

Lemma ReadIndices_by : typed_by ReadIndices fmt_indices.
Proof.
  intros d a. unfold ReadIndices.
  destruct (check_indices_spec (acr_ComponentType a) (acr_Type a)) as [(Hi & Ht & ->)|(Hn & e & ->)].
  - assert (F : fmt_indices (acr_ComponentType a) (acr_Type a) = Some scalar).
    { rewrite Ht. destruct Hi as [->|[->| ->]]; reflexivity. }
    rewrite F. intros buffer pool p. cbn [bind]. destruct (ReadAccessor d a pool p) as [data|e|] eqn:E; cbn [bind]; auto.
    apply ReadAccessor_count in E as [HC HK]. destruct data as [k vs]. cbn [sk els] in *. subst k. rewrite Ht.
    replace (Z.to_nat (acr_Count a)) with (List.length vs) by (unfold zlen in HC; lia).
    apply convert_indices_ok; auto.
  - assert (F : fmt_indices (acr_ComponentType a) (acr_Type a) = None).
    { unfold index_type in Hn. destruct (acr_ComponentType a), (acr_Type a); cbn; auto; exfalso; apply Hn; auto. }
    rewrite F. cbn [bind]. eauto.
Qed.

(** Consequences shared by all helpers. *)
Lemma typed_by_indep {A} read (fmt : ComponentType -> AccessorType -> option (elem -> A)) d a buf1 buf2 pool1 pool2 p1 p2 :
  typed_by read fmt -> reusable d a -> (acr_Count a <> 0 \/ buf1 = [] /\ buf2 = []) ->
  read d a buf1 pool1 p1 = read d a buf2 pool2 p2.
Proof.
  intros HT HR HB. specialize (HT d a).
  destruct (fmt _ _) as [f|]; [|destruct HT as [e HT]; rewrite !HT; reflexivity].
  pose proof (HT buf1 pool1 p1) as H1. pose proof (HT buf2 pool2 p2) as H2.
  rewrite (ReadAccessor_indep d a pool1 pool2 p1 p2 HR) in H1.
  destruct (ReadAccessor d a pool2 p2) as [data|e|]; [|congruence|congruence].
  destruct H1 as (r1 & E1 & _ & Q1), H2 as (r2 & E2 & _ & Q2).
  rewrite E1, E2, Q1, Q2 by tauto. reflexivity.
Qed.

Lemma typed_by_count {A} read (fmt : ComponentType -> AccessorType -> option (elem -> A)) d a buffer pool p r :
  typed_by read fmt -> read d a buffer pool p = Ok r -> (acr_Count a <> 0 \/ buffer = []) -> zlen r = acr_Count a.
Proof.
  intros HT Hr HB. specialize (HT d a).
  destruct (fmt _ _) as [f|]; [|destruct HT as [e HT]; rewrite HT in Hr; discriminate].
  specialize (HT buffer pool p). destruct (ReadAccessor d a pool p) as [data|e|] eqn:E; [|congruence|congruence].
  destruct HT as (r' & E' & _ & Q). rewrite Hr in E'. injection E' as <-. rewrite Q by auto.
  apply ReadAccessor_count in E as [E _]. unfold zlen in *. rewrite map_length. exact E.
Qed.

(** ** Every element read has the right shape and range *)
Lemma mapM_inv {A B} (f : A -> res B) : forall l r, mapM f l = Ok r ->
  List.length r = List.length l /\ Forall (fun y => exists x, f x = Ok y) r.
Proof.
  induction l as [|x l IH]; intros r H; cbn in H; [injection H as <-; auto|].
  inv_ok H. inv_ok H. injection H as <-. destruct (IH _ Hx0) as [H1 H2]. cbn. split; [lia|]. constructor; eauto.
Qed.

Lemma load_range w b off v : load w b off = Ok v -> 0 <= w -> 0 <= v < 256 ^ w.
Proof.
  unfold load. destruct ((0 <=? off) && (off + w <=? zlen b)) eqn:E; [|discriminate]. intros [= <-] Hw.
  pose proof (le_val_range (sub b (Z.to_nat off) (Z.to_nat w))) as H. unfold zlen in *.
  rewrite sub_length_exact in H by lia. rewrite Z2Nat.id in H by lia. exact H.
Qed.

Lemma get_elem_wf c t b base v :
  ct_valid c = true -> at_valid t = true -> get_elem c t b base = Ok v -> wf_elem c t v.
Proof.
  intros Hc Ht H. unfold get_elem in H. destruct (_ && _); [|discriminate].
  apply mapM_inv in H as [HL HF]. split.
  - rewrite HL. destruct c, t; try discriminate; reflexivity.
  - eapply Forall_impl; [|exact HF]. intros x (o & Ho). cbv beta. rewrite <- ByteSize_nat.
    eapply load_range; eauto. rewrite ByteSize_nat. lia.
Qed.

Lemma read_loop_wf c t b e : ct_valid c = true -> at_valid t = true ->
  forall n i vs, read_loop c t b e i n = Ok vs -> Forall (wf_elem c t) vs.
Proof.
  intros Hc Ht. induction n as [|n IH]; intros i vs H; cbn [read_loop] in H; [injection H as <-; auto|].
  inv_ok H. inv_ok H. injection H as <-. constructor; eauto. eapply get_elem_wf; eauto.
Qed.

Lemma Forall_firstn' {A} (P : A -> Prop) n l : Forall P l -> Forall P (firstn n l).
Proof. intros H. rewrite <- (firstn_skipn n l) in H. apply Forall_app in H. tauto. Qed.
Lemma Forall_skipn' {A} (P : A -> Prop) n l : Forall P l -> Forall P (skipn n l).
Proof. intros H. rewrite <- (firstn_skipn n l) in H. apply Forall_app in H. tauto. Qed.

Lemma copy_Forall {A} (P : A -> Prop) l m : Forall P l -> Forall P m -> Forall P (copy l m).
Proof. intros. unfold copy. apply Forall_app. split; [apply Forall_firstn'|apply Forall_skipn']; auto. Qed.

Lemma byte_elems_wf c b : c = CByte \/ c = CUbyte -> Forall (wf_elem c AScalar) (map (fun x => [b2z x]) b).
Proof.
  intros H. apply Forall_forall. intros v Hv. apply in_map_iff in Hv as (x & <- & _).
  assert (Z.of_nat (comp_bytes c) = 1) as E by (destruct H as [->| ->]; reflexivity).
  split; [reflexivity|]. constructor; auto. rewrite E. pose proof (b2z_range x). lia.
Qed.

Lemma Read_wf b st c t old s :
  ct_valid c = true -> at_valid t = true ->
  Read b st (mkSlice (SK c t) old) = Ok s -> Forall (wf_elem c t) old -> Forall (wf_elem c t) (els s).
Proof.
  intros Hc Ht H HO. unfold Read in H. inv_ok H. destruct x as [[c' t'] n].
  assert (c' = c /\ t' = t) as [-> ->].
  { unfold TypeOf in Hx. cbn [sk els] in Hx. rewrite Hc, Ht in Hx. cbn in Hx. injection Hx as <- <- _. auto. }
  destruct (zlen b <? _); [discriminate|]. cbn [sk els] in H.
  assert (G : forall e, (vs <- read_loop c t b e 0 (List.length old) ;; Ok (mkSlice (SK c t) vs)) = Ok s ->
    Forall (wf_elem c t) (els s)).
  { intros e G. inv_ok G. injection G as <-. cbn. eapply read_loop_wf; eauto. }
  destruct c, t; eauto.
  - destruct (_ <? _); [discriminate|]. injection H as <-. cbn. apply copy_Forall; auto. apply byte_elems_wf. auto.
  - destruct (negb _); eauto. injection H as <-. cbn. apply copy_Forall; auto. apply byte_elems_wf. auto.
Qed.

Lemma MakeSliceBuffer_wf c t count buf s :
  MakeSliceBuffer c t count buf = Ok s -> Forall (wf_elem c t) (els s).
Proof.
  intros H. pose proof (MakeSliceBuffer_inv _ _ _ _ _ H) as (_ & _ & Hc & Ht).
  unfold MakeSliceBuffer in H. rewrite checkAccessorType_ok in H by auto. cbn [bind] in H.
  assert (Z0 : forall n, Forall (wf_elem c t) (repeat (zero_elem t) n)).
  { intros n. apply Forall_forall. intros v Hv. apply repeat_spec in Hv as ->. apply zero_elem_wf; auto. }
  destruct (zlen buf =? 0).
  - unfold MakeSlice in H. rewrite checkAccessorType_ok in H by auto. cbn [bind] in H.
    destruct (_ || _); [discriminate|]. injection H as <-. cbn. auto.
  - unfold castSlice in H. destruct (_ =? 0) eqn:E0; [discriminate|].
    set (l := zlen buf / (ByteSize c * Components t)) in *.
    assert (R : reslice c t buf (if count <? l then count else l) (if l <? count then count - l else 0) = Ok s).
    { destruct c, t; try discriminate; exact H. }
    clear H. unfold reslice in R. destruct ((if count <? l then count else l) <? 0) eqn:E1; [discriminate|].
    destruct (max_alloc <? _) eqn:E2; [discriminate|]. injection R as <-. cbn [els].
    apply Forall_app. split; auto. unfold mem_elems. apply Forall_forall. intros v Hv.
    apply in_map_iff in Hv as (j & <- & Hj). apply in_seq in Hj. unfold mem_elem. split.
    { rewrite map_length, seq_length, Components_nat, Nat2Z.id. reflexivity. }
    apply Forall_forall. intros x Hx. apply in_map_iff in Hx as (k & <- & Hk). apply in_seq in Hk.
    rewrite mem_size_Z, ByteSize_nat, !Nat2Z.id. set (m := mem_size c t) in *.
    pose proof (mem_size_pos c t Hc Ht) as Hm. fold m in Hm.
    assert (Hl : l * Z.of_nat m <= zlen buf).
    { unfold l. rewrite mem_size_Z. fold m. rewrite Z.mul_comm. apply Z.mul_div_le. lia. }
    rewrite Components_nat, Nat2Z.id in Hk.
    assert (Hj2 : (Z.of_nat j < l)) by (destruct (count <? l) eqn:E3; lia).
    match goal with |- 0 <= le_val ?x < _ => pose proof (le_val_range x) as HR end.
    unfold zlen in *. rewrite sub_length_exact in HR; [exact HR|].
    assert ((k + 1) * comp_bytes c <= m)%nat by (unfold m, mem_size; nia).
    clearbody l m. nia.
Qed.

Lemma read_dense_wf d c t bv off count buf s :
  read_dense d c t bv off count buf = Ok s -> Forall (wf_elem c t) (els s).
Proof.
  unfold read_dense. intros H. inv_ok H. pose proof (MakeSliceBuffer_wf _ _ _ _ _ Hx) as W.
  pose proof (MakeSliceBuffer_inv _ _ _ _ _ Hx) as (K & _ & Hc & Ht).
  destruct bv as [i|]; [|injection H as <-; auto].
  inv_ok H. inv_ok H. inv_ok H. inv_ok H. destruct x as [k old]. cbn in K, W. subst k. eapply Read_wf; eauto.
Qed.

Lemma set_nth_Forall {A} (P : A -> Prop) a : P a -> forall n l, Forall P l -> Forall P (set_nth n a l).
Proof.
  intros Ha n l H. revert n. induction H; intros [|n]; cbn; auto.
Qed.

Lemma sparse_loop_wf P n : forall i indices vals s s',
  sparse_loop i n indices vals s = Ok s' -> Forall P vals -> Forall P s -> Forall P s'.
Proof.
  induction n as [|n IH]; intros i indices vals s s' H HV HS; cbn [sparse_loop] in H; [injection H as <-; auto|].
  inv_ok H. inv_ok H. inv_ok H. apply set_index_inv in Hx1 as [_ ->]. eapply IH; eauto.
  apply set_nth_Forall; auto. apply index_inv in Hx0 as [_ Hv]. rewrite Forall_forall in HV. apply HV.
  eapply nth_error_In. exact Hv.
Qed.

Theorem ReadAccessor_wf d a buf p s :
  ReadAccessor d a buf p = Ok s -> Forall (wf_elem (acr_ComponentType a) (acr_Type a)) (els s).
Proof.
  unfold ReadAccessor. intros H. inv_ok H. apply read_dense_wf in Hx.
  destruct (acr_Sparse a) as [sp|]; [|injection H as <-; auto].
  inv_ok H. inv_ok H. apply read_dense_wf in Hx1. inv_ok H. injection H as <-. cbn [els].
  eapply sparse_loop_wf; eauto.
Qed.

Lemma widen8_257 x : 0 <= x < 256 -> widen8 x = 257 * x.
Proof.
  intros H.
  assert (A : forallb (fun n => widen8 (Z.of_nat n) =? 257 * Z.of_nat n) (seq 0 256) = true) by (vm_compute; reflexivity).
  rewrite forallb_forall in A. specialize (A (Z.to_nat x)). rewrite in_seq, Z2Nat.id in A by lia.
  apply Z.eqb_eq. apply A. lia.
Qed.
