(** Proofs about modeler/read.go. *)
From Verif Require Import BaseFacts Types Binary SpecLayout BinaryProofs SliceProofs Doc SpecDoc
  ModelerRead ModelerWriteProofs.

Lemma bind_ok {A B} (m : res A) (f : A -> res B) b :
  bind m f = Ok b -> exists a, m = Ok a /\ f a = Ok b.
Proof. destruct m; cbn; try discriminate. eauto. Qed.

Ltac inv_ok H :=
  match type of H with
  | bind _ _ = Ok _ =>
      let x := fresh "x" in let Hx := fresh "Hx" in
      apply bind_ok in H as (x & Hx & H)
  end.

(** ** Monotonicity: what could be read from a document can be read from every
    extension of it, with the same result. *)
Lemma index_app {A} (l m : list A) i a : index l i = Ok a -> index (l ++ m) i = Ok a.
Proof.
  intros H. apply index_inv in H as [Hi H].
  replace i with (Z.of_nat (Z.to_nat i)) by lia. apply index_ok.
  rewrite nth_error_app1; auto. unfold zlen in Hi. lia.
Qed.

Lemma slice_range_app {A} (l m : list A) lo hi r :
  slice_range l lo hi = Ok r -> slice_range (l ++ m) lo hi = Ok r.
Proof.
  unfold slice_range. rewrite zlen_app. pose proof (zlen_nonneg m).
  destruct ((0 <=? lo) && (lo <=? hi) && (hi <=? zlen l)) eqn:E; [|discriminate].
  intros [= <-]. destruct ((0 <=? lo) && (lo <=? hi) && (hi <=? zlen l + zlen m)) eqn:E2; [|lia].
  unfold zlen in *. rewrite skipn_app, firstn_app, skipn_length.
  replace (Z.to_nat (hi - lo) - (List.length l - Z.to_nat lo))%nat with 0%nat by lia.
  cbn. rewrite app_nil_r. reflexivity.
Qed.

Lemma ReadBufferView_mono d d' bv r :
  extends d d' -> ReadBufferView d bv = Ok r -> ReadBufferView d' bv = Ok r.
Proof.
  intros (_ & _ & _ & HB & _) H. unfold ReadBufferView in *.
  destruct bv as [v|]; [|discriminate]. cbn [deref bind] in *.
  destruct (zlen (doc_Buffers d) <=? bvw_Buffer v) eqn:E1; [discriminate|].
  inv_ok H. inv_ok H. destruct x as [b|]; [|discriminate]. injection Hx0 as ->.
  apply index_inv in Hx as [Hi Hn].
  apply HB in Hn as (x' & Hn & R). destruct x' as [b'|]; cbn in R; [|contradiction].
  destruct R as ([more R] & _).
  assert (Hi' : (Z.to_nat (bvw_Buffer v) < List.length (doc_Buffers d'))%nat).
  { apply nth_error_Some. congruence. }
  destruct (zlen (doc_Buffers d') <=? bvw_Buffer v) eqn:E2; [unfold zlen in *; lia|].
  replace (bvw_Buffer v) with (Z.of_nat (Z.to_nat (bvw_Buffer v))) by lia.
  rewrite (index_ok _ _ _ Hn). cbn [bind deref]. rewrite R, zlen_app.
  destruct (zlen (buf_Data x0) <? _) eqn:E3; [discriminate|].
  destruct (zlen (buf_Data x0) + zlen more <? _) eqn:E4; [pose proof (zlen_nonneg more); lia|].
  apply slice_range_app. exact H.
Qed.

Lemma readBufferView_mono d d' i r :
  extends d d' -> readBufferView d i = Ok r -> readBufferView d' i = Ok r.
Proof.
  intros E H. pose proof E as (_ & [l HV] & _). unfold readBufferView in *. rewrite HV, zlen_app.
  destruct (zlen (doc_BufferViews d) <=? i) eqn:E1; [discriminate|].
  destruct (zlen (doc_BufferViews d) + zlen l <=? i) eqn:E2; [pose proof (zlen_nonneg l); lia|].
  inv_ok H. rewrite (index_app _ _ _ _ Hx). cbn [bind]. eapply ReadBufferView_mono; eauto.
Qed.

Lemma read_dense_mono d d' c t bv off n buf s :
  extends d d' -> read_dense d c t bv off n buf = Ok s -> read_dense d' c t bv off n buf = Ok s.
Proof.
  intros E H. unfold read_dense in *. inv_ok H. rewrite Hx. cbn [bind].
  destruct bv as [i|]; [|exact H].
  inv_ok H. rewrite (readBufferView_mono _ _ _ _ E Hx0). cbn [bind].
  inv_ok H. pose proof E as (_ & [l HV] & _). rewrite HV, (index_app _ _ _ _ Hx1). exact H.
Qed.

Lemma read_indices_dense_mono d d' c t bv off n buf p s :
  extends d d' -> read_indices_dense d c t bv off n buf p = Ok s ->
  read_indices_dense d' c t bv off n buf p = Ok s.
Proof.
  intros E H. unfold read_indices_dense in *. inv_ok H. rewrite Hx. cbn [bind].
  inv_ok H. rewrite (read_dense_mono _ _ _ _ _ _ _ _ _ E Hx0). exact H.
Qed.

Theorem ReadAccessor_mono d d' a buf p s :
  extends d d' -> ReadAccessor d a buf p = Ok s -> ReadAccessor d' a buf p = Ok s.
Proof.
  intros E H. unfold ReadAccessor in *. inv_ok H.
  rewrite (read_dense_mono _ _ _ _ _ _ _ _ _ E Hx). cbn [bind].
  destruct (acr_Sparse a) as [sp|]; [|exact H].
  inv_ok H. rewrite (read_indices_dense_mono _ _ _ _ _ _ _ _ _ _ E Hx0). cbn [bind].
  inv_ok H. rewrite (read_dense_mono _ _ _ _ _ _ _ _ _ E Hx1). exact H.
Qed.

(** ** The dense part on a valid range *)
Lemma ReadBufferView_ok d v kb b vo vl :
  bvw_Buffer v = Z.of_nat kb -> nth_error (doc_Buffers d) kb = Some (Some b) ->
  bvw_ByteOffset v = Z.of_nat vo -> bvw_ByteLength v = Z.of_nat vl ->
  (vo + vl <= List.length (buf_Data b))%nat -> zlen (buf_Data b) < 2 ^ 63 ->
  ReadBufferView d (Some v) = Ok (sub (buf_Data b) vo vl).
Proof.
  intros Hb Hn Ho Hl Hr H63. unfold ReadBufferView. cbn [deref bind]. rewrite Hb, Ho, Hl.
  assert (kb < List.length (doc_Buffers d))%nat by (apply nth_error_Some; congruence).
  destruct (zlen (doc_Buffers d) <=? Z.of_nat kb) eqn:E; [unfold zlen in E; lia|].
  rewrite (index_ok _ _ _ Hn). cbn [bind deref].
  rewrite i64_id by (unfold in_i64, zlen in *; lia).
  destruct (zlen (buf_Data b) <? Z.of_nat vo + Z.of_nat vl) eqn:E2; [unfold zlen in *; lia|].
  unfold slice_range. destruct ((0 <=? Z.of_nat vo) && _ && _) eqn:E3; [|lia].
  unfold sub. f_equal. f_equal; [lia|]. f_equal. lia.
Qed.

Lemma readBufferView_ok d k v kb b vo vl :
  nth_error (doc_BufferViews d) k = Some (Some v) ->
  bvw_Buffer v = Z.of_nat kb -> nth_error (doc_Buffers d) kb = Some (Some b) ->
  bvw_ByteOffset v = Z.of_nat vo -> bvw_ByteLength v = Z.of_nat vl ->
  (vo + vl <= List.length (buf_Data b))%nat -> zlen (buf_Data b) < 2 ^ 63 ->
  readBufferView d (Z.of_nat k) = Ok (sub (buf_Data b) vo vl).
Proof.
  intros Hk. intros. unfold readBufferView.
  assert (k < List.length (doc_BufferViews d))%nat by (apply nth_error_Some; congruence).
  destruct (zlen (doc_BufferViews d) <=? Z.of_nat k) eqn:E; [unfold zlen in E; lia|].
  rewrite (index_ok _ _ _ Hk). cbn [bind]. eapply ReadBufferView_ok; eauto.
Qed.

Lemma decode_elem_sub c t b off n p :
  ct_valid c = true -> at_valid t = true ->
  (p + element_size c t <= n)%nat -> (off + n <= List.length b)%nat ->
  decode_elem c t (sub b off n) p = decode_elem c t b (off + p).
Proof.
  intros Hc Ht Hp Hn. unfold decode_elem. apply map_ext_in. intros f Hf. apply in_seq in Hf.
  pose proof (flat_offset_bound c t f Hc Ht ltac:(lia)) as HB.
  f_equal. apply nth_error_ext. intros i. rewrite !nth_error_sub.
  destruct (i <? comp_bytes c)%nat eqn:E; [|reflexivity].
  destruct (p + flat_offset c t f + i <? n)%nat eqn:E2; [f_equal; lia|lia].
Qed.

Lemma skipn_sub {A} (b : list A) off n k :
  (k <= n)%nat -> skipn k (sub b off n) = sub b (off + k) (n - k).
Proof.
  intros Hk. apply nth_error_ext. intros i. rewrite nth_error_skipn', !nth_error_sub.
  destruct (k + i <? n)%nat eqn:E1; destruct (i <? n - k)%nat eqn:E2; try lia; auto.
  f_equal. lia.
Qed.

(** When the elements of (c,t) are taken every [st] bytes by Read. *)
Definition readable (c : ComponentType) (t : AccessorType) (st avail n : nat) : Prop :=
  reads_strided (SK c t) st \/ (c = CByte /\ t = AScalar /\ (st <= 1)%nat /\ avail = n).

Lemma read_dense_ok d c t k v kb b vo vl st ao n buffer :
  ct_valid c = true -> at_valid t = true ->
  nth_error (doc_BufferViews d) k = Some (Some v) ->
  bvw_Buffer v = Z.of_nat kb -> nth_error (doc_Buffers d) kb = Some (Some b) ->
  bvw_ByteOffset v = Z.of_nat vo -> bvw_ByteLength v = Z.of_nat vl -> bvw_ByteStride v = Z.of_nat st ->
  (vo + vl <= List.length (buf_Data b))%nat -> zlen (buf_Data b) < 2 ^ 63 ->
  (ao <= vl)%nat -> (st = 0 \/ element_size c t <= st)%nat ->
  (ao + needed c t (eff_stride c t st) n <= vl)%nat ->
  fits c t (eff_stride c t st) n -> readable c t st (vl - ao) n ->
  Z.of_nat (n * mem_size c t) <= max_alloc ->
  (buffer = [] \/ ~ (c = CUint /\ t = AMat3)) ->
  read_dense d c t (Some (Z.of_nat k)) (Z.of_nat ao) (Z.of_nat n) buffer =
  Ok (mkSlice (SK c t)
        (map (fun i => decode_elem c t (buf_Data b) (vo + ao + eff_stride c t st * i)) (seq 0 n))).
Proof.
  intros Hc Ht Hk Hkb Hb Hvo Hvl Hst Hr H63 Hao Hs Hn HF HR HM HB.
  unfold read_dense. rewrite MakeSliceBuffer_ok by auto. cbn [bind].
  erewrite readBufferView_ok by eauto. cbn [bind].
  rewrite (index_ok _ _ _ Hk). cbn [bind deref].
  unfold slice_from.
  assert (L : List.length (sub (buf_Data b) vo vl) = vl) by (apply sub_length; auto).
  destruct ((0 <=? Z.of_nat ao) && (Z.of_nat ao <=? zlen (sub (buf_Data b) vo vl))) eqn:E;
    [|unfold zlen in E; lia].
  cbn [bind]. rewrite Nat2Z.id, skipn_sub by auto. rewrite Hst.
  set (e := eff_stride c t st) in *.
  pose proof (element_size_pos c t Hc Ht) as Hpos.
  assert (He : (element_size c t <= e)%nat).
  { unfold e, eff_stride. destruct (st =? 0)%nat eqn:E0; lia. }
  assert (Hk' : kind_ct (SK c t) = Some (c, t)) by (cbn; rewrite Hc, Ht; reflexivity).
  assert (L2 : List.length (sub (buf_Data b) (vo + ao) (vl - ao)) = (vl - ao)%nat) by (apply sub_length; lia).
  assert (D : forall i, In i (seq 0 n) ->
    decode_elem c t (sub (buf_Data b) (vo + ao) (vl - ao)) (e * i) = decode_elem c t (buf_Data b) (vo + ao + e * i)).
  { intros i Hi. apply in_seq in Hi. apply decode_elem_sub; auto; [|lia].
    unfold needed in Hn. destruct n; [lia|]. nia. }
  assert (Hold : List.length (map (buffer_elem c t buffer) (seq 0 n)) = n) by (rewrite map_length, seq_length; auto).
  destruct HR as [HR|(-> & -> & Hs1 & Hav)].
  - rewrite Read_strided with (c := c) (t := t); auto.
    + rewrite Hold. fold e. f_equal. f_equal. apply map_ext_in. exact D.
    + rewrite Hold. exact HF.
    + rewrite L2. unfold zlen in H63. lia.
    + rewrite Hold, L2. fold e. lia.
  - rewrite Read_int8_exact; auto.
    + rewrite Hold. f_equal. f_equal. apply map_ext_in. intros i Hi. rewrite <- D by auto.
      replace e with 1%nat; auto. unfold e, eff_stride. destruct (st =? 0)%nat eqn:E0; [reflexivity|lia].
    + rewrite L2. unfold zlen in H63. lia.
    + rewrite L2, Hold. auto.
Qed.
