(** Properties of modeler/read.go: C16-C23 (float conversions of C22 in
    PropsNorm.v). *)
From Verif Require Import BaseFacts Types Binary SpecLayout BinaryProofs SliceProofs Doc F64 SpecDoc
  ModelerWrite ModelerRead ModelerWriteProofs ModelerReadProofs ModelerSparseProofs ModelerReadSpecProofs.

(** Documents used as examples: one buffer, and views (offset, length, stride). *)
Definition rd_view (v : Z * Z * Z) : option BufferView :=
  let '(o, l, s) := v in
  Some (set_bvw_ByteOffset o (set_bvw_ByteLength l (set_bvw_ByteStride s zero_BufferView))).
Definition rd_doc (data : list Z) (views : list (Z * Z * Z)) : Document :=
  set_doc_Buffers [Some (set_buf_ByteLength (zlen data) (set_buf_Data (map z2b data) zero_Buffer))]
   (set_doc_BufferViews (map rd_view views) zero_Document).
Definition rd_acr (bv : option Z) (off : Z) (c : ComponentType) (t : AccessorType) (count : Z) : Accessor :=
  set_acr_BufferView bv (set_acr_ByteOffset off (set_acr_ComponentType c (set_acr_Type t (set_acr_Count count zero_Accessor)))).
Definition rd_sparse (count : Z) (iv io : Z) (c : ComponentType) (vv vo : Z) : Sparse :=
  set_spa_Count count
   (set_spa_Indices (set_spi_BufferView iv (set_spi_ByteOffset io (set_spi_ComponentType c zero_SparseIndices)))
    (set_spa_Values (set_spv_BufferView vv (set_spv_ByteOffset vo zero_SparseValues)) zero_Sparse)).

(** ** C16 *)
(** No panic when nil entries, negative fields, overflowing sums, sparse
    indices beyond the accessor, []int8 views longer than the accessor and
    impossible allocations are excluded.  View and buffer indices may be out of
    range, and views and buffers too short. *)
Theorem C16_no_panic_partial :
  forall d a buf p,
  (buf = [] /\ p_val p = [] \/ ~ (acr_ComponentType a = CUint /\ acr_Type a = AMat3)) ->
  countable (acr_ComponentType a) (acr_Type a) (acr_Count a) ->
  (forall i, acr_BufferView a = Some i ->
     view_safe d (acr_ComponentType a) (acr_Type a) i (acr_ByteOffset a) (acr_Count a)) ->
  (forall sp, acr_Sparse a = Some sp ->
     let ci := spi_ComponentType (spa_Indices sp) in
     countable ci AScalar (spa_Count sp) /\ countable (acr_ComponentType a) (acr_Type a) (spa_Count sp) /\
     view_safe d ci AScalar (spi_BufferView (spa_Indices sp)) (spi_ByteOffset (spa_Indices sp)) (spa_Count sp) /\
     view_safe d (acr_ComponentType a) (acr_Type a) (spv_BufferView (spa_Values sp)) (spv_ByteOffset (spa_Values sp)) (spa_Count sp) /\
     forall idx, ReadIndices d (index_accessor sp) [] [] fresh_pools = Ok idx ->
       Forall (fun x => 0 <= x < acr_Count a) idx) ->
  ReadAccessor d a buf p <> Panic.
Proof. exact ReadAccessor_no_panic. Qed.
Print Assumptions C16_no_panic_partial.

(** Each excluded case does panic. *)
Theorem C16_no_panic_refuted :
  let d := rd_doc [1; 2; 3; 4] [(0, 4, 0)] in
  let run := fun d a => ReadAccessor d a [] fresh_pools in
  run d (rd_acr (Some (-1)) 0 CUbyte AScalar 1) = Panic /\                     (* negative view index *)
  run (set_doc_BufferViews [None] d) (rd_acr (Some 0) 0 CUbyte AScalar 1) = Panic /\    (* null view *)
  run (set_doc_Buffers [None] d) (rd_acr (Some 0) 0 CUbyte AScalar 1) = Panic /\        (* null buffer *)
  run d (rd_acr (Some 0) 5 CUbyte AScalar 1) = Panic /\                        (* byteOffset past the view *)
  run d (rd_acr (Some 0) (-1) CUbyte AScalar 1) = Panic /\                     (* negative byteOffset *)
  run d (rd_acr None 0 CUbyte AScalar (-1)) = Panic /\                         (* negative count *)
  run d (rd_acr None 0 CUbyte AScalar (2 ^ 50)) = Panic /\                     (* huge count *)
  run (rd_doc [1] [(-1, 1, 0)]) (rd_acr (Some 0) 0 CUbyte AScalar 1) = Panic /\         (* negative view offset *)
  run (rd_doc [1] [(1, -1, 0)]) (rd_acr (Some 0) 0 CUbyte AScalar 1) = Panic /\         (* negative view length *)
  run (rd_doc [1] [(1, 2 ^ 63 - 1, 0)]) (rd_acr (Some 0) 0 CUbyte AScalar 1) = Panic /\ (* off+len overflows *)
  run (rd_doc [1; 2; 3; 4] [(0, 4, 2 ^ 63 - 1)]) (rd_acr (Some 0) 0 CUshort AScalar 2) = Panic /\ (* stride overflow *)
  run (rd_doc [1; 2; 3; 4] [(0, 4, -2)]) (rd_acr (Some 0) 0 CUshort AScalar 2) = Panic /\         (* negative stride *)
  run d (rd_acr (Some 0) 0 CByte AScalar 3) = Panic /\                         (* []int8 shorter than the view *)
  run d (set_acr_Sparse (Some (rd_sparse 1 0 0 CUbyte 0 1)) (rd_acr None 0 CUbyte AScalar 1)) = Panic /\ (* index 1 of 1 *)
  ReadAccessor d (rd_acr (Some 0) 0 CUint AMat3 0) (zeros 1) fresh_pools = Panic.  (* [3][3]uint32 and a buffer *)
Proof. vm_compute. repeat split. Qed.
Print Assumptions C16_no_panic_refuted.

(** Out-of-range references and short data are reported as errors. *)
Theorem C16_out_of_range_errors :
  forall d a buf p i,
  (buf = [] \/ ~ (acr_ComponentType a = CUint /\ acr_Type a = AMat3)) ->
  countable (acr_ComponentType a) (acr_Type a) (acr_Count a) ->
  acr_BufferView a = Some i ->
  (zlen (doc_BufferViews d) <= i \/
   exists v, 0 <= i /\ nth_error (doc_BufferViews d) (Z.to_nat i) = Some (Some v) /\
     (zlen (doc_Buffers d) <= bvw_Buffer v \/
      exists b, 0 <= bvw_Buffer v /\ nth_error (doc_Buffers d) (Z.to_nat (bvw_Buffer v)) = Some (Some b) /\
        0 <= bvw_ByteOffset v /\ 0 <= bvw_ByteLength v /\
        bvw_ByteOffset v + bvw_ByteLength v < 2 ^ 63 /\ zlen (buf_Data b) < bvw_ByteOffset v + bvw_ByteLength v)) ->
  exists e, ReadAccessor d a buf p = Err e.
Proof.
  intros d a buf p i HU [H0 HM] Hi H. unfold ReadAccessor, read_dense.
  destruct (ct_valid (acr_ComponentType a) && at_valid (acr_Type a)) eqn:V.
  2:{ destruct (MakeSliceBuffer_invalid _ _ (acr_Count a) buf V) as [[e He] _]. rewrite He. cbn. eauto. }
  apply andb_true_iff in V as [Hc Ht].
  rewrite <- (Z2Nat.id (acr_Count a) H0). rewrite MakeSliceBuffer_ok; auto; [|nia]. cbn [bind]. rewrite Hi.
  assert (E : exists e, readBufferView d i = Err e).
  { unfold readBufferView. destruct (zlen (doc_BufferViews d) <=? i) eqn:E1; [eauto|].
    destruct H as [H|(v & Hi0 & Hv & H)]; [lia|].
    replace i with (Z.of_nat (Z.to_nat i)) by lia. rewrite (index_ok _ _ _ Hv). cbn [bind].
    unfold ReadBufferView. cbn [deref bind].
    destruct (zlen (doc_Buffers d) <=? bvw_Buffer v) eqn:E2; [eauto|].
    destruct H as [H|(b & Hb0 & Hb & O0 & L0 & S63 & Hs)]; [lia|].
    replace (bvw_Buffer v) with (Z.of_nat (Z.to_nat (bvw_Buffer v))) by lia. rewrite (index_ok _ _ _ Hb). cbn [bind deref].
    rewrite i64_id by (unfold in_i64; lia). destruct (zlen (buf_Data b) <? _) eqn:E3; [eauto|lia]. }
  destruct E as [e ->]. cbn. eauto.
Qed.
Print Assumptions C16_out_of_range_errors.

Definition ex16_doc := rd_doc [1; 0; 2; 0; 7; 8; 9; 1; 0; 5] [(0, 6, 2); (7, 2, 0); (8, 2, 0); (0, 100, 0)].
Definition ex16_acr := set_acr_Sparse (Some (rd_sparse 1 1 0 CUbyte 2 0)) (rd_acr (Some 0) 0 CUshort AScalar 3).
Example C16_example_views :
  view_safe ex16_doc CUshort AScalar 0 0 3 /\ view_safe ex16_doc CUbyte AScalar 1 0 1 /\
  view_safe ex16_doc CUshort AScalar 2 0 1 /\ view_safe ex16_doc CFloat AVec3 7 0 1 /\
  view_safe ex16_doc CFloat AVec3 3 0 1.
Proof.
  repeat split; try (cbn; lia); cbn; intros vo H; try discriminate; injection H as <-;
    eexists; (split; [reflexivity|]); cbn; repeat (split; [try lia|]);
    try (intros _ _; vm_compute; repeat split; discriminate);
    try (intros [H1 H2]; discriminate);
    try (intros bo H; injection H as <-; eexists; split; [reflexivity|reflexivity]).
  all: vm_compute; reflexivity.
Qed.
Example C16_example_run :
  ReadIndices ex16_doc (index_accessor (rd_sparse 1 1 0 CUbyte 2 0)) [] [] fresh_pools = Ok [1] /\
  ReadAccessor ex16_doc ex16_acr [] fresh_pools = Ok (mkSlice (SK CUshort AScalar) [[1]; [1280]; [2055]]) /\
  ReadAccessor ex16_doc (rd_acr (Some 3) 0 CFloat AVec3 1) [] fresh_pools = Err ErrShortBuffer.
Proof. vm_compute. repeat split. Qed.

(** ** C17 *)
Theorem C17_exact_partial :
  forall d v,
  0 <= bvw_Buffer v -> 0 <= bvw_ByteOffset v -> 0 <= bvw_ByteLength v ->
  bvw_ByteOffset v + bvw_ByteLength v < 2 ^ 63 ->
  nth_error (doc_Buffers d) (Z.to_nat (bvw_Buffer v)) <> Some None ->
  (exists b, nth_error (doc_Buffers d) (Z.to_nat (bvw_Buffer v)) = Some (Some b) /\
     bvw_ByteOffset v + bvw_ByteLength v <= zlen (buf_Data b) /\
     ReadBufferView d (Some v) = Ok (sub (buf_Data b) (Z.to_nat (bvw_ByteOffset v)) (Z.to_nat (bvw_ByteLength v)))) \/
  ((forall b, nth_error (doc_Buffers d) (Z.to_nat (bvw_Buffer v)) = Some (Some b) ->
      zlen (buf_Data b) < bvw_ByteOffset v + bvw_ByteLength v) /\
   exists e, ReadBufferView d (Some v) = Err e).
Proof. exact ReadBufferView_exact. Qed.
Print Assumptions C17_exact_partial.

(** For every int64 offset and length: a success is never a wrong range. *)
Theorem C17_sound :
  forall d bv bs, ReadBufferView d bv = Ok bs ->
  exists v b, bv = Some v /\ 0 <= bvw_Buffer v /\
    nth_error (doc_Buffers d) (Z.to_nat (bvw_Buffer v)) = Some (Some b) /\
    0 <= bvw_ByteOffset v /\
    (- 2 ^ 63 <= bvw_ByteLength v < 2 ^ 63 -> bvw_ByteOffset v < 2 ^ 63 -> zlen (buf_Data b) < 2 ^ 63 ->
     0 <= bvw_ByteLength v /\ bvw_ByteOffset v + bvw_ByteLength v <= zlen (buf_Data b) /\
     bs = sub (buf_Data b) (Z.to_nat (bvw_ByteOffset v)) (Z.to_nat (bvw_ByteLength v))).
Proof. exact ReadBufferView_sound. Qed.
Print Assumptions C17_sound.

(** The missing cases panic instead of returning an error. *)
Theorem C17_exact_refuted :
  let d := rd_doc [1; 2; 3; 4] [] in
  ReadBufferView d (rd_view (-1, 1, 0)) = Panic /\
  ReadBufferView d (rd_view (1, -1, 0)) = Panic /\
  ReadBufferView d (rd_view (1, 2 ^ 63 - 1, 0)) = Panic /\
  ReadBufferView d (Some (set_bvw_Buffer (-1) zero_BufferView)) = Panic /\
  ReadBufferView (set_doc_Buffers [None] d) (rd_view (0, 1, 0)) = Panic /\
  ReadBufferView d None = Panic.
Proof. vm_compute. repeat split. Qed.
Print Assumptions C17_exact_refuted.

(** All the cases, for documents that fit in memory: when it panics and when
    it returns an error; otherwise it succeeds, as C17_sound says. *)
Definition in_int (x : Z) : Prop := - 2 ^ 63 <= x < 2 ^ 63.
Theorem C17_panics_iff :
  forall d bv,
  (forall v, bv = Some v -> in_int (bvw_Buffer v) /\ in_int (bvw_ByteOffset v) /\ in_int (bvw_ByteLength v)) ->
  (forall b, In (Some b) (doc_Buffers d) -> zlen (buf_Data b) < 2 ^ 63) ->
  (ReadBufferView d bv = Panic <->
   bv = None \/ exists v, bv = Some v /\
     (bvw_Buffer v < 0 \/ nth_error (doc_Buffers d) (Z.to_nat (bvw_Buffer v)) = Some None \/
      exists b, nth_error (doc_Buffers d) (Z.to_nat (bvw_Buffer v)) = Some (Some b) /\
        let last := bvw_ByteOffset v + bvw_ByteLength v in
        (2 ^ 63 <= last \/
         (bvw_ByteOffset v < 0 \/ bvw_ByteLength v < 0) /\ - 2 ^ 63 <= last <= zlen (buf_Data b) \/
         last + 2 ^ 64 <= zlen (buf_Data b)))).
Proof.
  intros d bv HV HB. unfold ReadBufferView. destruct bv as [v|]; cbn [deref bind]; [|split; [left; reflexivity|reflexivity]].
  destruct (HV v eq_refl) as (V1 & V2 & V3). unfold in_int in *. clear HV.
  destruct (Z.leb_spec (zlen (doc_Buffers d)) (bvw_Buffer v)) as [L|L].
  { assert (N : nth_error (doc_Buffers d) (Z.to_nat (bvw_Buffer v)) = None) by (apply nth_error_None; unfold zlen in L; lia).
    split; [discriminate|]. intros [E|(w & E & E')]; [discriminate|]. apply (f_equal (fun o => match o with Some x => x | None => w end)) in E. subst w.
    rewrite N in E'. pose proof (zlen_nonneg (doc_Buffers d)). destruct E' as [E'|[E'|(b & E' & _)]]; [lia|discriminate..]. }
  assert (G : forall P : BufferView -> Prop, (Some v = None \/ exists w, Some v = Some w /\ P w) <-> P v).
  { intros P. split; [intros [E|(w & E & H)]; [discriminate|injection E as <-; exact H]|intros H; right; exists v; auto]. }
  rewrite G. clear G. unfold index. destruct (Z.leb_spec 0 (bvw_Buffer v)) as [N|N]; [|split; [left; lia|reflexivity]].
  replace (bvw_Buffer v <? zlen (doc_Buffers d)) with true by lia. cbn [andb].
  destruct (nth_error (doc_Buffers d) (Z.to_nat (bvw_Buffer v))) as [[b|]|] eqn:E; cbn [bind deref].
  2:{ split; [right; left; reflexivity|reflexivity]. }
  2:{ apply nth_error_None in E. unfold zlen in L. lia. }
  specialize (HB b (nth_error_In _ _ E)). pose proof (zlen_nonneg (buf_Data b)) as B0.
  assert (G : forall P : Buffer -> Prop, (bvw_Buffer v < 0 \/ Some (Some b) = Some None \/ exists w, Some (Some b) = Some (Some w) /\ P w) <-> P b).
  { intros P. split; [intros [H|[H|(w & H & HP)]]; [lia|discriminate|]|intros H; right; right; exists b; auto].
    apply (f_equal (fun o => match o with Some (Some x) => x | _ => w end)) in H. subst w. exact HP. }
  rewrite G. clear G. cbv zeta. set (o := bvw_ByteOffset v) in *. set (l := bvw_ByteLength v) in *.
  assert (CS : i64 (o + l) = o + l /\ - 2 ^ 63 <= o + l < 2 ^ 63 \/ i64 (o + l) = o + l - 2 ^ 64 /\ 2 ^ 63 <= o + l \/ i64 (o + l) = o + l + 2 ^ 64 /\ o + l < - 2 ^ 63).
  { destruct (Z_lt_le_dec (o + l) (2 ^ 63)); [destruct (Z_lt_le_dec (o + l) (- 2 ^ 63))|].
    - right. right. split; [|assumption]. unfold i64. change (2 ^ 64) with 18446744073709551616 in *. change (2 ^ 63) with 9223372036854775808 in *. Z.to_euclidean_division_equations. lia.
    - left. split; [|lia]. apply i64_id. unfold in_i64. lia.
    - right. left. split; [|assumption]. unfold i64. change (2 ^ 64) with 18446744073709551616 in *. change (2 ^ 63) with 9223372036854775808 in *. Z.to_euclidean_division_equations. lia. }
  set (h := i64 (o + l)) in *. clearbody h. change (2 ^ 64) with 18446744073709551616 in *. change (2 ^ 63) with 9223372036854775808 in *.
  destruct (Z.ltb_spec (zlen (buf_Data b)) h); [split; [discriminate|lia]|].
  unfold slice_range. destruct ((0 <=? o) && (o <=? h) && (h <=? zlen (buf_Data b))) eqn:S; [split; [discriminate|lia]|].
  split; [intros _; lia|reflexivity].
Qed.
Print Assumptions C17_panics_iff.
Example C17_panics_hypotheses :
  let d := rd_doc [1; 2; 3; 4] [] in
  in_int (2 ^ 63 - 1) /\ (forall b, In (Some b) (doc_Buffers d) -> zlen (buf_Data b) < 2 ^ 63) /\
  ReadBufferView d (rd_view (-2, 3, 0)) = Panic /\ ReadBufferView d (rd_view (-2, 30, 0)) = Err ErrShortBuffer.
Proof.
  cbv zeta. split; [unfold in_int; lia|]. split; [|split; vm_compute; reflexivity].
  intros b [E|[]]. apply (f_equal (fun o => match o with Some x => zlen (buf_Data x) | None => 0 end)) in E. rewrite <- E. vm_compute. reflexivity.
Qed.

Example C17_example :
  ReadBufferView (rd_doc [1; 2; 3; 4] []) (rd_view (1, 2, 0)) = Ok (map z2b [2; 3]) /\
  ReadBufferView (rd_doc [1; 2; 3; 4] []) (rd_view (3, 2, 0)) = Err ErrShortBuffer /\
  exists e, ReadBufferView (rd_doc [1; 2; 3; 4] []) (Some (set_bvw_Buffer 1 zero_BufferView)) = Err e.
Proof. vm_compute. repeat split. eexists. reflexivity. Qed.

(** ** C18 *)
Theorem C18_sparse_overlay_partial :
  forall d a sp buffer p c t n base ni idx vals ii io vi vo,
  acr_ComponentType a = c -> acr_Type a = t -> ct_valid c = true -> at_valid t = true ->
  acr_Count a = Z.of_nat n -> countable c t (Z.of_nat n) ->
  (match acr_BufferView a with
   | Some i => exists k o, i = Z.of_nat k /\ acr_ByteOffset a = Z.of_nat o /\ seq_at d k o c t n base /\
                 (buffer = [] \/ ~ (c = CUint /\ t = AMat3))
   | None => buffer = [] /\ base = repeat (zero_elem t) n
   end) ->
  acr_Sparse a = Some sp -> spa_Count sp = Z.of_nat ni ->
  index_type (spi_ComponentType (spa_Indices sp)) ->
  spi_BufferView (spa_Indices sp) = Z.of_nat ii -> spi_ByteOffset (spa_Indices sp) = Z.of_nat io ->
  seq_at d ii io (spi_ComponentType (spa_Indices sp)) AScalar ni (map (fun x => [x]) idx) ->
  spv_BufferView (spa_Values sp) = Z.of_nat vi -> spv_ByteOffset (spa_Values sp) = Z.of_nat vo ->
  seq_at d vi vo c t ni vals ->
  countable (spi_ComponentType (spa_Indices sp)) AScalar (Z.of_nat ni) -> countable c t (Z.of_nat ni) ->
  (p_val p = [] \/ ~ (c = CUint /\ t = AMat3)) ->
  Forall (fun x => 0 <= x < Z.of_nat n) idx ->
  exists r, ReadAccessor d a buffer p = Ok (mkSlice (SK c t) r) /\ overlaid base idx vals r.
Proof. exact ReadAccessor_sparse. Qed.
Print Assumptions C18_sparse_overlay_partial.

(** Missing: without a buffer view and with a used reuse buffer, the elements
    not substituted keep the buffer's contents instead of zero; and []uint8
    values with a stride above 1 are taken packed (C04). *)
Theorem C18_sparse_overlay_refuted :
  let d := rd_doc [10; 0; 11; 0; 12; 0;  2; 0; 2;  20; 0; 21; 0; 22; 0] [(0, 6, 0); (6, 3, 0); (9, 6, 0); (9, 6, 2)] in
  let a := fun vv c => set_acr_Sparse (Some (rd_sparse 3 1 0 CUbyte vv 0)) (rd_acr None 0 c AScalar 3) in
  ReadAccessor d (a 2 CUshort) (map z2b [1; 1; 1; 1; 1; 1]) fresh_pools =
    Ok (mkSlice (SK CUshort AScalar) [[21]; [257]; [22]]) /\
  ReadAccessor d (a 3 CUbyte) [] fresh_pools = Ok (mkSlice (SK CUbyte AScalar) [[0]; [0]; [21]]).
Proof. vm_compute. split; reflexivity. Qed.
Print Assumptions C18_sparse_overlay_refuted.

(** [overlaid] determines the result. *)
Theorem C18_overlay_unique :
  forall base idx vals r1 r2,
  overlaid base idx vals r1 -> overlaid base idx vals r2 -> r1 = r2.
Proof.
  intros base idx vals r1 r2 [L1 H1] [L2 H2]. apply nth_error_ext. intros p.
  destruct (Nat.lt_ge_cases p (List.length base)) as [Hp|Hp].
  - destruct (H1 p Hp) as [(k1 & I1 & A1 & V1)|(N1 & V1)], (H2 p Hp) as [(k2 & I2 & A2 & V2)|(N2 & V2)].
    + assert (k1 = k2); [|congruence]. destruct (Nat.lt_trichotomy k1 k2) as [H|[H|H]]; auto.
      * exfalso. eapply A1; eauto.
      * exfalso. eapply A2; eauto.
    + exfalso. eapply N2; eauto.
    + exfalso. eapply N1; eauto.
    + congruence.
  - rewrite !(proj2 (nth_error_None _ _)) by lia. reflexivity.
Qed.
Print Assumptions C18_overlay_unique.

(** Non-vacuity: three indices, one repeated. *)
Definition ex18_doc := rd_doc [10; 0; 11; 0; 12; 0;  2; 0; 2;  20; 0; 21; 0; 22; 0] [(0, 6, 0); (6, 3, 0); (9, 6, 0)].
Definition ex18_acr (bv : option Z) := set_acr_Sparse (Some (rd_sparse 3 1 0 CUbyte 2 0)) (rd_acr bv 0 CUshort AScalar 3).
Lemma ex_seq d i v b n vs c t :
  nth_error (doc_BufferViews d) i = Some (Some v) -> bvw_Buffer v = 0 ->
  nth_error (doc_Buffers d) 0 = Some (Some b) -> 0 <= bvw_ByteOffset v -> 0 <= bvw_ByteLength v -> bvw_ByteStride v = 0 ->
  bvw_ByteOffset v + bvw_ByteLength v <= zlen (buf_Data b) -> zlen (buf_Data b) < 1000 ->
  (needed c t (element_size c t) n <= Z.to_nat (bvw_ByteLength v))%nat -> (element_size c t <= 64)%nat -> (n < 100)%nat ->
  SK c t <> SK CByte AScalar ->
  vs = map (fun k => decode_elem c t (buf_Data b) (Z.to_nat (bvw_ByteOffset v) + element_size c t * k)) (seq 0 n) ->
  ct_valid c = true -> at_valid t = true ->
  seq_at d i 0 c t n vs.
Proof.
  intros H1 H2 H3 H4 H5 H6 H7 H8 H9 H10 Hn H11 H12 Hc Ht. exists v, 0%nat, b, (Z.to_nat (bvw_ByteOffset v)), (Z.to_nat (bvw_ByteLength v)), 0%nat.
  split; auto. split; auto. split; auto. split; [lia|]. split; [lia|]. split; auto. unfold zlen in *.
  split; [lia|]. split; [lia|]. split; [lia|]. split; [lia|].
  assert (He : eff_stride c t 0 = element_size c t) by reflexivity. rewrite He.
  split; [lia|]. split.
  { unfold fits. repeat split; nia. }
  split; [left; split; [auto|lia]|]. subst vs. split; [rewrite map_length, seq_length; reflexivity|].
  intros k w Hw. rewrite nth_error_map in Hw. destruct (nth_error (seq 0 n) k) as [k'|] eqn:Ek; [|discriminate].
  assert (k < n)%nat. { rewrite <- (seq_length n 0). apply nth_error_Some. congruence. }
  rewrite (nth_error_nth' _ 0%nat) in Ek by (rewrite seq_length; auto). rewrite seq_nth in Ek by auto.
  injection Ek as <-. injection Hw as <-. cbn [Nat.add].
  unfold needed in H9. rewrite Nat.add_0_r. 
  assert (Z.to_nat (bvw_ByteOffset v) + element_size c t * k + element_size c t <= List.length (buf_Data b))%nat.
  { destruct n; [lia|]. nia. }
  split; [apply decode_elem_wf|apply decode_elem_stored]; auto.
Qed.
Example C18_example :
  seq_at ex18_doc 0 0 CUshort AScalar 3 [[10]; [11]; [12]] /\
  seq_at ex18_doc 1 0 CUbyte AScalar 3 (map (fun x => [x]) [2; 0; 2]) /\
  seq_at ex18_doc 2 0 CUshort AScalar 3 [[20]; [21]; [22]] /\
  overlaid [[10]; [11]; [12]] [2; 0; 2] [[20]; [21]; [22]] [[21]; [11]; [22]].
Proof.
  split; [|split; [|split]].
  1-3: eapply ex_seq; try reflexivity; vm_compute; try discriminate; try reflexivity; lia.
  split; [reflexivity|]. intros p Hp. destruct p as [|[|[|p]]]; cbn in Hp; [| | |lia].
  - left. exists 1%nat. split; [reflexivity|]. split; [|reflexivity]. intros [|[|[|[|k']]]] Hk; cbn; try lia; discriminate.
  - right. split; [|reflexivity]. intros [|[|[|[|k]]]]; discriminate.
  - left. exists 2%nat. split; [reflexivity|]. split; [|reflexivity]. intros [|[|[|[|k']]]] Hk; cbn; try lia; discriminate.
Qed.
Example C18_example_run :
  ReadAccessor ex18_doc (ex18_acr (Some 0)) (zeros 3) fresh_pools = Ok (mkSlice (SK CUshort AScalar) [[21]; [11]; [22]]) /\
  ReadAccessor ex18_doc (ex18_acr None) [] fresh_pools = Ok (mkSlice (SK CUshort AScalar) [[21]; [0]; [22]]).
Proof. vm_compute. split; reflexivity. Qed.

(** ** C19 *)
Theorem C19_buffer_independent_partial :
  forall d a p b1 b2, reusable d a -> ReadAccessor d a b1 p = ReadAccessor d a b2 p.
Proof. intros. apply ReadAccessor_indep. assumption. Qed.
Print Assumptions C19_buffer_independent_partial.

(** Missing: an accessor without a buffer view returns what was in the buffer
    instead of zeros; [3][3]uint32 panics only with a buffer; a []uint8 view
    with a negative stride leaves elements of the buffer unread. *)
Theorem C19_buffer_independent_refuted :
  let d := rd_doc [1; 2; 3; 4] [(0, 4, 0); (0, 1, -1)] in
  let a := rd_acr None 0 CUbyte AScalar 2 in
  ReadAccessor d a [] fresh_pools = Ok (mkSlice (SK CUbyte AScalar) [[0]; [0]]) /\
  ReadAccessor d a (map z2b [7; 8; 9]) fresh_pools = Ok (mkSlice (SK CUbyte AScalar) [[7]; [8]]) /\
  ReadAccessor d (rd_acr None 0 CUint AMat3 0) [] fresh_pools = Ok (mkSlice (SK CUint AMat3) []) /\
  ReadAccessor d (rd_acr None 0 CUint AMat3 0) (zeros 1) fresh_pools = Panic /\
  ReadAccessor d (rd_acr (Some 1) 0 CUbyte AScalar 2) [] fresh_pools = Ok (mkSlice (SK CUbyte AScalar) [[1]; [0]]) /\
  ReadAccessor d (rd_acr (Some 1) 0 CUbyte AScalar 2) (map z2b [7; 8]) fresh_pools = Ok (mkSlice (SK CUbyte AScalar) [[1]; [8]]).
Proof. vm_compute. repeat split. Qed.
Print Assumptions C19_buffer_independent_refuted.

Example C19_example : reusable ex18_doc (ex18_acr (Some 0)).
Proof.
  split; [intros [[=] _]|]. split; [vm_compute; discriminate|]. split.
  - exists 0. split; [reflexivity|]. intros [[=]|[=]].
  - cbn. split; [vm_compute; discriminate|]. split; [vm_compute; discriminate|]. split.
    + intros _ v [= <-]. cbn. split; [lia|]. vm_compute. repeat split.
    + intros [[=]|[=]].
Qed.

(** ** C20 *)
(** The state a helper can see of earlier reads is what the pools hand out. *)
Theorem C20_history_independent_partial :
  forall cv d a pool1 pool2 p1 p2, reusable d a ->
  (forall buf, acr_Count a <> 0 \/ buf = [] -> ReadIndices d a buf pool1 p1 = ReadIndices d a buf pool2 p2) /\
  (forall buf, acr_Count a <> 0 \/ buf = [] ->
     ReadNormal d a buf pool1 p1 = ReadNormal d a buf pool2 p2 /\
     ReadTangent d a buf pool1 p1 = ReadTangent d a buf pool2 p2 /\
     ReadPosition d a buf pool1 p1 = ReadPosition d a buf pool2 p2 /\
     ReadInverseBindMatrices d a buf pool1 p1 = ReadInverseBindMatrices d a buf pool2 p2 /\
     ReadTextureCoord cv d a buf pool1 p1 = ReadTextureCoord cv d a buf pool2 p2 /\
     ReadWeights cv d a buf pool1 p1 = ReadWeights cv d a buf pool2 p2 /\
     ReadJoints d a buf pool1 p1 = ReadJoints d a buf pool2 p2 /\
     ReadColor cv d a buf pool1 p1 = ReadColor cv d a buf pool2 p2 /\
     ReadColor64 cv d a buf pool1 p1 = ReadColor64 cv d a buf pool2 p2).
Proof.
  intros cv d a pool1 pool2 p1 p2 HR. split; [|intros buf Hb; repeat split]; try intros buf Hb;
    eapply typed_by_indep; eauto using ReadIndices_by, ReadNormal_by, ReadTangent_by, ReadPosition_by,
      ReadInverseBindMatrices_by, ReadTextureCoord_by, ReadWeights_by, ReadJoints_by, ReadColor_by, ReadColor64_by; tauto.
Qed.
Print Assumptions C20_history_independent_partial.

(** Missing: accessors without a buffer view show data of the previous read. *)
Theorem C20_history_independent_refuted :
  let d := rd_doc [0; 1; 2; 3; 4; 5; 6; 7; 8; 9; 10; 11] [(0, 12, 0)] in
  let first := rd_acr (Some 0) 0 CFloat AVec3 1 in
  let second := rd_acr None 0 CFloat AVec3 1 in
  ReadPosition d second [] fresh_buf fresh_pools = Ok [[0; 0; 0]] /\
  read_then_read (fun pool p => ReadPosition d first [] pool p) first d
                 (fun pool p => ReadPosition d second [] pool p) = Ok [[0x03020100; 0x07060504; 0x0b0a0908]].
Proof. vm_compute. split; reflexivity. Qed.
Print Assumptions C20_history_independent_refuted.

(** ** C21 *)
Theorem C21_ReadAccessor_count :
  forall d a buf p s, ReadAccessor d a buf p = Ok s -> zlen (els s) = acr_Count a.
Proof. intros d a buf p s H. apply ReadAccessor_count in H. tauto. Qed.
Print Assumptions C21_ReadAccessor_count.

Theorem C21_helpers_count_partial :
  forall cv d a pool p,
  (forall buf r, acr_Count a <> 0 \/ buf = [] -> ReadIndices d a buf pool p = Ok r -> zlen r = acr_Count a) /\
  (forall buf r, acr_Count a <> 0 \/ buf = [] ->
     ReadNormal d a buf pool p = Ok r \/ ReadTangent d a buf pool p = Ok r \/ ReadPosition d a buf pool p = Ok r \/
     ReadInverseBindMatrices d a buf pool p = Ok r \/ ReadTextureCoord cv d a buf pool p = Ok r \/
     ReadWeights cv d a buf pool p = Ok r \/ ReadJoints d a buf pool p = Ok r \/
     ReadColor cv d a buf pool p = Ok r \/ ReadColor64 cv d a buf pool p = Ok r -> zlen r = acr_Count a).
Proof.
  intros cv d a pool p. split.
  - intros. eapply typed_by_count; eauto using ReadIndices_by.
  - intros buf r Hb H. repeat destruct H as [H|H];
    (eapply typed_by_count; [|exact H|exact Hb]); eauto using ReadNormal_by, ReadTangent_by, ReadPosition_by,
      ReadInverseBindMatrices_by, ReadTextureCoord_by, ReadWeights_by, ReadJoints_by, ReadColor_by, ReadColor64_by.
Qed.
Print Assumptions C21_helpers_count_partial.

(** Missing: a reuse buffer comes back whole when Count is 0. *)
Theorem C21_helpers_count_refuted :
  ReadIndices zero_Document (rd_acr None 0 CUint AScalar 0) [1; 2; 3] fresh_buf fresh_pools = Ok [1; 2; 3].
Proof. vm_compute. reflexivity. Qed.
Print Assumptions C21_helpers_count_refuted.

Example C21_example :
  ReadIndices ex18_doc (rd_acr (Some 1) 0 CUbyte AScalar 3) [9; 9; 9; 9; 9] fresh_buf fresh_pools = Ok [2; 0; 2].
Proof. vm_compute. reflexivity. Qed.

(** ** C22 *)
(** Values of the elements read have the range of the component type. *)
Theorem C22_values_in_range :
  forall d a buf p s, ReadAccessor d a buf p = Ok s ->
  Forall (wf_elem (acr_ComponentType a) (acr_Type a)) (els s).
Proof. exact ReadAccessor_wf. Qed.
Print Assumptions C22_values_in_range.

Theorem C22_ReadIndices :
  forall d a buffer pool p data,
  In (acr_ComponentType a) [CUbyte; CUshort; CUint] -> acr_Type a = AScalar -> acr_Count a <> 0 ->
  ReadAccessor d a pool p = Ok data ->
  exists r, ReadIndices d a buffer pool p = Ok r /\ els data = map (fun x => [x]) r.
Proof.
  intros d a buffer pool p data Hc Ht Hn Hr. pose proof (ReadIndices_by d a) as H.
  assert (F : fmt_indices (acr_ComponentType a) (acr_Type a) = Some scalar).
  { rewrite Ht. destruct Hc as [<-|[<-|[<-|[]]]]; reflexivity. }
  rewrite F in H. specialize (H buffer pool p). rewrite Hr in H. destruct H as (r & E & _ & Q).
  exists r. split; auto. rewrite Q by auto. rewrite map_map.
  apply ReadAccessor_wf in Hr. rewrite Ht in Hr. clear -Hr. induction Hr as [|v l [Hv _] _ IH]; [reflexivity|].
  cbn. rewrite <- IH. destruct v as [|x [|y v]]; try discriminate. reflexivity.
Qed.
Print Assumptions C22_ReadIndices.

Theorem C22_ReadJoints :
  forall d a buffer pool p data,
  In (acr_ComponentType a) [CUbyte; CUshort] -> acr_Type a = AVec4 -> acr_Count a <> 0 ->
  ReadAccessor d a pool p = Ok data -> ReadJoints d a buffer pool p = Ok (els data).
Proof.
  intros d a buffer pool p data Hc Ht Hn Hr. pose proof (ReadJoints_by d a) as H.
  assert (F : fmt_joints (acr_ComponentType a) (acr_Type a) = Some ident).
  { rewrite Ht. destruct Hc as [<-|[<-|[]]]; reflexivity. }
  rewrite F in H. specialize (H buffer pool p). rewrite Hr in H. destruct H as (r & E & _ & Q).
  rewrite E, Q by auto. f_equal. apply map_id.
Qed.
Print Assumptions C22_ReadJoints.

(** Float formats are returned bit for bit. *)
Theorem C22_floats_unchanged :
  forall cv d a buffer pool p data,
  acr_ComponentType a = CFloat -> acr_Count a <> 0 -> ReadAccessor d a pool p = Ok data ->
  (acr_Type a = AVec2 -> ReadTextureCoord cv d a buffer pool p = Ok (els data)) /\
  (acr_Type a = AVec4 -> ReadWeights cv d a buffer pool p = Ok (els data) /\ ReadTangent d a buffer pool p = Ok (els data)) /\
  (acr_Type a = AVec3 -> ReadPosition d a buffer pool p = Ok (els data) /\ ReadNormal d a buffer pool p = Ok (els data)) /\
  (acr_Type a = AMat4 -> ReadInverseBindMatrices d a buffer pool p = Ok (els data)).
Proof.
  intros cv d a buffer pool p data Hc Hn Hr.
  assert (G : forall read fmt, typed_by read fmt -> fmt CFloat (acr_Type a) = Some ident -> read d a buffer pool p = Ok (els data)).
  { intros read fmt HT HF. specialize (HT d a). rewrite Hc, HF in HT. specialize (HT buffer pool p). rewrite Hr in HT.
    destruct HT as (r & E & _ & Q). rewrite E, Q by auto. f_equal. apply map_id. }
  split; [|split; [|split]]; intros Ht; rewrite Ht in G; [|split|split|].
  - apply (G _ _ (ReadTextureCoord_by cv)). reflexivity.
  - apply (G _ _ (ReadWeights_by cv)). reflexivity.
  - apply (G _ _ ReadTangent_by). reflexivity.
  - apply (G _ _ ReadPosition_by). reflexivity.
  - apply (G _ _ ReadNormal_by). reflexivity.
  - apply (G _ _ ReadInverseBindMatrices_by). reflexivity.
Qed.
Print Assumptions C22_floats_unchanged.

(** ReadColor64: 8-bit channels times 257, 16-bit channels unchanged, opaque
    alpha added to RGB. *)
Theorem C22_ReadColor64_integers :
  forall cv d a buffer pool p data,
  In (acr_Type a) [AVec3; AVec4] -> acr_Count a <> 0 -> ReadAccessor d a pool p = Ok data ->
  let alpha := match acr_Type a with AVec3 => [65535] | _ => [] end in
  (acr_ComponentType a = CUbyte ->
   ReadColor64 cv d a buffer pool p = Ok (map (fun v => map (fun x => 257 * x) v ++ alpha) (els data))) /\
  (acr_ComponentType a = CUshort ->
   ReadColor64 cv d a buffer pool p = Ok (map (fun v => v ++ alpha) (els data))).
Proof.
  intros cv d a buffer pool p data Ht Hn Hr alpha. pose proof (ReadColor64_by cv d a) as H.
  pose proof (ReadAccessor_wf _ _ _ _ _ Hr) as W.
  assert (X : acr_ComponentType a = CUbyte -> map (fun v => map widen8 v ++ alpha) (els data) =
              map (fun v => map (fun x => 257 * x) v ++ alpha) (els data)).
  { intros Hc. rewrite Hc in W. apply map_ext_in. intros v Hv. rewrite Forall_forall in W. f_equal.
    apply map_ext_in. intros x Hx. destruct (W v Hv) as [_ Wv]. rewrite Forall_forall in Wv.
    apply widen8_257. exact (Wv x Hx). }
  unfold alpha in *. split; intros Hc; try specialize (X Hc); rewrite Hc in H; destruct Ht as [Ht|[Ht|[]]]; rewrite <- Ht in *;
    cbn [fmt_color64] in H; specialize (H buffer pool p); rewrite Hr in H;
    destruct H as (r & E & _ & Q); rewrite E, Q by auto; f_equal.
  - exact X.
  - rewrite <- X. apply map_ext. intros v. symmetry. apply app_nil_r.
  - apply map_ext. intros v. symmetry. apply app_nil_r.
Qed.
Print Assumptions C22_ReadColor64_integers.

Theorem C22_ReadColor_integers_partial :
  forall cv d a buffer pool p data,
  In (acr_Type a) [AVec3; AVec4] -> acr_Count a <> 0 -> ReadAccessor d a pool p = Ok data ->
  acr_ComponentType a = CUbyte ->
  ReadColor cv d a buffer pool p =
  Ok (map (fun v => v ++ match acr_Type a with AVec3 => [255] | _ => [] end) (els data)).
Proof.
  intros cv d a buffer pool p data Ht Hn Hr Hc. pose proof (ReadColor_by cv d a) as H.
  rewrite Hc in H. destruct Ht as [Ht|[Ht|[]]]; rewrite <- Ht in *;
    cbn [fmt_color] in H; specialize (H buffer pool p); rewrite Hr in H;
    destruct H as (r & E & _ & Q); rewrite E, Q by auto; f_equal.
  apply map_ext. intros v. symmetry. apply app_nil_r.
Qed.
Print Assumptions C22_ReadColor_integers_partial.

(** Missing: 16-bit channels are not scaled to 8 bits but truncated; a nearly
    black 0x0100 and mid-gray 0x8000 both give 0, and 0x00ff gives full white. *)
Theorem C22_ReadColor_ushort_refuted :
  forall cv,
  let d := rd_doc [0; 1; 0; 128; 255; 0; 255; 255] [(0, 8, 0)] in
  ReadAccessor d (rd_acr (Some 0) 0 CUshort AVec4 1) [] fresh_pools =
    Ok (mkSlice (SK CUshort AVec4) [[0x0100; 0x8000; 0x00ff; 0xffff]]) /\
  ReadColor cv d (rd_acr (Some 0) 0 CUshort AVec4 1) [] [] fresh_pools = Ok [[0; 0; 255; 255]].
Proof. intros cv. vm_compute. split; reflexivity. Qed.
Print Assumptions C22_ReadColor_ushort_refuted.

Example C22_example :
  forall cv, let d := rd_doc [0; 1; 128; 255; 2; 3; 4; 5] [(0, 8, 0)] in
  ReadAccessor d (rd_acr (Some 0) 0 CUbyte AVec4 2) [] fresh_pools =
    Ok (mkSlice (SK CUbyte AVec4) [[0; 1; 128; 255]; [2; 3; 4; 5]]) /\
  ReadColor64 cv d (rd_acr (Some 0) 0 CUbyte AVec4 2) [] [] fresh_pools = Ok [[0; 257; 32896; 65535]; [514; 771; 1028; 1285]] /\
  ReadJoints d (rd_acr (Some 0) 0 CUbyte AVec4 2) [] [] fresh_pools = Ok [[0; 1; 128; 255]; [2; 3; 4; 5]].
Proof. intros cv. vm_compute. repeat split. Qed.

(** ** C23 *)
(** Formats permitted by glTF 2.0 (3.7.2.1 and 3.7.3.3, indices 3.7.2.1). *)
Definition glTF_format (attr : string) : list ComponentType * list AccessorType :=
  match attr with
  | "indices" => ([CUbyte; CUshort; CUint], [AScalar])
  | "POSITION" => ([CFloat], [AVec3])
  | "NORMAL" => ([CFloat], [AVec3])
  | "TANGENT" => ([CFloat], [AVec4])
  | "TEXCOORD" => ([CFloat; CUbyte; CUshort], [AVec2])
  | "COLOR" => ([CFloat; CUbyte; CUshort], [AVec3; AVec4])
  | "JOINTS" => ([CUbyte; CUshort], [AVec4])
  | "WEIGHTS" => ([CFloat; CUbyte; CUshort], [AVec4])
  | "inverseBindMatrices" => ([CFloat], [AMat4])
  | _ => ([], [])
  end%string.

(** Reader [read] rejects the other formats and adds no failure to
    ReadAccessor's for the permitted ones. *)
Definition accepts_exactly {A} (attr : string)
    (read : Document -> Accessor -> list A -> bytes -> pools -> res (list A)) : Prop :=
  forall d a buffer pool p,
  let (cs, ts) := glTF_format attr in
  (permitted cs ts (acr_ComponentType a) (acr_Type a) ->
   (forall data, ReadAccessor d a pool p = Ok data -> exists r, read d a buffer pool p = Ok r) /\
   (forall e, ReadAccessor d a pool p = Err e -> read d a buffer pool p = Err e)) /\
  (~ permitted cs ts (acr_ComponentType a) (acr_Type a) -> exists e, read d a buffer pool p = Err e).

Lemma accepts_by {A} attr read (fmt : ComponentType -> AccessorType -> option (elem -> A)) :
  typed_by read fmt ->
  (forall c t, let (cs, ts) := glTF_format attr in fmt c t = None <-> ~ permitted cs ts c t) ->
  accepts_exactly attr read.
Proof.
  intros HT HF d a buffer pool p. specialize (HF (acr_ComponentType a) (acr_Type a)). specialize (HT d a).
  destruct (glTF_format attr) as [cs ts]. split; intros HP.
  - destruct (fmt _ _) as [f|]; [|exfalso; apply HF; auto].
    specialize (HT buffer pool p). split; intros x E; rewrite E in HT; [|exact HT].
    destruct HT as (r & H & _). eauto.
  - apply HF in HP. rewrite HP in HT. destruct HT as [e HT]. exists e. apply HT.
Qed.

Ltac fmt_tac := intros c t; unfold permitted; destruct c, t; cbn; split; intros HH;
  first [ discriminate | reflexivity | exfalso; apply HH; split; auto 6; fail | intuition discriminate ].

Theorem C23_formats :
  forall cv,
  accepts_exactly "indices" ReadIndices /\ accepts_exactly "POSITION" ReadPosition /\
  accepts_exactly "NORMAL" ReadNormal /\ accepts_exactly "TANGENT" ReadTangent /\
  accepts_exactly "TEXCOORD" (ReadTextureCoord cv) /\ accepts_exactly "COLOR" (ReadColor cv) /\
  accepts_exactly "COLOR" (ReadColor64 cv) /\ accepts_exactly "JOINTS" ReadJoints /\
  accepts_exactly "WEIGHTS" (ReadWeights cv) /\ accepts_exactly "inverseBindMatrices" ReadInverseBindMatrices.
Proof.
  intros cv. split; [|split; [|split; [|split; [|split; [|split; [|split; [|split; [|split]]]]]]]].
  - apply (accepts_by _ _ _ ReadIndices_by). fmt_tac.
  - apply (accepts_by _ _ _ ReadPosition_by). fmt_tac.
  - apply (accepts_by _ _ _ ReadNormal_by). fmt_tac.
  - apply (accepts_by _ _ _ ReadTangent_by). fmt_tac.
  - apply (accepts_by _ _ _ (ReadTextureCoord_by cv)). fmt_tac.
  - apply (accepts_by _ _ _ (ReadColor_by cv)). fmt_tac.
  - apply (accepts_by _ _ _ (ReadColor64_by cv)). fmt_tac.
  - apply (accepts_by _ _ _ ReadJoints_by). fmt_tac.
  - apply (accepts_by _ _ _ (ReadWeights_by cv)). fmt_tac.
  - apply (accepts_by _ _ _ ReadInverseBindMatrices_by). fmt_tac.
Qed.
Print Assumptions C23_formats.

Example C23_example :
  (exists e, ReadNormal ex18_doc (rd_acr (Some 0) 0 CUbyte AVec3 1) [] [] fresh_pools = Err e) /\
  permitted [CFloat; CUbyte; CUshort] [AVec3; AVec4] CUbyte AVec3 /\
  forall cv, ReadColor cv ex18_doc (rd_acr (Some 0) 0 CUbyte AVec3 1) [] [] fresh_pools = Ok [[10; 0; 11; 255]].
Proof. split; [eexists; vm_compute; reflexivity|]. split; [split; cbn; auto|]. intros cv. vm_compute. reflexivity. Qed.
