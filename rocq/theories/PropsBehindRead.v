(** C107: the library reads what stands behind the last []uint8 of a row. *)
From Verif Require Import BaseFacts Types Binary SpecLayout BinaryProofs SliceProofs Doc F64 SpecDoc SpecTarget
  ModelerWrite ModelerRead ModelerWriteProofs ModelerReadProofs ModelerSparseProofs ModelerLayoutProofs ModelerShapeProofs
  ModelerAttrProofs ModelerTargetProofs SpecAccessor AccessorProofs AccessorWriteProofs PropsModelerWrite SpecFetch FetchProofs PropsFetch SpecRows PropsRows PropsBytes PropsBytesFile PropsBytesAll PropsBehind PropsAccessor.
Local Open Scope nat_scope.

Theorem C107_read d data d' idx k s c t buffer p :
  WriteAccessorsInterleaved d data = Ok (d', Ok idx) -> 2 <= List.length data -> row_allowed data -> Forall wf_slice data ->
  nth_error data k = Some s -> els s <> [] -> kind_ct (sk s) = Some (c, t) -> may_start c t (sum_sizes (firstn k data)) ->
  (forall j x, k <= j -> nth_error data j = Some x -> sk x <> SK CUbyte AScalar) ->
  sk s <> SK CByte AScalar -> (forall b, In (Some b) (doc_Buffers d') -> (zlen (buf_Data b) <= max_alloc)%Z) ->
  (c = CUint -> t = AMat3 -> buffer = [] /\ p_val p = []) ->
  exists a, nth_error (doc_Accessors d') (List.length (doc_Accessors d) + k) = Some (Some a) /\
    ReadAccessor d' a buffer p = Ok (mkSlice (SK c t) (els s)).
Proof.
  intros H L R HW Hk HN Hs MS HA NI MA MB.
  destruct (C107_behind d data d' idx k s c t H L R HW Hk HN Hs MS HA) as (a & Ha & T1 & T2 & G). exists a. split; [exact Ha|].
  destruct (rows_shape _ _ _ _ _ _ H L Hk) as (c' & t' & a' & v & b & vo & i & Ks & Ha' & A1 & A2 & A3 & A4 & A5 & A6 & A7 & F & SP & V1 & V2 & V3).
  assert (a' = a) as -> by congruence. clear Ha' A1 A2 Ks. destruct (kind_ct_valid _ _ _ Hs) as [Hc Ht].
  pose proof (sum_sizes_split _ _ _ Hk) as SS. rewrite (elem_bytes_kind _ _ _ Hs) in SS. pose proof (element_size_pos c t Hc Ht) as EP.
  rewrite <- T1, <- T2. apply C85_read_partial; [apply G; reflexivity| |intros Q; rewrite A5 in Q; discriminate Q|rewrite T1, T2; exact MB].
  split; [exact MA|]. cbn zeta. rewrite A5, A3, A7, A4, T1, T2, !Nat2Z.id. unfold zlen. rewrite Nat2Z.id. split; [|exact I].
  destruct F as (_ & F2 & _). rewrite Nat2Z.id in F2. intros v' Hv'. assert (v' = v) as -> by congruence. cbn zeta. rewrite V2, V3, !Nat2Z.id.
  set (e := sum_sizes data) in *. set (o := sum_sizes (firstn k data)) in *. set (n := List.length (els s)).
  assert (N1 : 1 <= n) by (unfold n; destruct (els s); [contradiction|cbn; lia]).
  assert (NE : n * e = e * (n - 1) + e) by (destruct n; [lia|]; replace (S n - 1) with n by lia; lia).
  split; [unfold gltf_stride; destruct (Nat.eqb_spec e 0); lia|]. split; [lia|]. split.
  - intros -> ->. exfalso. apply (HA k s (le_n _) Hk). destruct (sk s) as [[] []| | | |]; cbn in Hs; congruence.
  - intros -> ->. exfalso. apply NI. destruct (sk s) as [[] []| | | |]; cbn in Hs; congruence.
Qed.
Print Assumptions C107_read.

(** The shorts behind the bytes. *)
Example C107_read_example : exists d, WriteAccessorsInterleaved zero_Document behind_rows = Ok (d, Ok [0; 1; 2]%Z) /\
  (forall b, In (Some b) (doc_Buffers d) -> (zlen (buf_Data b) <= max_alloc)%Z) /\
  exists a, nth_error (doc_Accessors d) 2 = Some (Some a) /\ forall buffer p, ReadAccessor d a buffer p = Ok (five CUshort).
Proof.
  destruct C107_example as (R & W & MS & d & a & E & Ha & _). exists d. split; [exact E|].
  assert (MA : forall b, In (Some b) (doc_Buffers d) -> (zlen (buf_Data b) <= max_alloc)%Z).
  { vm_compute in E. injection E as <-. intros b [I|[]]. injection I as <-. vm_compute. discriminate. }
  split; [exact MA|]. exists a. split; [exact Ha|]. intros buffer p.
  assert (NB : forall j x, 2 <= j -> nth_error behind_rows j = Some x -> sk x <> SK CUbyte AScalar) by (intros [|[|[|j]]] x J Q; try lia; [injection Q as <-; discriminate|destruct j; discriminate Q]).
  destruct (C107_read zero_Document behind_rows d _ 2 (five CUshort) CUshort AScalar buffer p E ltac:(cbn; lia) R W eq_refl ltac:(discriminate) eq_refl MS NB ltac:(discriminate) MA ltac:(discriminate)) as (a' & Ha' & K).
  assert (a' = a) as -> by (change (List.length (doc_Accessors zero_Document) + 2) with 2 in Ha'; congruence). exact K.
Qed.
