(** C107: the library reads the same elements of the slices in front of a []uint8. *)
From Verif Require Import BaseFacts Types Binary SpecLayout BinaryProofs SliceProofs Doc F64 SpecDoc SpecTarget
  ModelerWrite ModelerRead ModelerWriteProofs ModelerReadProofs ModelerSparseProofs ModelerLayoutProofs ModelerShapeProofs
  ModelerAttrProofs ModelerTargetProofs SpecAccessor AccessorProofs AccessorWriteProofs PropsModelerWrite SpecFetch FetchProofs PropsFetch SpecRows PropsRows PropsBytes PropsBytesFile PropsBytesAll PropsBehind PropsAccessor PropsBehindRead PropsAhead.
Local Open Scope nat_scope.

(** Wherever a slice stands that is not a []uint8 or []int8: the library reads as
    many elements as were given, the same that glTF says, and the first and those
    beyond the reach of any []uint8 are those given. *)
Theorem C107_ahead_read d data d' idx k s c t buffer p :
  WriteAccessorsInterleaved d data = Ok (d', Ok idx) -> 2 <= List.length data -> row_allowed data -> Forall wf_slice data ->
  nth_error data k = Some s -> els s <> [] -> kind_ct (sk s) = Some (c, t) -> may_start c t (sum_sizes (firstn k data)) ->
  sk s <> SK CUbyte AScalar -> sk s <> SK CByte AScalar -> (forall b, In (Some b) (doc_Buffers d') -> (zlen (buf_Data b) <= max_alloc)%Z) ->
  (c = CUint -> t = AMat3 -> buffer = [] /\ p_val p = []) ->
  exists a vs, nth_error (doc_Accessors d') (List.length (doc_Accessors d) + k) = Some (Some a) /\ gltf_elements d' a vs /\
    ReadAccessor d' a buffer p = Ok (mkSlice (SK c t) vs) /\ List.length vs = List.length (els s) /\
    forall j, j = 0 \/ List.length (els s) <= (j - 1) * sum_sizes data -> nth_error vs j = nth_error (els s) j.
Proof.
  intros H L R HW Hk HN Hs MS NU NI MA MB.
  destruct (C107_ahead d data d' idx k s c t H L R HW Hk HN Hs MS NU) as (a & vs & Ha & G & LV & K). exists a, vs. split; [exact Ha|]. split; [exact G|]. split; [|auto].
  destruct (rows_shape _ _ _ _ _ _ H L Hk) as (c' & t' & a' & v & b & vo & i & Ks & Ha' & A1 & A2 & A3 & A4 & A5 & A6 & A7 & F & SP & V1 & V2 & V3).
  assert (a' = a) as -> by congruence. clear Ha'. rewrite Hs in Ks. injection Ks as <- <-. rename A1 into T1, A2 into T2. destruct (kind_ct_valid _ _ _ Hs) as [Hc Ht].
  pose proof (sum_sizes_split _ _ _ Hk) as SS. rewrite (elem_bytes_kind _ _ _ Hs) in SS. pose proof (element_size_pos c t Hc Ht) as EP.
  rewrite <- T1, <- T2. apply C85_read_partial; [exact G| |intros Q; rewrite A5 in Q; discriminate Q|rewrite T1, T2; exact MB].
  split; [exact MA|]. cbn zeta. rewrite A5, A3, A7, A4, T1, T2, !Nat2Z.id. unfold zlen. rewrite Nat2Z.id. split; [|exact I].
  destruct F as (_ & F2 & _). rewrite Nat2Z.id in F2. intros v' Hv'. assert (v' = v) as -> by congruence. cbn zeta. rewrite V2, V3, !Nat2Z.id.
  set (e := sum_sizes data) in *. set (o := sum_sizes (firstn k data)) in *. set (n := List.length (els s)).
  assert (N1 : 1 <= n) by (unfold n; destruct (els s); [contradiction|cbn; lia]).
  assert (NE : n * e = e * (n - 1) + e) by (destruct n; [lia|]; replace (S n - 1) with n by lia; lia).
  split; [unfold gltf_stride; destruct (Nat.eqb_spec e 0); lia|]. split; [lia|]. split.
  - intros -> ->. exfalso. apply NU. destruct (sk s) as [[] []| | | |]; cbn in Hs; congruence.
  - intros -> ->. exfalso. apply NI. destruct (sk s) as [[] []| | | |]; cbn in Hs; congruence.
Qed.
Print Assumptions C107_ahead_read.

(** The ten shorts in front of unsigned bytes, read by the library. *)
Example C107_ahead_read_example : exists d a vs, WriteAccessorsInterleaved zero_Document ten_rows = Ok (d, Ok [0; 1; 2]%Z) /\
  nth_error (doc_Accessors d) 0 = Some (Some a) /\ ReadAccessor d a [] fresh_pools = Ok (mkSlice (SK CUshort AScalar) vs) /\
  vs = [[1]; [770]; [1798]; [10]; [5]; [6]; [7]; [8]; [9]; [10]]%Z.
Proof. eexists. eexists. eexists. split; [vm_compute; reflexivity|]. split; [reflexivity|]. split; [vm_compute; reflexivity|]. vm_compute. reflexivity. Qed.
