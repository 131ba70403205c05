(** C105, the other half: the accessor of interleaved []uint8 does have elements
    to a reader that follows glTF, and they are these. *)
From Verif Require Import BaseFacts Types Binary SpecLayout BinaryProofs SliceProofs Doc F64 SpecDoc SpecTarget
  ModelerWrite ModelerRead ModelerWriteProofs ModelerReadProofs ModelerSparseProofs ModelerLayoutProofs ModelerShapeProofs
  ModelerAttrProofs ModelerTargetProofs SpecAccessor AccessorProofs AccessorWriteProofs PropsModelerWrite SpecFetch FetchProofs PropsFetch SpecRows PropsRows PropsBytes.
Local Open Scope nat_scope.

(** Rows of a size that glTF allows as a stride. *)
Definition row_allowed (data : list slice) : Prop := sum_sizes data <= 252 /\ sum_sizes data mod 4 = 0.

(** Whichever of the slices the []uint8 is, and whatever the others are, the
    accessor conforms. *)
Theorem C105_conforms d data d' idx k s :
  WriteAccessorsInterleaved d data = Ok (d', Ok idx) -> 2 <= List.length data -> row_allowed data ->
  nth_error data k = Some s -> sk s = SK CUbyte AScalar -> els s <> [] ->
  exists a vs, nth_error (doc_Accessors d') (List.length (doc_Accessors d) + k) = Some (Some a) /\ gltf_elements d' a vs.
Proof.
  intros H L [R1 R2] Hk Hu HN.
  destruct (rows_shape _ _ _ _ _ _ H L Hk) as (c & t & a & v & b & vo & i & Ks & Ha & A1 & A2 & A3 & A4 & A5 & A6 & A7 & F & SP & V1 & V2 & V3).
  rewrite Hu in Ks. assert (c = CUbyte /\ t = AScalar) as [-> ->] by (cbn in Ks; split; congruence).
  pose proof (sum_sizes_split _ _ _ Hk) as SS. assert (EB : elem_bytes s = 1) by (unfold elem_bytes; rewrite Hu; reflexivity). rewrite EB in SS.
  set (e := sum_sizes data) in *. set (o := sum_sizes (firstn k data)) in *. set (n := List.length (els s)) in *.
  assert (N1 : 1 <= n) by (unfold n; destruct (els s); [contradiction|cbn; lia]).
  assert (E4 : 4 <= e) by (assert (E1 : 1 <= e) by lia; pose proof (Nat.div_mod e 4 ltac:(lia)); lia).
  destruct F as (_ & F2 & F3 & F4). rewrite Nat2Z.id in F2. destruct SP as (_ & _ & SP). rewrite V1, V3 in SP. unfold zlen in SP.
  exists a, (map (fun j => gltf_element CUbyte AScalar (buf_Data b) (vo + o + gltf_stride CUbyte AScalar e * j)) (seq 0 n)).
  split; [exact Ha|]. unfold gltf_elements. rewrite A1, A2, A3, A4. split; [reflexivity|]. split; [reflexivity|].
  exists n. eexists. split; [reflexivity|]. split; [exact N1|]. split; [|reflexivity].
  unfold gltf_base. rewrite A5, A7, A1, A2. exists i, o. split; [reflexivity|]. split; [reflexivity|].
  exists v, (Z.to_nat (bvw_Buffer v)), b, vo, (n * e), e.
  split; [exact F2|]. split; [lia|]. split; [exact F4|]. split; [exact V1|]. split; [exact V3|]. split; [exact V2|].
  split; [lia|]. split; [right; split; [change (packed_size CUbyte AScalar) with 1; lia|split; [lia|exact R2]]|].
  change (comp_bytes CUbyte) with 1. rewrite !Nat.mod_1_r. split; [reflexivity|]. split; [reflexivity|].
  split; [intros Q; contradiction Q; reflexivity|]. split; [exact N1|]. split; [|reflexivity].
  change (SpecAccessor.extent CUbyte AScalar) with 1. unfold gltf_stride. destruct (Nat.eqb_spec e 0); [lia|].
  assert (NE : n * e = e * (n - 1) + e) by (destruct n; [lia|]; replace (S n - 1) with n by lia; lia). lia.
Qed.
Print Assumptions C105_conforms.

(** So the last []uint8 of a row has exactly these elements in the document. *)
Theorem C105_has d data d' idx k s :
  WriteAccessorsInterleaved d data = Ok (d', Ok idx) -> 2 <= List.length data -> row_allowed data -> Forall wf_slice data ->
  nth_error data k = Some s -> sk s = SK CUbyte AScalar -> els s <> [] ->
  (forall j s', k < j -> nth_error data j = Some s' -> sk s' <> SK CUbyte AScalar) ->
  exists a, nth_error (doc_Accessors d') (List.length (doc_Accessors d) + k) = Some (Some a) /\
    forall vs, gltf_elements d' a vs <-> vs = map (fun j => nth (j * sum_sizes data) (els s) [0%Z]) (seq 0 (List.length (els s))).
Proof.
  intros H L R HW Hk Hu HN HA.
  destruct (C105_conforms d data d' idx k s H L R Hk Hu HN) as (a & vs0 & Ha & G0).
  destruct (C105_elements d data d' idx k s _ H L HW Hk Hu eq_refl ltac:(destruct (els s); [contradiction|cbn; lia]) HA) as (a' & Ha' & K).
  assert (a' = a) as -> by congruence. exists a. split; [exact Ha|].
  assert (E : forall vs, gltf_elements d' a vs -> vs = map (fun j => nth (j * sum_sizes data) (els s) [0%Z]) (seq 0 (List.length (els s)))).
  { intros vs G. destruct (K vs G) as [K1 K2]. apply nth_error_ext. intros j. destruct (Nat.lt_ge_cases j (List.length (els s))) as [J|J].
    - rewrite (K2 j J), nth_error_map, nth_error_nth' with (d := 0) by (rewrite seq_length; lia). rewrite seq_nth by lia. reflexivity.
    - transitivity (@None elem); [apply nth_error_None; lia|symmetry; apply nth_error_None; rewrite map_length, seq_length; lia]. }
  intros vs. split; [apply E|]. intros ->. rewrite <- (E _ G0). exact G0.
Qed.
Print Assumptions C105_has.

(** And is found as given exactly if all elements but the first are 0. *)
Theorem C105_kept d data d' idx k s :
  WriteAccessorsInterleaved d data = Ok (d', Ok idx) -> 2 <= List.length data -> row_allowed data -> Forall wf_slice data ->
  nth_error data k = Some s -> sk s = SK CUbyte AScalar -> els s <> [] ->
  (forall j s', k < j -> nth_error data j = Some s' -> sk s' <> SK CUbyte AScalar) ->
  exists a, nth_error (doc_Accessors d') (List.length (doc_Accessors d) + k) = Some (Some a) /\
    (gltf_elements d' a (els s) <-> Forall (fun v => v = [0%Z]) (tl (els s))).
Proof.
  intros H L R HW Hk Hu HN HA.
  destruct (C105_conforms d data d' idx k s H L R Hk Hu HN) as (a & vs & Ha & G).
  destruct (C105_exact d data d' idx k s H L HW Hk Hu HN HA) as (a' & Ha' & K).
  assert (a' = a) as -> by congruence. exists a. split; [exact Ha|]. apply K. exists vs. exact G.
Qed.
Print Assumptions C105_kept.

(** Rows of shorts, signed and unsigned bytes: of 1, 2, 3, 4, 5 the file has 1, 5, 0, 0, 0. *)
Definition five (c : ComponentType) : slice := mkSlice (SK c AScalar) [[1]; [2]; [3]; [4]; [5]]%Z.
Definition five_rows := [five CUshort; five CByte; five CUbyte].
Example C105_has_example : row_allowed five_rows /\ Forall wf_slice five_rows /\
  exists d a, WriteAccessorsInterleaved zero_Document five_rows = Ok (d, Ok [0; 1; 2]%Z) /\ nth_error (doc_Accessors d) 2 = Some (Some a) /\
  gltf_elements d a [[1]; [5]; [0]; [0]; [0]]%Z /\ ~ gltf_elements d a (els (five CUbyte)).
Proof.
  split; [split; [vm_compute; lia|reflexivity]|].
  assert (W : Forall wf_slice five_rows).
  { repeat (constructor; [eexists; eexists; split; [reflexivity|repeat (constructor; [split; [reflexivity|constructor; [cbn; lia|constructor]]|]); constructor]|]). constructor. }
  split; [exact W|].
  destruct (WriteAccessorsInterleaved zero_Document five_rows) as [[d [idx| |]]| |] eqn:E; try (vm_compute in E; discriminate E).
  assert (EI : idx = [0; 1; 2]%Z) by (vm_compute in E; congruence). subst idx.
  destruct (C105_has zero_Document five_rows d _ 2 (five CUbyte) E) as (a & Ha & K); [cbn; lia|split; [vm_compute; lia|reflexivity]|exact W|reflexivity|reflexivity|discriminate| |].
  { intros [|[|[|j]]] s' J Q; try lia. destruct j; discriminate Q. }
  exists d, a. split; [reflexivity|]. split; [exact Ha|]. split; [apply K; reflexivity|]. intros Q. apply K in Q. discriminate Q.
Qed.
