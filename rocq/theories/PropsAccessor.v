(** Properties of modeler/read.go and modeler/write.go against glTF 2.0's own
    description of accessors: C85 (reading), C86 (writing). *)
From Coq Require Import Sorted.
From Verif Require Import BaseFacts Types Binary SpecLayout BinaryProofs SliceProofs Doc F64 F64Facts SpecDoc SpecTarget
  ModelerWrite ModelerRead ModelerWriteProofs ModelerReadProofs ModelerSparseProofs ModelerLayoutProofs ModelerShapeProofs
  ModelerAttrProofs ModelerTargetProofs ModelerReadSpecProofs SpecAccessor AccessorProofs AccessorWriteProofs
  PropsModelerRead PropsModelerWrite.

(** ** C85 *)
(** glTF gives an accessor at most one list of elements. *)
Theorem C85_determined :
  forall d a vs vs', gltf_elements d a vs -> gltf_elements d a vs' -> vs = vs'.
Proof. exact gltf_elements_det. Qed.
Print Assumptions C85_determined.

(** Where the library's own layout agrees, ReadAccessor gives these elements,
    whatever the reuse buffer holds. *)
Theorem C85_read_partial :
  forall d a vs buffer p,
  gltf_elements d a vs -> library_accessor d a ->
  (acr_BufferView a = None -> buffer = []) ->
  (acr_ComponentType a = CUint -> acr_Type a = AMat3 -> buffer = [] /\ p_val p = []) ->
  ReadAccessor d a buffer p = Ok (mkSlice (SK (acr_ComponentType a) (acr_Type a)) vs).
Proof. exact gltf_elements_read. Qed.
Print Assumptions C85_read_partial.

(** The formats whose elements end with their last component, the scalars of
    one byte apart: everything that conforms is read as glTF says. *)
Definition plain (c : ComponentType) (t : AccessorType) : Prop :=
  extent c t = element_size c t /\ ~ byte_scalar (SK c t).
Definition in_memory (d : Document) (a : Accessor) : Prop :=
  (forall b, In (Some b) (doc_Buffers d) -> zlen (buf_Data b) <= max_alloc) /\
  (acr_BufferView a = None -> acr_Count a * Z.of_nat (mem_size (acr_ComponentType a) (acr_Type a)) <= max_alloc).

Theorem C85_plain :
  forall d a vs buffer p,
  gltf_elements d a vs -> plain (acr_ComponentType a) (acr_Type a) -> in_memory d a ->
  (acr_BufferView a = None -> buffer = []) ->
  (acr_ComponentType a = CUint -> acr_Type a = AMat3 -> buffer = [] /\ p_val p = []) ->
  ReadAccessor d a buffer p = Ok (mkSlice (SK (acr_ComponentType a) (acr_Type a)) vs).
Proof.
  intros d a vs buffer p G [P1 P2] [M1 M2]. apply gltf_elements_read; [exact G|].
  destruct G as (Hc & Ht & n & base & Hn & _ & HB & HS). split; [exact M1|]. cbn zeta. split.
  - unfold gltf_base in HB. destruct (acr_BufferView a); [|apply M2; reflexivity].
    destruct HB as (i & ao & -> & -> & HB). rewrite Hn, !Nat2Z.id. eapply plain_layout; eauto.
  - destruct (acr_Sparse a) as [sp|]; [|exact I].
    destruct HS as (ni & ii & io & vi & vo & idx & vals & H1 & _ & _ & _ & _ & _ & _ & H7 & H8 & H9 & _).
    rewrite H1, H7, H8, !Nat2Z.id. eapply plain_layout; eauto.
Qed.
Print Assumptions C85_plain.

(** All formats of float and unsigned int, all of short but VEC3 and MAT3,
    and of byte the VEC4 and MAT4 are plain. *)
Example C85_plain_formats :
  map (fun c => map (fun t => Nat.eqb (extent c t) (element_size c t)) [AScalar; AVec2; AVec3; AVec4; AMat2; AMat3; AMat4])
      [CFloat; CUint; CUshort; CShort; CUbyte; CByte] =
  [repeat true 7; repeat true 7; [true; true; false; true; true; false; true]; [true; true; false; true; true; false; true];
   [true; false; false; true; false; false; true]; [true; false; false; true; false; false; true]].
Proof. reflexivity. Qed.

(** The helpers for float attributes, indices and joints. *)
Theorem C85_typed :
  forall cv d a vs buffer ibuffer pool p,
  gltf_elements d a vs -> in_memory d a -> (acr_BufferView a = None -> pool = []) ->
  (acr_ComponentType a = CFloat ->
   (acr_Type a = AVec2 -> ReadTextureCoord cv d a buffer pool p = Ok vs) /\
   (acr_Type a = AVec3 -> ReadPosition d a buffer pool p = Ok vs /\ ReadNormal d a buffer pool p = Ok vs) /\
   (acr_Type a = AVec4 -> ReadWeights cv d a buffer pool p = Ok vs /\ ReadTangent d a buffer pool p = Ok vs) /\
   (acr_Type a = AMat4 -> ReadInverseBindMatrices d a buffer pool p = Ok vs)) /\
  (In (acr_ComponentType a) [CUshort; CUint] -> acr_Type a = AScalar ->
   exists r, ReadIndices d a ibuffer pool p = Ok r /\ vs = map (fun x => [x]) r) /\
  (In (acr_ComponentType a) [CUbyte; CUshort] -> acr_Type a = AVec4 -> ReadJoints d a buffer pool p = Ok vs).
Proof.
  intros cv d a vs buffer ibuffer pool p G M HB.
  assert (N0 : acr_Count a <> 0) by (destruct G as (_ & _ & n & base & Hn & N1 & _); lia).
  assert (R : plain (acr_ComponentType a) (acr_Type a) -> acr_Type a <> AMat3 ->
    ReadAccessor d a pool p = Ok (mkSlice (SK (acr_ComponentType a) (acr_Type a)) vs)).
  { intros P N. apply C85_plain; auto. intros _ E. contradiction. }
  split; [|split].
  - intros Hc. destruct (at_eqb (acr_Type a) AVec2 || at_eqb (acr_Type a) AVec3 || at_eqb (acr_Type a) AVec4 || at_eqb (acr_Type a) AMat4) eqn:E.
    2:{ split; [|split; [|split]]; intros Ht; rewrite Ht in E; discriminate. }
    assert (RR : ReadAccessor d a pool p = Ok (mkSlice (SK (acr_ComponentType a) (acr_Type a)) vs)).
    { apply R; rewrite Hc in *; destruct (acr_Type a); try discriminate; (split; [reflexivity|intros [B|B]; discriminate]). }
    destruct (C22_floats_unchanged cv d a buffer pool p _ Hc N0 RR) as (Q1 & Q2 & Q3 & Q4).
    cbn [els] in *. split; [exact Q1|]. split; [exact Q3|]. split; [exact Q2|exact Q4].
  - intros Hc Ht. assert (RR : ReadAccessor d a pool p = Ok (mkSlice (SK (acr_ComponentType a) (acr_Type a)) vs)).
    { apply R; rewrite Ht; [|discriminate]. destruct Hc as [<-|[<-|[]]]; (split; [reflexivity|intros [B|B]; discriminate]). }
    destruct (C22_ReadIndices d a ibuffer pool p _ ltac:(cbn; destruct Hc as [<-|[<-|[]]]; auto) Ht N0 RR) as (r & E1 & E2). exists r. auto.
  - intros Hc Ht. assert (RR : ReadAccessor d a pool p = Ok (mkSlice (SK (acr_ComponentType a) (acr_Type a)) vs)).
    { apply R; rewrite Ht; [|discriminate]. destruct Hc as [<-|[<-|[]]]; (split; [reflexivity|intros [B|B]; discriminate]). }
    exact (C22_ReadJoints d a buffer pool p _ Hc Ht N0 RR).
Qed.
Print Assumptions C85_typed.

(** Not all that conforms is read so.  Tightly packed VEC3 of unsigned bytes is
    read as if each element had a fourth byte: wrong values, or an error where
    the view ends; the same error where only the padding of the last element
    of strided data is left out; the stride of []uint8 is ignored; []int8
    panics when the view holds more than the accessor. *)
Definition vec3_doc (l : Z) := rd_doc [1; 2; 3; 4; 5; 6; 7; 8] [(0, l, 0)].
Definition vec3_acr := rd_acr (Some 0) 0 CUbyte AVec3 2.
Definition gap_doc := rd_doc [1; 2; 3; 0; 5; 6; 7] [(0, 7, 4)].
Definition wide_doc := rd_doc [1; 0; 0; 0; 2] [(0, 5, 4)].
Definition wide_acr := rd_acr (Some 0) 0 CUbyte AScalar 2.
Definition tail_doc := rd_doc [1; 2; 3; 4] [(0, 4, 0)].
Definition tail_acr := rd_acr (Some 0) 0 CByte AScalar 2.


(** An accessor without sparse part over view 0 of such a document. *)
Lemma rd_elements data o l st off c t n vs :
  ct_valid c = true -> at_valid t = true -> (1 <= n)%nat ->
  (o + l <= List.length data)%nat ->
  (st = 0 \/ packed_size c t <= st /\ 4 <= st <= 252 /\ st mod 4 = 0)%nat ->
  (off mod comp_bytes c = 0 /\ (o + off) mod comp_bytes c = 0 /\ (columns t <> 1 -> off mod 4 = 0 /\ (o + off) mod 4 = 0))%nat ->
  (off + gltf_stride c t st * (n - 1) + extent c t <= l)%nat ->
  vs = map (fun k => gltf_element c t (map z2b data) (o + off + gltf_stride c t st * k)%nat) (seq 0 n) ->
  gltf_elements (rd_doc data [(Z.of_nat o, Z.of_nat l, Z.of_nat st)]) (rd_acr (Some 0) (Z.of_nat off) c t (Z.of_nat n)) vs.
Proof.
  intros Hc Ht N1 HL HS (A1 & A2 & A3) HE ->. split; [exact Hc|]. split; [exact Ht|]. exists n. eexists.
  split; [reflexivity|]. split; [exact N1|]. split; [|reflexivity].
  exists 0%nat, off. split; [reflexivity|]. split; [reflexivity|].
  eexists. exists 0%nat. eexists. exists o, l, st. split; [reflexivity|]. split; [reflexivity|]. split; [reflexivity|].
  do 3 (split; [reflexivity|]). split; [cbn [buf_Data set_buf_Data set_buf_ByteLength]; rewrite map_length; exact HL|].
  split; [exact HS|]. split; [exact A1|]. split; [exact A2|]. split; [exact A3|]. split; [exact N1|]. split; [exact HE|]. reflexivity.
Qed.
Ltac rd_side :=
  first [reflexivity | vm_compute; lia | left; reflexivity | right; vm_compute; repeat split; lia
        | split; [reflexivity|split; [reflexivity|intros E; exfalso; apply E; reflexivity]]].

Theorem C85_read_refuted :
  (gltf_elements (vec3_doc 8) vec3_acr [[1; 2; 3]; [4; 5; 6]] /\
   ReadAccessor (vec3_doc 8) vec3_acr [] fresh_pools = Ok (mkSlice (SK CUbyte AVec3) [[1; 2; 3]; [5; 6; 7]])) /\
  (gltf_elements (vec3_doc 6) vec3_acr [[1; 2; 3]; [4; 5; 6]] /\
   ReadAccessor (vec3_doc 6) vec3_acr [] fresh_pools = Err ErrShortBuffer) /\
  (gltf_elements gap_doc vec3_acr [[1; 2; 3]; [5; 6; 7]] /\
   ReadAccessor gap_doc vec3_acr [] fresh_pools = Err ErrShortBuffer) /\
  (gltf_elements wide_doc wide_acr [[1]; [2]] /\
   ReadAccessor wide_doc wide_acr [] fresh_pools = Ok (mkSlice (SK CUbyte AScalar) [[1]; [0]])) /\
  (gltf_elements tail_doc tail_acr [[1]; [2]] /\ ReadAccessor tail_doc tail_acr [] fresh_pools = Panic).
Proof.
  split; [|split; [|split; [|split]]]; (split; [|vm_compute; reflexivity]).
  - apply (rd_elements _ 0 8 0 0 _ _ 2); rd_side.
  - apply (rd_elements _ 0 6 0 0 _ _ 2); rd_side.
  - apply (rd_elements _ 0 7 4 0 _ _ 2); rd_side.
  - apply (rd_elements _ 0 5 4 0 _ _ 2); rd_side.
  - apply (rd_elements _ 0 4 0 0 _ _ 2); rd_side.
Qed.
Print Assumptions C85_read_refuted.

(** Strided VEC3 of floats, and VEC3 of shorts with a stride that covers the
    padding, as glTF and the library read them. *)
Definition float3_doc := rd_doc (repeat 9 4 ++ flat_map (fun x => [x; 0; 0; 0]) [1; 2; 3; 9; 4; 5; 6]) [(4, 28, 16)].
Definition float3_acr := rd_acr (Some 0) 0 CFloat AVec3 2.
Example C85_example_plain :
  gltf_elements float3_doc float3_acr [[1; 2; 3]; [4; 5; 6]] /\ plain CFloat AVec3 /\ in_memory float3_doc float3_acr /\
  ReadPosition float3_doc float3_acr [] [] fresh_pools = Ok [[1; 2; 3]; [4; 5; 6]].
Proof.
  split; [apply (rd_elements _ 4 28 16 0 _ _ 2); rd_side|]. split; [split; [reflexivity|intros [B|B]; discriminate]|].
  split; [|vm_compute; reflexivity]. split; [|intros E; discriminate].
  intros b [E|[]]. apply (f_equal (fun o => match o with Some x => zlen (buf_Data x) | None => 0 end)) in E.
  cbn [option_map] in E. rewrite <- E. vm_compute. discriminate.
Qed.
Definition short3_doc := rd_doc (flat_map (fun x => [x; 1]) [1; 2; 3; 0; 4; 5; 6; 0]) [(0, 16, 8)].
Definition short3_acr := rd_acr (Some 0) 0 CShort AVec3 2.
Example C85_example_padded :
  gltf_elements short3_doc short3_acr [[257; 258; 259]; [260; 261; 262]] /\ library_accessor short3_doc short3_acr.
Proof.
  split; [apply (rd_elements _ 0 16 8 0 _ _ 2); rd_side|]. split.
  - intros b [E|[]]. apply (f_equal (fun o => match o with Some x => zlen (buf_Data x) | None => 0 end)) in E.
    rewrite <- E. vm_compute. discriminate.
  - split; [|exact I]. intros v E. injection E as <-. vm_compute. repeat split; try lia; discriminate.
Qed.
(** A sparse accessor: elements 1 and 3 of four replaced. *)
Definition sparse3_doc := set_doc_Accessors []
  (rd_doc [10; 0; 11; 0; 12; 0; 13; 0;  1; 3; 0; 0;  77; 0; 99; 0] [(0, 8, 0); (8, 2, 0); (12, 4, 0)]).
Definition sparse3_acr := set_acr_Sparse (Some (rd_sparse 2 1 0 CUbyte 2 0)) (rd_acr (Some 0) 0 CUshort AScalar 4).
Example C85_example_sparse :
  gltf_elements sparse3_doc sparse3_acr [[10]; [77]; [12]; [99]] /\
  ReadAccessor sparse3_doc sparse3_acr [] fresh_pools = Ok (mkSlice (SK CUshort AScalar) [[10]; [77]; [12]; [99]]).
Proof.
  split; [|vm_compute; reflexivity]. split; [reflexivity|]. split; [reflexivity|].
  exists 4%nat, [[10]; [11]; [12]; [13]]. split; [reflexivity|]. split; [lia|].
  assert (ST : forall i ao c t n vs o l, nth_error [(0, 8, 0); (8, 2, 0); (12, 4, 0)] i = Some (Z.of_nat o, Z.of_nat l, 0) ->
    (o + l <= 16)%nat -> (ao mod comp_bytes c = 0)%nat -> ((o + ao) mod comp_bytes c = 0)%nat -> columns t = 1%nat -> (1 <= n)%nat ->
    (ao + packed_size c t * (n - 1) + extent c t <= l)%nat ->
    vs = map (fun k => gltf_element c t (map z2b [10; 0; 11; 0; 12; 0; 13; 0;  1; 3; 0; 0;  77; 0; 99; 0]) (o + ao + packed_size c t * k)%nat) (seq 0 n) ->
    gltf_stored sparse3_doc i ao c t n vs).
  { intros i ao c t n vs o l Hi HL A1 A2 C1 N1 HE ->. eexists. exists 0%nat. eexists. exists o, l, 0%nat.
    split; [unfold sparse3_doc, rd_doc; cbn [doc_BufferViews set_doc_Accessors set_doc_Buffers set_doc_BufferViews]; rewrite nth_error_map, Hi; reflexivity|].
    split; [reflexivity|]. split; [reflexivity|]. do 3 (split; [reflexivity|]). split; [exact HL|]. split; [left; reflexivity|].
    split; [exact A1|]. split; [exact A2|]. split; [intros E; contradiction|]. split; [exact N1|]. split; [exact HE|]. reflexivity. }
  split.
  { exists 0%nat, 0%nat. split; [reflexivity|]. split; [reflexivity|]. apply (ST 0%nat 0%nat _ _ 4%nat _ 0%nat 8%nat); reflexivity || (vm_compute; lia). }
  exists 2%nat, 1%nat, 0%nat, 2%nat, 0%nat, [1; 3], [[77]; [99]].
  split; [reflexivity|]. split; [lia|]. split; [left; reflexivity|]. split; [reflexivity|]. split; [reflexivity|].
  split; [apply (ST 1%nat 0%nat _ _ 2%nat _ 8%nat 2%nat); reflexivity || (vm_compute; lia)|].
  split; [intros v E; injection E as <-; split; reflexivity|]. split; [reflexivity|]. split; [reflexivity|].
  split; [apply (ST 2%nat 0%nat _ _ 2%nat _ 12%nat 4%nat); reflexivity || (vm_compute; lia)|].
  split; [intros v E; injection E as <-; split; reflexivity|].
  split; [repeat constructor|]. split; [repeat constructor; lia|]. split; [reflexivity|]. split.
  - intros q Hq HO. destruct q as [|[|[|[|q]]]]; [reflexivity| |reflexivity| |lia].
    + exfalso. apply (HO 0%nat). reflexivity.
    + exfalso. apply (HO 1%nat). reflexivity.
  - intros [|[|k]] x E; [injection E as <-; reflexivity|injection E as <-; reflexivity|destruct k; discriminate].
Qed.

(** ** C86 *)
(** The slices that a call is given, one for each accessor it adds; attributes
    without data are left out. *)
Definition given (op : wop) : list slice :=
  match op with
  | OpIndices s | OpTextureCoord s | OpWeights s | OpJoints s | OpColor s | OpAccessor _ s => [s]
  | OpNormal l | OpPosition l => [mkSlice (SK CFloat AVec3) l]
  | OpTangent l => [mkSlice (SK CFloat AVec4) l]
  | OpInverseBindMatrices l => [mkSlice (SK CFloat AMat4) l]
  | OpInterleaved l => l
  | OpPrimitiveAttributes l =>
      flat_map (fun a => match attr_Data a with
                         | Some s => match els s with [] => [] | _ => [s] end
                         | None => [] end) l
  | OpImage _ _ _ | OpBufferView _ _ | OpBufferViewInterleaved _ => []
  end.
(** The calls that can report an error did not. *)
Definition succeeds (d : Document) (op : wop) : Prop :=
  match op with
  | OpInterleaved l => exists d' r, WriteAccessorsInterleaved d l = Ok (d', Ok r)
  | OpPrimitiveAttributes l => exists d' r, WritePrimitiveAttributes d l = Ok (d', Ok r)
  | _ => True
  end.

Lemma given_kept l : flat_map (fun a => match attr_Data a with
    | Some s => match els s with [] => [] | _ => [s] end | None => [] end) l = flat_map data_of (kept l).
Proof.
  unfold kept. induction l as [|a l IH]; [reflexivity|]. cbn [flat_map filter]. rewrite IH.
  destruct (attr_Data a) as [s|] eqn:E; cbn [attr_nonempty]; [|reflexivity].
  destruct (els s) eqn:Es; cbn [List.length Nat.eqb negb]; [reflexivity|].
  cbn [flat_map]. f_equal. unfold data_of. rewrite E. reflexivity.
Qed.

Lemma given_shaped d op d1 : run_op d op = Ok d1 -> succeeds d op -> given op <> [] -> shaped d (op_target op) (given op) d1.
Proof.
  destruct op; cbn [run_op given op_target role_target succeeds]; intros H HS HN; apply fst_res_inv in H as [b H]; try contradiction.
  - unfold WriteIndices in H. destruct (sk d0) as [[] []| | | |]; try discriminate; eapply WriteAccessor_shaped; exact H.
  - eapply WriteAccessor_shaped; exact H.
  - eapply WriteAccessor_shaped; exact H.
  - eapply write_normalized_shaped; exact H.
  - eapply write_normalized_shaped; exact H.
  - unfold WriteJoints in H. inv_ok H. eapply WriteAccessor_shaped; exact H.
  - eapply WriteAccessor_shaped; exact H.
  - eapply WritePosition_shaped; exact H.
  - eapply write_normalized_shaped; exact H.
  - eapply WriteAccessor_shaped; exact H.
  - destruct HS as (d' & r & E). rewrite E in H. injection H as <- <-. eapply WriteAccessorsInterleaved_shaped; exact E.
  - rewrite given_kept. destruct HS as (d' & r & E). rewrite E in H. injection H as <- <-. eapply WritePrimitiveAttributes_shaped; exact E.
Qed.

(** Every accessor a call adds conforms and means, to a reader that follows
    glTF, the data that was given, also after all later writes. *)
Theorem C86_written_partial :
  forall d op d1 ops d2, run_op d op = Ok d1 -> succeeds d op -> run_ops d1 ops = Ok d2 ->
  Forall wf_slice (given op) -> Forall (fun s => els s <> []) (given op) -> writable (op_target op) (given op) ->
  forall k s, nth_error (given op) k = Some s ->
  exists a, nth_error (doc_Accessors d2) (List.length (doc_Accessors d) + k) = Some (Some a) /\
    kind_ct (sk s) = Some (acr_ComponentType a, acr_Type a) /\ gltf_elements d2 a (els s) /\
    (Forall (fun s => elem_bytes s mod 4 = 0)%nat (given op) -> vertex_aligned d2 a).
Proof.
  intros d op d1 ops d2 H HS HO HW HN HWr k s Hk.
  assert (HG : given op <> []) by (intros E; rewrite E in Hk; destruct k; discriminate).
  destruct (shaped_means _ _ _ _ (given_shaped _ _ _ H HS HG) HW HWr HN k s Hk) as (a & Ha & HM & HA).
  apply run_ops_extends in HO. exists a. split.
  { destruct HO as ([l ->] & _). rewrite nth_error_app1; [exact Ha|]. apply nth_error_Some. congruence. }
  pose proof (means_mono _ _ _ _ HO HM) as (_ & M1 & M2). split; [exact M1|]. split; [exact M2|].
  intros H4. eapply aligned_mono; [exact HO|]. apply HA. exact H4.
Qed.
Print Assumptions C86_written_partial.

(** The helpers for indices and for each vertex attribute: no condition on the
    data is left but its being there. *)
Theorem C86_typed :
  forall d op d1 ops d2 s, run_op d op = Ok d1 -> run_ops d1 ops = Ok d2 ->
  match op with OpAccessor _ _ | OpInterleaved _ | OpPrimitiveAttributes _ => False | _ => True end ->
  given op = [s] -> wf_slice s -> els s <> [] ->
  exists a, nth_error (doc_Accessors d2) (List.length (doc_Accessors d)) = Some (Some a) /\
    kind_ct (sk s) = Some (acr_ComponentType a, acr_Type a) /\ gltf_elements d2 a (els s) /\
    (op_target op = role_target RoleVertices -> vertex_aligned d2 a).
Proof.
  intros d op d1 ops d2 s H HO HT HG HW HN.
  assert (K : writable (op_target op) [s] /\ (op_target op = role_target RoleVertices -> elem_bytes s mod 4 = 0)%nat /\ succeeds d op).
  { destruct op; cbn [given] in HG; try contradiction; try discriminate; injection HG as <-;
      cbn [run_op op_target role_target succeeds writable] in *; apply fst_res_inv in H as [b H];
      (split; [intros c t Hc; try (right; reflexivity)|split; [|exact I]]).
    all: try reflexivity.
    - left. unfold WriteIndices in H. destruct (sk d0) as [[] []| | | |]; try discriminate; injection Hc as <- <-; reflexivity.
    - discriminate.
    - intros _. unfold WriteTextureCoord, write_normalized in H. inv_ok H. unfold checkTextureCoord in Hx. unfold elem_bytes.
      destruct (sk d0) as [[] []| | | |]; try discriminate; reflexivity.
    - intros _. unfold WriteWeights, write_normalized in H. inv_ok H. unfold checkWeights in Hx. unfold elem_bytes.
      destruct (sk d0) as [[] []| | | |]; try discriminate; reflexivity.
    - intros _. unfold WriteJoints in H. inv_ok H. unfold checkJoints in Hx. unfold elem_bytes.
      destruct (sk d0) as [[] []| | | |]; try discriminate; reflexivity.
    - intros _. unfold WriteColor, write_normalized in H. inv_ok H. unfold checkColor in Hx. unfold elem_bytes.
      destruct (sk d0) as [[] []| | | |]; try discriminate; reflexivity. }
  destruct K as (K1 & K2 & K3).
  destruct (C86_written_partial d op d1 ops d2 H K3 HO) with (k := 0%nat) (s := s) as (a & Ha & A1 & A2 & A3); rewrite ?HG; auto.
  exists a. rewrite Nat.add_0_r in Ha. split; [exact Ha|]. split; [exact A1|]. split; [exact A2|].
  intros HV. apply A3. rewrite HG. constructor; [auto|constructor].
Qed.
Print Assumptions C86_typed.

(** The other cases.  Outside of vertices, elements that the library pads get
    no stride, so that a reader that follows glTF sees other values; a vertex of
    a size that is not a multiple of 4, or above 252, does not conform. *)
Definition s_rgb : slice := mkSlice (SK CUbyte AVec3) [[1; 2; 3]; [4; 5; 6]].
Definition s_m4 : slice := mkSlice (SK CFloat AMat4) [repeat 0 16].
Theorem C86_written_refuted :
  (exists d a, WriteAccessor zero_Document TargetNone s_rgb = Ok (d, 0) /\
     nth_error (doc_Accessors d) 0 = Some (Some a) /\ gltf_elements d a [[1; 2; 3]; [0; 4; 5]]) /\
  (exists d a, WriteAccessorsInterleaved zero_Document [s_u16; s_pos] = Ok (d, Ok [0; 1]) /\
     nth_error (doc_Accessors d) 1 = Some (Some a) /\ forall vs, ~ gltf_elements d a vs) /\
  (exists d a, WriteAccessorsInterleaved zero_Document [s_m4; s_m4; s_m4; s_m4] = Ok (d, Ok [0; 1; 2; 3]) /\
     nth_error (doc_Accessors d) 0 = Some (Some a) /\ forall vs, ~ gltf_elements d a vs).
Proof.
  assert (NS : forall d a v vs, acr_BufferView a = Some 0 -> nth_error (doc_BufferViews d) 0 = Some (Some v) ->
    bvw_ByteStride v = 14 \/ bvw_ByteStride v = 256 -> ~ gltf_elements d a vs).
  { intros d a v vs E1 E2 E3 (_ & _ & n & base & _ & _ & HB & _). unfold gltf_base in HB. rewrite E1 in HB.
    destruct HB as (i & ao & Ei & _ & (v' & kb & b & vo & vl & st & H1 & _ & _ & _ & _ & H6 & _ & H8 & _)).
    assert (i = 0%nat) as -> by lia. rewrite E2 in H1.
    apply (f_equal (fun o => match o with Some (Some x) => x | _ => v end)) in H1. subst v'.
    destruct E3 as [E3|E3]; rewrite E3 in H6.
    - assert (st = 14%nat) as -> by lia. destruct H8 as [H8|(_ & _ & H8)]; discriminate.
    - assert (st = 256%nat) as -> by lia. destruct H8 as [H8|(_ & H8 & _)]; lia. }
  split; [|split].
  - eexists. eexists. split; [vm_compute; reflexivity|]. split; [reflexivity|].
    split; [reflexivity|]. split; [reflexivity|]. exists 2%nat. eexists. split; [reflexivity|]. split; [lia|]. split; [|reflexivity].
    exists 0%nat, 0%nat. split; [reflexivity|]. split; [reflexivity|].
    eexists. exists 0%nat. eexists. exists 0%nat, 8%nat, 0%nat. split; [reflexivity|]. split; [reflexivity|]. split; [reflexivity|].
    do 3 (split; [reflexivity|]). split; [vm_compute; lia|]. split; [left; reflexivity|]. split; [reflexivity|]. split; [reflexivity|].
    split; [intros E; exfalso; apply E; reflexivity|]. split; [lia|]. split; [vm_compute; lia|]. vm_compute. reflexivity.
  - eexists. eexists. split; [vm_compute; reflexivity|]. split; [reflexivity|].
    intros vs. eapply NS; [reflexivity|reflexivity|]. left. reflexivity.
  - eexists. eexists. split; [vm_compute; reflexivity|]. split; [reflexivity|].
    intros vs. eapply NS; [reflexivity|reflexivity|]. right. reflexivity.
Qed.
Print Assumptions C86_written_refuted.

(** Positions and texture coordinates of bytes, interleaved, then indices. *)
Example C86_example :
  match run_op (doc1 6) (OpInterleaved [s_pos; s_uv]) with
  | Ok d1 => match run_ops d1 [OpIndices s_u16] with
    | Ok d2 => writable TargetArrayBuffer [s_pos; s_uv] /\ succeeds (doc1 6) (OpInterleaved [s_pos; s_uv]) /\
        exists a, nth_error (doc_Accessors d2) 1 = Some (Some a) /\ gltf_elements d2 a [[1; 2]; [3; 255]] /\ vertex_aligned d2 a
    | _ => False end
  | _ => False end.
Proof.
  destruct (run_op (doc1 6) (OpInterleaved [s_pos; s_uv])) as [d1| |] eqn:E1; [|vm_compute in E1; discriminate..].
  destruct (run_ops d1 [OpIndices s_u16]) as [d2| |] eqn:E2.
  2,3: vm_compute in E1; injection E1 as <-; vm_compute in E2; discriminate.
  assert (W : writable TargetArrayBuffer [s_pos; s_uv]).
  { refine (conj eq_refl (conj _ (conj _ _))); [vm_compute; lia|repeat constructor; discriminate|]. intros [|[|k]] s c t N K; [| |destruct k; discriminate]; injection N as <-; cbn in K; injection K as <- <-; reflexivity. }
  assert (S1 : succeeds (doc1 6) (OpInterleaved [s_pos; s_uv])) by (do 2 eexists; vm_compute; reflexivity).
  split; [exact W|]. split; [exact S1|].
  destruct (C86_written_partial (doc1 6) (OpInterleaved [s_pos; s_uv]) d1 [OpIndices s_u16] d2 E1 S1 E2) with (k := 1%nat) (s := s_uv)
    as (a & A1 & A2 & A3 & A4).
  - constructor; [apply s_pos_wf|]. constructor; [apply s_uv_wf|constructor].
  - repeat constructor; discriminate.
  - exact W.
  - reflexivity.
  - exists a. split; [exact A1|]. split; [exact A3|]. apply A4. repeat constructor.
Qed.
