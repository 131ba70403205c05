(** Properties of modeler/write.go: C08-C15. *)
From Verif Require Import BaseFacts Types Binary SpecLayout BinaryProofs SliceProofs Doc F64 F64Facts SpecDoc
  ModelerWrite ModelerRead ModelerWriteProofs ModelerReadProofs ModelerLayoutProofs ModelerShapeProofs
  ModelerAttrProofs.

(** A document with one buffer holding [n] bytes, and some slices. *)
Definition doc1 (n : nat) : Document :=
  set_doc_Buffers [Some (set_buf_ByteLength (Z.of_nat n) (set_buf_Data (zeros n) zero_Buffer))] zero_Document.
Definition s_pos : slice := mkSlice (SK CFloat AVec3) [[0x3f800000; 0; 0xbf800000]; [0x40000000; 0x80000000; 0]].
Definition s_uv : slice := mkSlice (SK CUbyte AVec2) [[1; 2]; [3; 255]].
Definition s_u8 : slice := mkSlice (SK CUbyte AScalar) [[7]; [8]].
Definition s_u16 : slice := mkSlice (SK CUshort AScalar) [[1000]; [2000]].
Definition s_mat3 : slice := mkSlice (SK CUint AMat3) [[1; 2; 3; 4; 5; 6; 7; 8; 9]].
Definition s_rgba : slice := mkSlice SRGBA [[1; 2; 3; 4]; [250; 251; 252; 253]].

Ltac wf_tac := repeat first [ progress cbn | split | constructor | lia ].

Example s_pos_wf : wf_slice s_pos.
Proof. exists CFloat, AVec3. split; [reflexivity|]. wf_tac. Qed.
Example s_uv_wf : wf_slice s_uv.
Proof. exists CUbyte, AVec2. split; [reflexivity|]. wf_tac. Qed.
Example s_u8_wf : wf_slice s_u8.
Proof. exists CUbyte, AScalar. split; [reflexivity|]. wf_tac. Qed.
Example s_u16_wf : wf_slice s_u16.
Proof. exists CUshort, AScalar. split; [reflexivity|]. wf_tac. Qed.
Example s_mat3_wf : wf_slice s_mat3.
Proof. exists CUint, AMat3. split; [reflexivity|]. wf_tac. Qed.
Example s_rgba_wf : wf_slice s_rgba.
Proof. exists CUbyte, AVec4. split; [reflexivity|]. wf_tac. Qed.

(** ** C08 *)
(** Every write of supported data into a document with room succeeds, returns
    the index of a new accessor, and reading that accessor gives the data. *)
Theorem C08_write_read_partial :
  forall d tgt data,
  wf_slice data -> room d (3 + Z.of_nat (List.length (els data) * elem_bytes data)) ->
  exists d' a, WriteAccessor d tgt data = Ok (d', zlen (doc_Accessors d)) /\
    nth_error (doc_Accessors d') (List.length (doc_Accessors d)) = Some (Some a) /\
    forall buffer p, (buffer = [] \/ sk data <> SK CUint AMat3) ->
      ReadAccessor d' a buffer p = Ok (mkSlice (read_kind (sk data)) (els data)).
Proof.
  intros d tgt data HW HR. destruct (WriteAccessor_progress d tgt data HW HR) as [d' H].
  pose proof (WriteAccessor_read _ _ _ _ _ H HW) as (c & t & a & Hk & _ & Ha & _ & Hr).
  exists d', a. split; auto. split; auto. intros buffer p Hb. apply Hr.
  destruct Hb as [Hb|Hb]; auto. right. intros [-> ->]. apply Hb.
  destruct (sk data) as [c' t'| | | |]; try discriminate. cbn in Hk.
  destruct (ct_valid c' && at_valid t'); [|discriminate]. congruence.
Qed.
Print Assumptions C08_write_read_partial.

(** The missing case: [3][3]uint32 cannot be read with a reuse buffer. *)
Theorem C08_write_read_refuted :
  exists data d' i a buffer p, wf_slice data /\
    WriteAccessor zero_Document TargetArrayBuffer data = Ok (d', i) /\
    nth_error (doc_Accessors d') 0 = Some (Some a) /\ ReadAccessor d' a buffer p = Panic.
Proof.
  exists s_mat3. do 3 eexists. exists (zeros 64), fresh_pools. split; [apply s_mat3_wf|].
  split; [vm_compute; reflexivity|]. split; [reflexivity|]. vm_compute. reflexivity.
Qed.
Print Assumptions C08_write_read_refuted.

Example C08_example : wf_slice s_rgba /\ room (doc1 5) (3 + Z.of_nat (List.length (els s_rgba) * elem_bytes s_rgba)).
Proof. split; [apply s_rgba_wf|]. vm_compute. discriminate. Qed.
Example C08_example_run :
  match WriteAccessor (doc1 5) TargetArrayBuffer s_rgba with
  | Ok (d', i) => i = 0 /\
      match doc_Accessors d' with
      | [Some a] => ReadAccessor d' a (zeros 3) fresh_pools = Ok (mkSlice (SK CUbyte AVec4) (els s_rgba))
      | _ => False
      end
  | _ => False
  end.
Proof. vm_compute. auto. Qed.

(** ** C09 *)
Theorem C09_append_only :
  forall ops d d', run_ops d ops = Ok d' -> extends d d'.
Proof. exact run_ops_extends. Qed.
Print Assumptions C09_append_only.

(** Any accessor present at some point keeps its place and reads the same
    after any later writes. *)
Theorem C09_reads_stable :
  forall ops d d' i a buffer p s,
  nth_error (doc_Accessors d) i = Some (Some a) -> ReadAccessor d a buffer p = Ok s ->
  run_ops d ops = Ok d' ->
  nth_error (doc_Accessors d') i = Some (Some a) /\ ReadAccessor d' a buffer p = Ok s.
Proof.
  intros ops d d' i a buffer p s Hi Hr H. apply run_ops_extends in H.
  split; [|eapply ReadAccessor_mono; eauto].
  destruct H as ([l ->] & _). rewrite nth_error_app1; auto. apply nth_error_Some. congruence.
Qed.
Print Assumptions C09_reads_stable.

(** Written, then any writes, then read. *)
Theorem C09_write_later_read :
  forall d tgt data d1 i ops d2 buffer p,
  WriteAccessor d tgt data = Ok (d1, i) -> wf_slice data -> run_ops d1 ops = Ok d2 ->
  (buffer = [] \/ sk data <> SK CUint AMat3) ->
  exists k a, i = Z.of_nat k /\ nth_error (doc_Accessors d2) k = Some (Some a) /\
    ReadAccessor d2 a buffer p = Ok (mkSlice (read_kind (sk data)) (els data)).
Proof.
  intros d tgt data d1 i ops d2 buffer p H HW HO Hb.
  pose proof (WriteAccessor_read _ _ _ _ _ H HW) as (c & t & a & Hk & -> & Ha & _ & Hr).
  exists (List.length (doc_Accessors d)), a. split; [reflexivity|].
  eapply C09_reads_stable; eauto. apply Hr.
  destruct Hb as [Hb|Hb]; auto. right. intros [-> ->]. apply Hb.
  destruct (sk data) as [c' t'| | | |]; try discriminate. cbn in Hk.
  destruct (ct_valid c' && at_valid t'); [|discriminate]. congruence.
Qed.
Print Assumptions C09_write_later_read.

Definition ops_example : list wop :=
  [OpPosition (els s_pos); OpImage "logo" "image/png" (Ok (zeros 5)); OpAccessor TargetArrayBuffer s_u8;
   OpInterleaved [s_pos; s_uv]; OpBufferView TargetNone s_u16;
   OpPrimitiveAttributes [mkAttr "POSITION" (Some s_pos); mkAttr "EMPTY" None; mkAttr "COLOR_0" (Some s_rgba)];
   OpInterleaved [s_pos; s_mat3]].
(** All calls run; the last one fails with an error and the sequence goes on. *)
Example C09_example :
  match run_ops (doc1 6) ops_example with
  | Ok d' => List.length (doc_Accessors d') = 6%nat /\ List.length (doc_BufferViews d') = 6%nat
  | _ => False
  end.
Proof. vm_compute. auto. Qed.

(** ** C10 *)
Theorem C10_consistent :
  forall ops d d', consistent d -> run_ops d ops = Ok d' -> consistent d'.
Proof. exact run_ops_consistent. Qed.
Print Assumptions C10_consistent.

Example C10_example : consistent (doc1 6) /\ consistent zero_Document.
Proof.
  split; (split; [|split; [|split]]); try constructor; try constructor.
  eexists. split; reflexivity.
Qed.
(** Consistency is not trivial: a wrong byteLength or a view past the end. *)
Example C10_example_inconsistent :
  ~ consistent (set_doc_Buffers [Some (set_buf_ByteLength 5 zero_Buffer)] zero_Document).
Proof.
  intros (H & _). inversion H as [|? ? (b & E & Hb) _]. injection E as <-. vm_compute in Hb. discriminate.
Qed.

(** ** C11 *)
(** A view created by any call is disjoint from every earlier view. *)
Theorem C11_views_disjoint :
  forall ops d d', consistent d -> run_ops d ops = Ok d' ->
  forall i j v w, (i < j)%nat -> (List.length (doc_BufferViews d) <= j)%nat ->
    nth_error (doc_BufferViews d') i = Some (Some v) ->
    nth_error (doc_BufferViews d') j = Some (Some w) -> disjoint_views v w.
Proof. intros ops d d'. exact (run_ops_disjoint ops d d'). Qed.
Print Assumptions C11_views_disjoint.

(** Views created by the accessor writers start at a multiple of 4, whatever
    was written before and after. *)
Theorem C11_views_aligned_partial :
  forall d op d1 ops d2, run_op d op = Ok d1 -> run_ops d1 ops = Ok d2 -> pads op = true ->
  forall j w, (List.length (doc_BufferViews d) <= j < List.length (doc_BufferViews d1))%nat ->
    nth_error (doc_BufferViews d2) j = Some (Some w) -> bvw_ByteOffset w mod 4 = 0.
Proof.
  intros d op d1 ops d2 H HO HP j w Hj Hw. eapply (run_op_aligned d op d1 H HP j w); [lia|].
  apply run_ops_extends in HO as (_ & [l El] & _). rewrite El, nth_error_app1 in Hw by lia. exact Hw.
Qed.
Print Assumptions C11_views_aligned_partial.

(** Missing: WriteBufferView, WriteBufferViewInterleaved and WriteImage do not
    pad. *)
Theorem C11_views_aligned_refuted :
  (exists d' w, run_ops zero_Document [OpBufferView TargetArrayBuffer (mkSlice (SK CUbyte AScalar) [[1]]);
                                       OpBufferView TargetArrayBuffer s_pos] = Ok d' /\
     nth_error (doc_BufferViews d') 1 = Some (Some w) /\ bvw_ByteOffset w mod 4 <> 0) /\
  (exists d' w, run_ops zero_Document [OpImage "a" "image/png" (Ok (zeros 5)); OpImage "b" "image/png" (Ok (zeros 5))] = Ok d' /\
     nth_error (doc_BufferViews d') 1 = Some (Some w) /\ bvw_ByteOffset w mod 4 <> 0).
Proof.
  split; do 2 eexists; (split; [vm_compute; reflexivity|]); (split; [reflexivity|]); vm_compute; discriminate.
Qed.
Print Assumptions C11_views_aligned_refuted.

(** Accessor offsets: 0 for the single writers; for interleaved data a
    multiple of 4 when every element size is. *)
Theorem C11_accessor_offset_single :
  forall d op d', single op = true -> run_op d op = Ok d' ->
  exists l, doc_Accessors d' = doc_Accessors d ++ map Some l /\ Forall (fun a => acr_ByteOffset a = 0) l.
Proof. exact run_op_offset_0. Qed.
Print Assumptions C11_accessor_offset_single.

Theorem C11_accessor_offset_partial :
  forall d data d' idx,
  WriteAccessorsInterleaved d data = Ok (d', Ok idx) ->
  Forall (fun s => (elem_bytes s mod 4 = 0)%nat) data ->
  forall i a, (List.length (doc_Accessors d) <= i)%nat ->
    nth_error (doc_Accessors d') i = Some (Some a) -> acr_ByteOffset a mod 4 = 0.
Proof. exact interleaved_offsets. Qed.
Print Assumptions C11_accessor_offset_partial.

(** A uint32 after a uint16 lands on an offset that is not a multiple of 4. *)
Theorem C11_accessor_offset_refuted :
  exists d' idx a, WriteAccessorsInterleaved zero_Document
      [s_u16; mkSlice (SK CUint AVec2) [[4; 5]; [6; 7]]] = Ok (d', Ok idx) /\
    nth_error (doc_Accessors d') 1 = Some (Some a) /\ acr_ComponentType a = CUint /\ acr_ByteOffset a mod 4 <> 0.
Proof.
  do 3 eexists. split; [vm_compute; reflexivity|]. split; [reflexivity|]. split; [reflexivity|]. vm_compute. discriminate.
Qed.
Print Assumptions C11_accessor_offset_refuted.

Example C11_example :
  match run_ops (doc1 6) ops_example with
  | Ok d' => map (option_map (fun v => (bvw_ByteOffset v, bvw_ByteLength v))) (doc_BufferViews d') =
      [Some (8, 24); Some (32, 5); Some (40, 2); Some (44, 32); Some (76, 4); Some (80, 32)]
  | _ => False
  end.
Proof. vm_compute. reflexivity. Qed.
Example C11_example_sizes : Forall (fun s => (elem_bytes s mod 4 = 0)%nat) [s_pos; s_rgba; s_mat3].
Proof. repeat constructor. Qed.

(** ** C12 *)
Theorem C12_interleaved_read_partial :
  forall d data d' idx,
  WriteAccessorsInterleaved d data = Ok (d', Ok idx) ->
  Forall wf_slice data ->
  (2 <= List.length data -> Forall (fun s => ~ byte_scalar (sk s)) data)%nat ->
  List.length idx = List.length data /\
  forall k s, nth_error data k = Some s -> exists c t a,
    kind_ct (sk s) = Some (c, t) /\
    nth_error idx k = Some (Z.of_nat (List.length (doc_Accessors d) + k)) /\
    nth_error (doc_Accessors d') (List.length (doc_Accessors d) + k) = Some (Some a) /\
    forall buffer p, (buffer = [] \/ ~ (c = CUint /\ t = AMat3)) ->
      ReadAccessor d' a buffer p = Ok (mkSlice (read_kind (sk s)) (els s)).
Proof.
  intros d data d' idx H HW HB. destruct (WriteAccessorsInterleaved_read _ _ _ _ H HW HB) as [HL HR].
  split; auto. intros k s Hk. destruct (HR k s Hk) as (c & t & a & H1 & H2 & H3 & _ & H4).
  exists c, t, a. auto.
Qed.
Print Assumptions C12_interleaved_read_partial.

(** Such calls succeed. *)
Theorem C12_interleaved_succeeds :
  forall d data s,
  hd_error data = Some s -> Forall wf_slice data -> same_length data ->
  (List.length data = 1%nat \/ els s <> [] /\ Forall (fun s => sk s <> SK CUbyte AScalar) data) ->
  room d (3 + Z.of_nat (List.length (els s) * sum_sizes data)) ->
  exists d' idx, WriteAccessorsInterleaved d data = Ok (d', Ok idx).
Proof. exact WriteAccessorsInterleaved_progress. Qed.
Print Assumptions C12_interleaved_succeeds.

(** Missing: []uint8 (and []int8) among the data. *)
Theorem C12_interleaved_read_refuted :
  exists data d' idx a s, Forall wf_slice data /\ same_length data /\
    WriteAccessorsInterleaved zero_Document data = Ok (d', Ok idx) /\
    nth_error data 0 = Some s /\ nth_error (doc_Accessors d') 0 = Some (Some a) /\
    ReadAccessor d' a [] fresh_pools <> Ok s.
Proof.
  exists [s_u8; s_u16]. do 4 eexists.
  split; [repeat constructor; [apply s_u8_wf|apply s_u16_wf]|].
  split; [intros x y [<-|[<-|[]]] [<-|[<-|[]]]; reflexivity|].
  split; [vm_compute; reflexivity|]. split; [reflexivity|]. split; [reflexivity|].
  vm_compute. discriminate.
Qed.
Print Assumptions C12_interleaved_read_refuted.

Example C12_example :
  Forall wf_slice [s_pos; s_uv; s_rgba] /\ same_length [s_pos; s_uv; s_rgba] /\
  Forall (fun s => ~ byte_scalar (sk s)) [s_pos; s_uv; s_rgba] /\
  exists d' idx, WriteAccessorsInterleaved (doc1 5) [s_pos; s_uv; s_rgba] = Ok (d', Ok idx).
Proof.
  split; [repeat constructor; [apply s_pos_wf|apply s_uv_wf|apply s_rgba_wf]|].
  split; [intros x y [<-|[<-|[<-|[]]]] [<-|[<-|[<-|[]]]]; reflexivity|].
  split; [repeat constructor; intros [[=]|[=]]|].
  do 2 eexists. vm_compute. reflexivity.
Qed.

(** ** C13 *)
(** WriteBufferViewInterleaved: error exactly for different lengths, and then
    the document is the same. *)
Theorem C13_view_error :
  forall d data, Forall supported data ->
  (~ same_length data -> exists e, WriteBufferViewInterleaved d data = Ok (d, Err e)) /\
  (forall d' e, WriteBufferViewInterleaved d data = Ok (d', Err e) -> ~ same_length data /\ d' = d).
Proof.
  intros d data HS. split.
  - intros HN. eexists. apply WriteBufferViewInterleaved_fail; auto.
  - intros d' e. apply WriteBufferViewInterleaved_err. exact HS.
Qed.
Print Assumptions C13_view_error.

(** The other two: error exactly for different lengths (or a type not allowed
    for the attribute); accessors, views and images are the same, but the last
    buffer may have been padded. *)
Theorem C13_accessors_error_partial :
  forall d data, Forall supported data ->
  (~ same_length data -> room d 3 ->
     exists d' e, WriteAccessorsInterleaved d data = Ok (d', Err e) /\ only_buffers d d') /\
  (forall d' e, WriteAccessorsInterleaved d data = Ok (d', Err e) -> ~ same_length data /\ only_buffers d d').
Proof.
  intros d data HS. split.
  - intros HN HR. destruct (WriteAccessorsInterleaved_fail d data HS HN HR) as (d' & H1 & H2). eauto.
  - intros d' e. apply WriteAccessorsInterleaved_err. exact HS.
Qed.
Print Assumptions C13_accessors_error_partial.

Theorem C13_attributes_error_partial :
  forall d attr, Forall (fun a => forall s, attr_Data a = Some s -> supported s) attr ->
  (~ same_length (flat_map data_of (kept attr)) -> room d 3 ->
     exists d' e, WritePrimitiveAttributes d attr = Ok (d', Err e) /\ only_buffers d d') /\
  (forall d' e, WritePrimitiveAttributes d attr = Ok (d', Err e) ->
     only_buffers d d' /\
     (~ same_length (flat_map data_of (kept attr)) \/
      d' = d /\ exists a s, In a (kept attr) /\ attr_Data a = Some s /\ ~ attr_permitted (attr_Name a) (sk s))).
Proof.
  intros d attr HS. split.
  - intros HN HR. apply WritePrimitiveAttributes_fail; auto.
  - intros d' e H. eapply WritePrimitiveAttributes_err; eauto.
Qed.
Print Assumptions C13_attributes_error_partial.

(** A failing call leaves padding bytes behind (or a new buffer). *)
Theorem C13_unchanged_refuted :
  (exists data d' e, Forall supported data /\
     WriteAccessorsInterleaved (doc1 5) data = Ok (d', Err e) /\ d' <> doc1 5) /\
  (exists attr d' e, WritePrimitiveAttributes zero_Document attr = Ok (d', Err e) /\ d' <> zero_Document).
Proof.
  split.
  - exists [s_pos; s_mat3]. do 2 eexists. split.
    { repeat constructor; [exists CFloat, AVec3|exists CUint, AMat3]; reflexivity. }
    split; [vm_compute; reflexivity|]. intros H. apply (f_equal doc_Buffers) in H. vm_compute in H. discriminate.
  - exists [mkAttr "A" (Some s_pos); mkAttr "B" (Some s_mat3)]. do 2 eexists.
    split; [vm_compute; reflexivity|]. intros H. apply (f_equal doc_Buffers) in H. vm_compute in H. discriminate.
Qed.
Print Assumptions C13_unchanged_refuted.

(** Interleaving two empty slices (equal lengths) panics. *)
Theorem C13_empty_refuted :
  forall d s1 s2 data, els s1 = [] ->
  forall r, WriteBufferViewInterleaved d (s1 :: s2 :: data) = Ok r -> exists d' e, r = (d', Err e).
Proof.
  intros d s1 s2 data H1 [d' r] H.
  apply writeBufferViews_inv in H as [(e & -> & _)|H]; [eauto|].
  destruct H as (pre & b & st & sz & written & b' & _ & HV & _ & H0 & _ & HD & _). exfalso.
  apply view_loop_sized in HV; [|discriminate]. destruct HV as (st' & e & n & -> & Hsz & ->).
  pose proof (sized_nth _ _ _ _ 0%nat s1 Hsz eq_refl) as (c & t & _ & Hn & _). rewrite H1 in Hn. cbn in Hn. subst n.
  cbn [Nat.mul Z.of_nat Z.to_nat zeros repeat] in HD. unfold zeros in HD. cbn [repeat] in HD. rewrite app_nil_r in HD.
  eapply write_data_loop_empty; eauto.
Qed.
Print Assumptions C13_empty_refuted.
Example C13_empty_example :
  WriteBufferViewInterleaved zero_Document [mkSlice (SK CFloat AVec3) []; mkSlice (SK CFloat AVec2) []] = Panic.
Proof. vm_compute. reflexivity. Qed.

Example C13_example : Forall supported [s_pos; s_mat3] /\ ~ same_length [s_pos; s_mat3] /\ room (doc1 5) 3.
Proof.
  split; [repeat constructor; [exists CFloat, AVec3|exists CUint, AMat3]; reflexivity|].
  split; [|vm_compute; discriminate].
  intros H. specialize (H s_pos s_mat3 (or_introl eq_refl) (or_intror (or_introl eq_refl))). vm_compute in H. discriminate.
Qed.

(** ** C14 *)
(** [kept attr] are the attributes with non-empty data, in order. *)
Theorem C14_attributes_partial :
  forall d attr d' m,
  WritePrimitiveAttributes d attr = Ok (d', Ok m) ->
  NoDup (map attr_Name (kept attr)) ->
  (* exactly the names with data, mapped to fresh accessors in order *)
  (forall name i, map_get name m = Some i <->
     exists k a, nth_error (kept attr) k = Some a /\ attr_Name a = name /\
                 i = zlen (doc_Accessors d) + Z.of_nat k) /\
  (* each of which holds the data and has the flag *)
  forall k a, nth_error (kept attr) k = Some a ->
    exists s acc, attr_Data a = Some s /\
      nth_error (doc_Accessors d') (List.length (doc_Accessors d) + k) = Some (Some acc) /\
      acr_Normalized acc = normalized_name (attr_Name a) && integer_kind (sk s) /\
      (Forall wf_slice (flat_map data_of (kept attr)) ->
       (2 <= List.length (kept attr) -> Forall (fun s => ~ byte_scalar (sk s)) (flat_map data_of (kept attr)))%nat ->
       forall c t buffer p, kind_ct (sk s) = Some (c, t) -> (buffer = [] \/ ~ (c = CUint /\ t = AMat3)) ->
         ReadAccessor d' acc buffer p = Ok (mkSlice (read_kind (sk s)) (els s))).
Proof.
  intros d attr d' m H ND. destruct (WritePrimitiveAttributes_spec _ _ _ _ H ND) as [H1 H2].
  split; [exact H1|]. intros k a Hk. destruct (H2 k a Hk) as (s & acc & Hs & _ & Ha & Hn & _ & _ & Hr).
  exists s, acc. rewrite Hn, flagged_spec. auto.
Qed.
Print Assumptions C14_attributes_partial.

Theorem C14_attributes_succeeds :
  forall d attr s,
  hd_error (flat_map data_of (kept attr)) = Some s ->
  Forall (fun a => forall s, attr_Data a = Some s -> wf_slice s) attr ->
  Forall (fun a => forall s, attr_Data a = Some s -> attr_permitted (attr_Name a) (sk s)) (kept attr) ->
  same_length (flat_map data_of (kept attr)) ->
  Forall (fun s => sk s <> SK CUbyte AScalar) (flat_map data_of (kept attr)) ->
  room d (3 + Z.of_nat (List.length (els s) * sum_sizes (flat_map data_of (kept attr)))) ->
  exists d' m, WritePrimitiveAttributes d attr = Ok (d', Ok m).
Proof. exact WritePrimitiveAttributes_progress. Qed.
Print Assumptions C14_attributes_succeeds.

(** Missing: only the listed names are flagged, not TEXCOORD_2, COLOR_1 ... *)
Theorem C14_normalized_refuted :
  exists d' m acc1 acc2,
    WritePrimitiveAttributes zero_Document
      [mkAttr "TEXCOORD_2" (Some s_uv); mkAttr "COLOR_1" (Some s_rgba)] = Ok (d', Ok m) /\
    map_get "TEXCOORD_2" m = Some 0 /\ map_get "COLOR_1" m = Some 1 /\
    doc_Accessors d' = [Some acc1; Some acc2] /\
    acr_Normalized acc1 = false /\ acr_Normalized acc2 = false.
Proof. do 4 eexists. split; [vm_compute; reflexivity|]. repeat split. Qed.
Print Assumptions C14_normalized_refuted.

Definition attrs_example : list PrimitiveAttribute :=
  [mkAttr "POSITION" (Some s_pos); mkAttr "X" (Some (mkSlice (SK CFloat AVec3) [])); mkAttr "Y" None;
   mkAttr "TEXCOORD_0" (Some s_uv); mkAttr "COLOR_0" (Some s_rgba)].
Example C14_example :
  match WritePrimitiveAttributes (doc1 6) attrs_example with
  | Ok (d', Ok m) => m = [("COLOR_0", 2); ("POSITION", 0); ("TEXCOORD_0", 1)]%string /\
      map (option_map acr_Normalized) (doc_Accessors d') = [Some false; Some true; Some true]
  | _ => False
  end.
Proof. vm_compute. auto. Qed.
Example C14_example_nodup : NoDup (map attr_Name (kept attrs_example)).
Proof. vm_compute. repeat constructor; cbn; intuition discriminate. Qed.

(** ** C15 *)
(** [tight data mn mx]: per component, the bounds are attained by vertices of
    the data and bound all of them (in the order of the float32 values, see
    [C15_exact_order]). *)
Definition tight (data : list elem) (mn mx : list Z) : Prop :=
  List.length mn = 3%nat /\ List.length mx = 3%nat /\
  forall j, (j < 3)%nat ->
    (exists v, In v data /\ nth j mn 0 = f64_of_f32 (nth j v 0)) /\
    (exists v, In v data /\ nth j mx 0 = f64_of_f32 (nth j v 0)) /\
    (forall v, In v data -> f64_le (nth j mn 0) (f64_of_f32 (nth j v 0)) = true /\
                            f64_le (f64_of_f32 (nth j v 0)) (nth j mx 0) = true).

Theorem C15_position_bounds :
  forall d data d' i,
  WritePosition d data = Ok (d', i) ->
  data <> [] -> Forall (wf_elem CFloat AVec3) data ->
  Forall (Forall (fun x => f32_finite x = true)) data ->
  exists a, nth_error (doc_Accessors d') (List.length (doc_Accessors d)) = Some (Some a) /\
    i = zlen (doc_Accessors d) /\ tight data (acr_Min a) (acr_Max a).
Proof.
  intros d data d' i H Hne HW HF. apply WritePosition_bounds in H as (a & Ha & Hi & HM).
  exists a. split; auto. split; auto. symmetry in HM. exact (minMax_spec data _ _ Hne HW HF HM).
Qed.
Print Assumptions C15_position_bounds.

Theorem C15_attribute_bounds :
  forall d attr d' m s,
  WritePrimitiveAttributes d attr = Ok (d', Ok m) ->
  NoDup (map attr_Name (kept attr)) ->
  In (mkAttr "POSITION" (Some s)) attr -> els s <> [] ->
  Forall (wf_elem CFloat AVec3) (els s) -> Forall (Forall (fun x => f32_finite x = true)) (els s) ->
  exists k a, map_get "POSITION" m = Some (Z.of_nat k) /\
    nth_error (doc_Accessors d') k = Some (Some a) /\ tight (els s) (acr_Min a) (acr_Max a).
Proof.
  intros d attr d' m s H ND Hin Hne HW HF. destruct (WritePrimitiveAttributes_spec _ _ _ _ H ND) as [H1 H2].
  assert (Hk : In (mkAttr "POSITION" (Some s)) (kept attr)).
  { unfold kept. apply filter_In. split; auto. cbn. destruct (els s); [congruence|reflexivity]. }
  apply In_nth_error in Hk as [k Hk].
  destruct (H2 k _ Hk) as (s' & a & [= <-] & _ & Ha & _ & _ & HM & _).
  exists (List.length (doc_Accessors d) + k)%nat, a. split; [|split; auto].
  - apply H1. exists k, (mkAttr "POSITION" (Some s)). split; auto. split; auto. unfold zlen. lia.
  - specialize (HM eq_refl). symmetry in HM. exact (minMax_spec _ _ _ Hne HW HF HM).
Qed.
Print Assumptions C15_attribute_bounds.

(** Widening to float64 preserves the order, so bounds of the widened values
    are bounds of the float32 values. *)
Theorem C15_exact_order :
  forall x y, 0 <= x < 2 ^ 32 -> 0 <= y < 2 ^ 32 -> f32_finite x = true -> f32_finite y = true ->
  (f64_le (f64_of_f32 x) (f64_of_f32 y) = true <-> f32_key x <= f32_key y).
Proof.
  intros x y Hx Hy Fx Fy. unfold f64_le.
  rewrite !f64_finite_not_nan by (eapply f64_of_f32_finite; auto). cbn [negb andb].
  rewrite Z.leb_le. apply f64_of_f32_order; auto.
Qed.
Print Assumptions C15_exact_order.

Example C15_example :
  match WritePosition (doc1 6) (els s_pos) with
  | Ok (d', i) => map (option_map (fun a => (acr_Min a, acr_Max a))) (doc_Accessors d') =
      [Some ([0x3ff0000000000000; 0x8000000000000000; 0xbff0000000000000],
             [0x4000000000000000; 0; 0])]
  | _ => False
  end.
Proof. vm_compute. reflexivity. Qed.
Example C15_example_hyp :
  els s_pos <> [] /\ Forall (wf_elem CFloat AVec3) (els s_pos) /\
  Forall (Forall (fun x => f32_finite x = true)) (els s_pos).
Proof. split; [discriminate|]. split; wf_tac. Qed.
