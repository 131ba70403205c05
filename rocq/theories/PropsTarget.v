(** Targets of buffer views (C57) and typed writers against typed readers (C59). *)
From Verif Require Import BaseFacts Types Binary SpecLayout BinaryProofs SliceProofs Doc F64 SpecDoc SpecTarget
  ModelerWrite ModelerRead ModelerWriteProofs ModelerReadProofs ModelerLayoutProofs ModelerShapeProofs ModelerAttrProofs ModelerReadSpecProofs
  ModelerTargetProofs PropsModelerWrite.

(** ** C57 *)
(** What each writer appends, and that it is still there after any later
    writes: at most one view; it carries the target of the data's role;
    the appended accessors all use it. *)
Theorem C57_targets :
  forall d op d1 ops d2, run_op d op = Ok d1 -> run_ops d1 ops = Ok d2 ->
  (forall j v, (List.length (doc_BufferViews d) <= j < List.length (doc_BufferViews d1))%nat ->
     nth_error (doc_BufferViews d2) j = Some (Some v) ->
     bvw_Target v =
       match op with
       | OpIndices _ => role_target RoleIndices
       | OpImage _ _ _ => role_target RoleOther
       | OpAccessor t _ | OpBufferView t _ => t
       | _ => role_target RoleVertices
       end) /\
  (forall k a, (List.length (doc_Accessors d) <= k < List.length (doc_Accessors d1))%nat ->
     nth_error (doc_Accessors d2) k = Some (Some a) ->
     acr_BufferView a = Some (zlen (doc_BufferViews d)) /\
     (List.length (doc_BufferViews d1) = List.length (doc_BufferViews d) + 1)%nat).
Proof.
  intros d op d1 ops d2 H HO. destruct (run_op_adds d op d1 H) as (vs & accs & E1 & E2 & E3 & E4 & E5).
  apply run_ops_extends in HO as ([la Ea] & [lv Ev] & _). split.
  - intros j v Hj Hv. rewrite Ev, nth_error_app1, E1, nth_error_app2, nth_error_map in Hv by lia.
    destruct (nth_error vs (j - List.length (doc_BufferViews d))) as [w|] eqn:E; [|discriminate]. injection Hv as ->.
    rewrite Forall_forall in E4. destruct (E4 v (nth_error_In _ _ E)) as [-> _]. destruct op; reflexivity.
  - intros k a Hk Ha. rewrite Ea, nth_error_app1, E2, nth_error_app2, nth_error_map in Ha by lia.
    destruct (nth_error accs (k - List.length (doc_Accessors d))) as [w|] eqn:E; [|discriminate]. injection Ha as ->.
    rewrite Forall_forall in E5. destruct (E5 a (nth_error_In _ _ E)) as [-> L]. split; [reflexivity|].
    rewrite E1, app_length, map_length, L. reflexivity.
Qed.
Print Assumptions C57_targets.
(** A byteStride is set on vertex data only (bufferView.byteStride). *)
Theorem C57_stride :
  forall d op d1 ops d2, run_op d op = Ok d1 -> run_ops d1 ops = Ok d2 ->
  forall j v, (List.length (doc_BufferViews d) <= j < List.length (doc_BufferViews d1))%nat ->
     nth_error (doc_BufferViews d2) j = Some (Some v) -> bvw_ByteStride v <> 0 -> bvw_Target v = role_target RoleVertices.
Proof.
  intros d op d1 ops d2 H HO j v Hj Hv HS. destruct (run_op_adds d op d1 H) as (vs & accs & E1 & _ & _ & E4 & _).
  apply run_ops_extends in HO as (_ & [lv Ev] & _). rewrite Ev, nth_error_app1, E1, nth_error_app2, nth_error_map in Hv by lia.
  destruct (nth_error vs (j - List.length (doc_BufferViews d))) as [w|] eqn:E; [|discriminate]. injection Hv as ->.
  rewrite Forall_forall in E4. destruct (E4 v (nth_error_In _ _ E)) as [E6 E7]. cbn [role_target].
  destruct (Z.eq_dec (op_target op) 34962) as [T|N]; [rewrite E6; exact T|]. rewrite E7 in HS by exact N. contradiction.
Qed.
Print Assumptions C57_stride.
Example C57_example :
  match run_ops (doc1 6) [OpIndices s_u16; OpPosition [[0; 0; 0]]; OpImage "i" "image/png" (Ok (zeros 3)); OpPrimitiveAttributes [mkAttr "POSITION" (Some (mkSlice (SK CFloat AVec3) [[0; 0; 0]])); mkAttr "TEXCOORD_0" (Some (mkSlice (SK CUbyte AVec2) [[1; 2]]))]] with
  | Ok d' => map (option_map (fun v => (bvw_Target v, bvw_ByteStride v))) (doc_BufferViews d') = [Some (34963, 0); Some (34962, 0); Some (0, 0); Some (34962, 16)] /\
      map (option_map acr_BufferView) (doc_Accessors d') = [Some (Some 0); Some (Some 1); Some (Some 3); Some (Some 3)]
  | _ => False
  end.
Proof. vm_compute. split; reflexivity. Qed.

(** ** C59 *)
(** [read] of the accessor number [i] of [d] gives [r], for all reuse buffers,
    pooled buffers and pool contents (a reuse buffer together with no data is
    the known exception, C21). *)
Definition reads_back {A} (read : Document -> Accessor -> list A -> bytes -> pools -> res (list A)) (d : Document) (i : Z) (r : list A) : Prop :=
  exists k a, i = Z.of_nat k /\ nth_error (doc_Accessors d) k = Some (Some a) /\
    forall buffer pool p, r <> [] \/ buffer = [] -> read d a buffer pool p = Ok r.
Definition float_vectors (t : AccessorType) (data : list elem) : Prop := wf_slice (mkSlice (SK CFloat t) data).

Lemma reads_back_map {A} (read : Document -> Accessor -> list A -> bytes -> pools -> res (list A)) fmt (f : elem -> A) d i data c t :
  typed_by read fmt -> holds d i data -> kind_ct (sk data) = Some (c, t) -> fmt c t = Some f -> ~ (c = CUint /\ t = AMat3) ->
  reads_back read d i (map f (els data)).
Proof.
  intros H1 H2 H3 H4 H5. destruct (holds_typed read fmt f d i data c t H1 H2 H3 H4 H5) as (k & a & E1 & E2 & E3).
  exists k, a. split; [exact E1|]. split; [exact E2|]. intros buffer pool p Hb. apply E3. destruct Hb as [Hb|Hb]; [left|right; exact Hb].
  intros E. apply Hb. rewrite E. reflexivity.
Qed.
Lemma ident_map (l : list elem) : map ident l = l.
Proof. apply map_id. Qed.

Theorem C59_vectors :
  forall d data d1 i ops d2, run_ops d1 ops = Ok d2 ->
  (WritePosition d data = Ok (d1, i) -> float_vectors AVec3 data -> reads_back ReadPosition d2 i data) /\
  (WriteNormal d data = Ok (d1, i) -> float_vectors AVec3 data -> reads_back ReadNormal d2 i data) /\
  (WriteTangent d data = Ok (d1, i) -> float_vectors AVec4 data -> reads_back ReadTangent d2 i data) /\
  (WriteInverseBindMatrices d data = Ok (d1, i) -> float_vectors AMat4 data -> reads_back ReadInverseBindMatrices d2 i data).
Proof.
  intros d data d1 i ops d2 HO.
  assert (G : forall read t, typed_by read (fmt_one CFloat t) -> at_valid t = true -> at_eqb t t = true ->
    holds d1 i (mkSlice (SK CFloat t) data) -> reads_back read d2 i data).
  { intros read t HT V R HH. rewrite <- (ident_map data). eapply (reads_back_map read _ ident d2 i (mkSlice (SK CFloat t) data) CFloat t HT).
    - eapply holds_later; eauto.
    - cbn [sk kind_ct]. cbn [ct_valid andb]. rewrite V. reflexivity.
    - unfold fmt_one. cbn [ct_eqb]. rewrite R. reflexivity.
    - intros [E _]. discriminate. }
  split; [|split; [|split]]; intros H W.
  - eapply (G _ AVec3 ReadPosition_by); [reflexivity..|]. eapply WritePosition_holds; eauto.
  - eapply (G _ AVec3 ReadNormal_by); [reflexivity..|]. eapply WriteAccessor_holds; eauto.
  - eapply (G _ AVec4 ReadTangent_by); [reflexivity..|]. eapply WriteAccessor_holds; eauto.
  - eapply (G _ AMat4 ReadInverseBindMatrices_by); [reflexivity..|]. eapply WriteAccessor_holds; eauto.
Qed.
Print Assumptions C59_vectors.

Theorem C59_indices :
  forall d data d1 i ops d2, WriteIndices d data = Ok (d1, i) -> run_ops d1 ops = Ok d2 -> wf_slice data ->
  exists r, els data = map (fun x => [x]) r /\ reads_back ReadIndices d2 i r.
Proof.
  intros d data d1 i ops d2 H HO W. exists (map scalar (els data)).
  assert (K : exists c, sk data = SK c AScalar /\ In c [CUshort; CUint] /\ WriteAccessor d TargetElementArrayBuffer data = Ok (d1, i)).
  { unfold WriteIndices in H. destruct (sk data) as [[] []| | | |]; try discriminate; eexists; (split; [reflexivity|]); split; cbn; auto. }
  destruct K as (c & K1 & K2 & K3). split.
  - destruct W as (c' & t' & Hk & HW). rewrite K1 in Hk.
    assert (t' = AScalar) as -> by (destruct K2 as [<-|[<-|[]]]; cbn in Hk; injection Hk as <- <-; reflexivity).
    rewrite map_map. clear -HW. induction HW as [|v l [Hv _] _ IH]; [reflexivity|]. cbn [map]. rewrite <- IH.
    destruct v as [|x [|y v]]; try discriminate. reflexivity.
  - eapply (reads_back_map _ fmt_indices scalar d2 i data c AScalar ReadIndices_by).
    + eapply holds_later; [eapply WriteAccessor_holds; eauto|exact HO].
    + rewrite K1. destruct K2 as [<-|[<-|[]]]; reflexivity.
    + destruct K2 as [<-|[<-|[]]]; reflexivity.
    + intros [_ E]. discriminate.
Qed.
Print Assumptions C59_indices.

Theorem C59_joints :
  forall d data d1 i ops d2, WriteJoints d data = Ok (d1, i) -> run_ops d1 ops = Ok d2 -> wf_slice data ->
  reads_back ReadJoints d2 i (els data).
Proof.
  intros d data d1 i ops d2 H HO W. unfold WriteJoints in H. inv_ok H. rewrite <- (ident_map (els data)).
  assert (K : exists c, sk data = SK c AVec4 /\ In c [CUbyte; CUshort]).
  { unfold checkJoints in Hx. destruct (sk data) as [[] []| | | |]; try discriminate; eexists; (split; [reflexivity|]); cbn; auto. }
  destruct K as (c & K1 & K2).
  eapply (reads_back_map _ fmt_joints ident d2 i data c AVec4 ReadJoints_by).
  - eapply holds_later; [eapply WriteAccessor_holds; eauto|exact HO].
  - rewrite K1. destruct K2 as [<-|[<-|[]]]; reflexivity.
  - destruct K2 as [<-|[<-|[]]]; reflexivity.
  - intros [_ E]. discriminate.
Qed.
Print Assumptions C59_joints.

(** Texture coordinates and weights: float data unchanged, integer data each
    through the denormalization of its width. *)
Theorem C59_normalized :
  forall cv d data d1 i ops d2, run_ops d1 ops = Ok d2 -> wf_slice data ->
  let value (x : elem) := match sk data with
    | SK CUbyte _ => map (cv_DenormalizeUbyte cv) x
    | SK CUshort _ => map (cv_DenormalizeUshort cv) x
    | _ => x
    end in
  (WriteTextureCoord d data = Ok (d1, i) -> reads_back (ReadTextureCoord cv) d2 i (map value (els data))) /\
  (WriteWeights d data = Ok (d1, i) -> reads_back (ReadWeights cv) d2 i (map value (els data))).
Proof.
  intros cv d data d1 i ops d2 HO W value.
  assert (G : forall read t c, typed_by read (fmt_norm cv t) -> In t [AVec2; AVec4] -> In c [CUbyte; CUshort; CFloat] -> sk data = SK c t ->
    holds d1 i data -> reads_back read d2 i (map value (els data))).
  { intros read t c HT It Ic K HH. eapply (reads_back_map read _ value d2 i data c t HT).
    - eapply holds_later; eauto.
    - rewrite K. destruct Ic as [<-|[<-|[<-|[]]]]; destruct It as [<-|[<-|[]]]; reflexivity.
    - unfold value. rewrite K. destruct Ic as [<-|[<-|[<-|[]]]]; destruct It as [<-|[<-|[]]]; reflexivity.
    - intros [_ ->]. destruct It as [It|[It|[]]]; discriminate. }
  split; intros H; pose proof (write_normalized_holds _ _ _ _ _ H W) as HH; unfold WriteTextureCoord, WriteWeights, write_normalized in H; inv_ok H; clear H.
  - unfold checkTextureCoord in Hx.
    assert (K : exists c, sk data = SK c AVec2 /\ In c [CUbyte; CUshort; CFloat]).
    { destruct (sk data) as [[] []| | | |]; try discriminate; eexists; (split; [reflexivity|]); cbn; auto. }
    destruct K as (c & K1 & K2). eapply (G _ AVec2 c (ReadTextureCoord_by cv)); eauto. cbn; auto.
  - unfold checkWeights in Hx.
    assert (K : exists c, sk data = SK c AVec4 /\ In c [CUbyte; CUshort; CFloat]).
    { destruct (sk data) as [[] []| | | |]; try discriminate; eexists; (split; [reflexivity|]); cbn; auto. }
    destruct K as (c & K1 & K2). eapply (G _ AVec4 c (ReadWeights_by cv)); eauto. cbn; auto.
Qed.
Print Assumptions C59_normalized.

(** Colors: 8-bit colors through ReadColor, 16-bit colors through ReadColor64,
    with an opaque alpha for RGB. *)
Theorem C59_colors :
  forall cv d data d1 i ops d2, WriteColor d data = Ok (d1, i) -> run_ops d1 ops = Ok d2 -> wf_slice data ->
  (In (sk data) [SRGBA; SK CUbyte AVec4] -> reads_back (ReadColor cv) d2 i (els data)) /\
  (sk data = SK CUbyte AVec3 -> reads_back (ReadColor cv) d2 i (map (fun v => v ++ [255]) (els data))) /\
  (In (sk data) [SRGBA64; SK CUshort AVec4] -> reads_back (ReadColor64 cv) d2 i (els data)) /\
  (sk data = SK CUshort AVec3 -> reads_back (ReadColor64 cv) d2 i (map (fun v => v ++ [65535]) (els data))).
Proof.
  intros cv d data d1 i ops d2 H HO W. pose proof (write_normalized_holds _ _ _ _ _ H W) as HH. pose proof (holds_later _ _ _ _ _ HH HO) as HL.
  split; [|split; [|split]]; intros K.
  - rewrite <- (ident_map (els data)). eapply (reads_back_map _ _ ident d2 i data CUbyte AVec4 (ReadColor_by cv) HL); [destruct K as [<-|[<-|[]]]; reflexivity|reflexivity|intros [E _]; discriminate].
  - eapply (reads_back_map _ _ _ d2 i data CUbyte AVec3 (ReadColor_by cv) HL); [rewrite K; reflexivity|reflexivity|intros [E _]; discriminate].
  - rewrite <- (ident_map (els data)). eapply (reads_back_map _ _ ident d2 i data CUshort AVec4 (ReadColor64_by cv) HL); [destruct K as [<-|[<-|[]]]; reflexivity|reflexivity|intros [E _]; discriminate].
  - eapply (reads_back_map _ _ _ d2 i data CUshort AVec3 (ReadColor64_by cv) HL); [rewrite K; reflexivity|reflexivity|intros [E _]; discriminate].
Qed.
Print Assumptions C59_colors.
Example C59_example :
  match WritePosition (doc1 6) [[1; 2; 3]; [4; 5; 6]] with
  | Ok (d1, i) => match WriteIndices d1 s_u16 with
    | Ok (d2, j) => reads_back ReadPosition d2 i [[1; 2; 3]; [4; 5; 6]] /\ i = 0 /\ j = 1
    | _ => False end
  | _ => False end.
Proof.
  destruct (WritePosition (doc1 6) [[1; 2; 3]; [4; 5; 6]]) as [[d1 i]| |] eqn:E1; [|vm_compute in E1; discriminate..].
  destruct (WriteIndices d1 s_u16) as [[d2 j]| |] eqn:E2.
  - split.
    + refine (proj1 (C59_vectors (doc1 6) [[1; 2; 3]; [4; 5; 6]] d1 i [OpIndices s_u16] d2 _) E1 _); [cbn [run_ops run_op]; rewrite E2; reflexivity|].
      exists CFloat, AVec3. split; [reflexivity|]. repeat constructor; discriminate || reflexivity.
    + vm_compute in E1. injection E1 as <- <-. split; [reflexivity|]. vm_compute in E2. injection E2 as _ <-. reflexivity.
  - vm_compute in E1. injection E1 as <- <-. vm_compute in E2. discriminate.
  - vm_compute in E1. injection E1 as <- <-. vm_compute in E2. discriminate.
Qed.
