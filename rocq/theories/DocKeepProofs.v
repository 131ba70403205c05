(** What is read back of any document.  GENERATED by tools/gen_keep.py; do
    not edit. *)
From Verif Require Import Base BaseFacts Types Doc F64 SpecText JsonText Codec DocCodec SpecJson SpecJsonDoc CodecProofs DocCodecBase DocCodecProofs
  CodecInv SpecGo SpecGoDoc SpecKeep SpecKeepDoc KeepProofs.

(** The values that encode and whose encoding is read without error, with
    extensions and extras nested at most [n] deep. *)
Section Fit.
Context (X : ext_lib) (rep : string -> string).

Definition fit_Asset (n : nat) (x : Asset) : Prop :=
  fit_ext X rep n (ast_Extensions x) /\
  fit_any n (ast_Extras x).

Definition fit_SparseValues (n : nat) (x : SparseValues) : Prop :=
  fit_ext X rep n (spv_Extensions x) /\
  fit_any n (spv_Extras x) /\
  in_i64 (spv_BufferView x) /\
  in_i64 (spv_ByteOffset x).

Definition fit_SparseIndices (n : nat) (x : SparseIndices) : Prop :=
  fit_ext X rep n (spi_Extensions x) /\
  fit_any n (spi_Extras x) /\
  in_i64 (spi_BufferView x) /\
  in_i64 (spi_ByteOffset x).

Definition fit_Sparse (n : nat) (x : Sparse) : Prop :=
  fit_ext X rep n (spa_Extensions x) /\
  fit_any n (spa_Extras x) /\
  in_i64 (spa_Count x) /\
  (fit_SparseIndices n) (spa_Indices x) /\
  (fit_SparseValues n) (spa_Values x).

Definition fit_Accessor (n : nat) (x : Accessor) : Prop :=
  fit_ext X rep n (acr_Extensions x) /\
  fit_any n (acr_Extras x) /\
  opt in_i64 (acr_BufferView x) /\
  in_i64 (acr_ByteOffset x) /\
  in_i64 (acr_Count x) /\
  (fun v => at_valid v = true) (acr_Type x) /\
  Forall float_ok (acr_Max x) /\
  Forall float_ok (acr_Min x) /\
  opt (fit_Sparse n) (acr_Sparse x).

Definition fit_Buffer (n : nat) (x : Buffer) : Prop :=
  fit_ext X rep n (buf_Extensions x) /\
  fit_any n (buf_Extras x) /\
  in_i64 (buf_ByteLength x).

Definition fit_BufferView (n : nat) (x : BufferView) : Prop :=
  fit_ext X rep n (bvw_Extensions x) /\
  fit_any n (bvw_Extras x) /\
  in_i64 (bvw_Buffer x) /\
  in_i64 (bvw_ByteOffset x) /\
  in_i64 (bvw_ByteLength x) /\
  in_i64 (bvw_ByteStride x) /\
  range 65536 (bvw_Target x).

Definition fit_Scene (n : nat) (x : Scene) : Prop :=
  fit_ext X rep n (scn_Extensions x) /\
  fit_any n (scn_Extras x) /\
  Forall in_i64 (scn_Nodes x).

Definition fit_Node (n : nat) (x : Node) : Prop :=
  fit_ext X rep n (nod_Extensions x) /\
  fit_any n (nod_Extras x) /\
  opt in_i64 (nod_Camera x) /\
  Forall in_i64 (nod_Children x) /\
  opt in_i64 (nod_Skin x) /\
  farray 16 (nod_Matrix x) /\
  opt in_i64 (nod_Mesh x) /\
  farray 4 (nod_Rotation x) /\
  farray 3 (nod_Scale x) /\
  farray 3 (nod_Translation x) /\
  Forall float_ok (nod_Weights x).

Definition fit_Skin (n : nat) (x : Skin) : Prop :=
  fit_ext X rep n (skn_Extensions x) /\
  fit_any n (skn_Extras x) /\
  opt in_i64 (skn_InverseBindMatrices x) /\
  opt in_i64 (skn_Skeleton x) /\
  opt (Forall in_i64) (skn_Joints x).

Definition fit_Orthographic (n : nat) (x : Orthographic) : Prop :=
  fit_ext X rep n (ort_Extensions x) /\
  fit_any n (ort_Extras x) /\
  float_ok (ort_Xmag x) /\
  float_ok (ort_Ymag x) /\
  float_ok (ort_Zfar x) /\
  float_ok (ort_Znear x).

Definition fit_Perspective (n : nat) (x : Perspective) : Prop :=
  fit_ext X rep n (per_Extensions x) /\
  fit_any n (per_Extras x) /\
  opt float_ok (per_AspectRatio x) /\
  float_ok (per_Yfov x) /\
  opt float_ok (per_Zfar x) /\
  float_ok (per_Znear x).

Definition fit_Camera (n : nat) (x : Camera) : Prop :=
  fit_ext X rep n (cam_Extensions x) /\
  fit_any n (cam_Extras x) /\
  opt (fit_Orthographic n) (cam_Orthographic x) /\
  opt (fit_Perspective n) (cam_Perspective x) /\
  (cam_Orthographic x <> None \/ cam_Perspective x <> None).

Definition fit_Primitive (n : nat) (x : Primitive) : Prop :=
  fit_ext X rep n (pri_Extensions x) /\
  fit_any n (pri_Extras x) /\
  opt fit_attrs (pri_Attributes x) /\
  opt in_i64 (pri_Indices x) /\
  opt in_i64 (pri_Material x) /\
  Forall (opt fit_attrs) (pri_Targets x).

Definition fit_Mesh (n : nat) (x : Mesh) : Prop :=
  fit_ext X rep n (msh_Extensions x) /\
  fit_any n (msh_Extras x) /\
  opt (Forall (opt (fit_Primitive n))) (msh_Primitives x) /\
  Forall float_ok (msh_Weights x).

Definition fit_TextureInfo (n : nat) (x : TextureInfo) : Prop :=
  fit_ext X rep n (txi_Extensions x) /\
  fit_any n (txi_Extras x) /\
  in_i64 (txi_Index x) /\
  in_i64 (txi_TexCoord x).

Definition fit_NormalTexture (n : nat) (x : NormalTexture) : Prop :=
  fit_ext X rep n (ntx_Extensions x) /\
  fit_any n (ntx_Extras x) /\
  opt in_i64 (ntx_Index x) /\
  in_i64 (ntx_TexCoord x) /\
  opt float_ok (ntx_Scale x).

Definition fit_OcclusionTexture (n : nat) (x : OcclusionTexture) : Prop :=
  fit_ext X rep n (otx_Extensions x) /\
  fit_any n (otx_Extras x) /\
  opt in_i64 (otx_Index x) /\
  in_i64 (otx_TexCoord x) /\
  opt float_ok (otx_Strength x).

Definition fit_PBRMetallicRoughness (n : nat) (x : PBRMetallicRoughness) : Prop :=
  fit_ext X rep n (pbr_Extensions x) /\
  fit_any n (pbr_Extras x) /\
  opt (farray 4) (pbr_BaseColorFactor x) /\
  opt (fit_TextureInfo n) (pbr_BaseColorTexture x) /\
  opt float_ok (pbr_MetallicFactor x) /\
  opt float_ok (pbr_RoughnessFactor x) /\
  opt (fit_TextureInfo n) (pbr_MetallicRoughnessTexture x).

Definition fit_Material (n : nat) (x : Material) : Prop :=
  fit_ext X rep n (mat_Extensions x) /\
  fit_any n (mat_Extras x) /\
  opt (fit_PBRMetallicRoughness n) (mat_PBRMetallicRoughness x) /\
  opt (fit_NormalTexture n) (mat_NormalTexture x) /\
  opt (fit_OcclusionTexture n) (mat_OcclusionTexture x) /\
  opt (fit_TextureInfo n) (mat_EmissiveTexture x) /\
  farray 3 (mat_EmissiveFactor x) /\
  opt float_ok (mat_AlphaCutoff x).

Definition fit_Texture (n : nat) (x : Texture) : Prop :=
  fit_ext X rep n (txt_Extensions x) /\
  fit_any n (txt_Extras x) /\
  opt in_i64 (txt_Sampler x) /\
  opt in_i64 (txt_Source x).

Definition fit_Sampler (n : nat) (x : Sampler) : Prop :=
  fit_ext X rep n (smp_Extensions x) /\
  fit_any n (smp_Extras x).

Definition fit_Image (n : nat) (x : Image) : Prop :=
  fit_ext X rep n (img_Extensions x) /\
  fit_any n (img_Extras x) /\
  opt in_i64 (img_BufferView x).

Definition fit_AnimationSampler (n : nat) (x : AnimationSampler) : Prop :=
  fit_ext X rep n (ans_Extensions x) /\
  fit_any n (ans_Extras x) /\
  in_i64 (ans_Input x) /\
  in_i64 (ans_Output x).

Definition fit_AnimationChannelTarget (n : nat) (x : AnimationChannelTarget) : Prop :=
  fit_ext X rep n (act_Extensions x) /\
  fit_any n (act_Extras x) /\
  opt in_i64 (act_Node x).

Definition fit_AnimationChannel (n : nat) (x : AnimationChannel) : Prop :=
  fit_ext X rep n (anc_Extensions x) /\
  fit_any n (anc_Extras x) /\
  in_i64 (anc_Sampler x) /\
  (fit_AnimationChannelTarget n) (anc_Target x).

Definition fit_Animation (n : nat) (x : Animation) : Prop :=
  fit_ext X rep n (ani_Extensions x) /\
  fit_any n (ani_Extras x) /\
  opt (Forall (opt (fit_AnimationChannel n))) (ani_Channels x) /\
  opt (Forall (opt (fit_AnimationSampler n))) (ani_Samplers x).

Definition fit_Document (n : nat) (x : Document) : Prop :=
  fit_ext X rep n (doc_Extensions x) /\
  fit_any n (doc_Extras x) /\
  Forall (opt (fit_Accessor n)) (doc_Accessors x) /\
  Forall (opt (fit_Animation n)) (doc_Animations x) /\
  (fit_Asset n) (doc_Asset x) /\
  Forall (opt (fit_Buffer n)) (doc_Buffers x) /\
  Forall (opt (fit_BufferView n)) (doc_BufferViews x) /\
  Forall (opt (fit_Camera n)) (doc_Cameras x) /\
  Forall (opt (fit_Image n)) (doc_Images x) /\
  Forall (opt (fit_Material n)) (doc_Materials x) /\
  Forall (opt (fit_Mesh n)) (doc_Meshes x) /\
  Forall (opt (fit_Node n)) (doc_Nodes x) /\
  Forall (opt (fit_Sampler n)) (doc_Samplers x) /\
  opt in_i64 (doc_Scene x) /\
  Forall (opt (fit_Scene n)) (doc_Scenes x) /\
  Forall (opt (fit_Skin n)) (doc_Skins x) /\
  Forall (opt (fit_Texture n)) (doc_Textures x).
End Fit.

Section Fits.
Context (X : ext_lib) (rep : string -> string) (T : registry_total X).
Lemma ev_Asset x : go_Asset X x -> savable_Asset X x -> ev (fun n => fit_Asset X rep n x).
Proof.
  intros G W. unfold go_Asset in G. unfold savable_Asset in W. decompose [and] G. decompose [and] W. unfold fit_Asset.
  apply ev_and; [apply ev_ext; assumption|].
  apply ev_any; assumption.
Qed.
Lemma ev_SparseValues x : go_SparseValues X x -> savable_SparseValues X x -> ev (fun n => fit_SparseValues X rep n x).
Proof.
  intros G W. unfold go_SparseValues in G. unfold savable_SparseValues in W. decompose [and] G. decompose [and] W. unfold fit_SparseValues.
  apply ev_and; [apply ev_ext; assumption|].
  apply ev_and; [apply ev_any; assumption|].
  apply ev_and; [apply ev_const; assumption|].
  apply ev_const; assumption.
Qed.
Lemma ev_SparseIndices x : go_SparseIndices X x -> savable_SparseIndices X x -> ev (fun n => fit_SparseIndices X rep n x).
Proof.
  intros G W. unfold go_SparseIndices in G. unfold savable_SparseIndices in W. decompose [and] G. decompose [and] W. unfold fit_SparseIndices.
  apply ev_and; [apply ev_ext; assumption|].
  apply ev_and; [apply ev_any; assumption|].
  apply ev_and; [apply ev_const; assumption|].
  apply ev_const; assumption.
Qed.
Lemma ev_Sparse x : go_Sparse X x -> savable_Sparse X x -> ev (fun n => fit_Sparse X rep n x).
Proof.
  intros G W. unfold go_Sparse in G. unfold savable_Sparse in W. decompose [and] G. decompose [and] W. unfold fit_Sparse.
  apply ev_and; [apply ev_ext; assumption|].
  apply ev_and; [apply ev_any; assumption|].
  apply ev_and; [apply ev_const; assumption|].
  apply ev_and; [apply ev_SparseIndices; assumption|].
  apply ev_SparseValues; assumption.
Qed.
Lemma ev_Accessor x : go_Accessor X x -> savable_Accessor X x -> at_valid (acr_Type x) = true -> ev (fun n => fit_Accessor X rep n x).
Proof.
  intros G W TY. unfold go_Accessor in G. unfold savable_Accessor in W. decompose [and] G. decompose [and] W. unfold fit_Accessor.
  apply ev_and; [apply ev_ext; assumption|].
  apply ev_and; [apply ev_any; assumption|].
  apply ev_and; [apply ev_const; assumption|].
  apply ev_and; [apply ev_const; assumption|].
  apply ev_and; [apply ev_const; assumption|].
  apply ev_and; [apply ev_const; assumption|].
  apply ev_and; [apply ev_const; apply fit_floats; assumption|].
  apply ev_and; [apply ev_const; apply fit_floats; assumption|].
  apply (ev_ptr _ _ _ _ ev_Sparse); assumption.
Qed.
Lemma ev_Accessors d : typed d = true -> Forall (opt (go_Accessor X)) (doc_Accessors d) -> Forall (opt (savable_Accessor X)) (doc_Accessors d) ->
  ev (fun n => Forall (opt (fit_Accessor X rep n)) (doc_Accessors d)).
Proof.
  intros TY G W. apply (ev_all (fun n => opt (fit_Accessor X rep n))). unfold typed in TY. rewrite forallb_forall in TY. rewrite Forall_forall in *.
  intros o Ho. apply ev_opt. specialize (TY o Ho). specialize (G o Ho). specialize (W o Ho). destruct o as [x|]; [|exact I]. exact (ev_Accessor x G W TY).
Qed.
Lemma ev_Buffer x : go_Buffer X x -> savable_Buffer X x -> ev (fun n => fit_Buffer X rep n x).
Proof.
  intros G W. unfold go_Buffer in G. unfold savable_Buffer in W. decompose [and] G. decompose [and] W. unfold fit_Buffer.
  apply ev_and; [apply ev_ext; assumption|].
  apply ev_and; [apply ev_any; assumption|].
  apply ev_const; assumption.
Qed.
Lemma ev_BufferView x : go_BufferView X x -> savable_BufferView X x -> ev (fun n => fit_BufferView X rep n x).
Proof.
  intros G W. unfold go_BufferView in G. unfold savable_BufferView in W. decompose [and] G. decompose [and] W. unfold fit_BufferView.
  apply ev_and; [apply ev_ext; assumption|].
  apply ev_and; [apply ev_any; assumption|].
  apply ev_and; [apply ev_const; assumption|].
  apply ev_and; [apply ev_const; assumption|].
  apply ev_and; [apply ev_const; assumption|].
  apply ev_and; [apply ev_const; assumption|].
  apply ev_const; assumption.
Qed.
Lemma ev_Scene x : go_Scene X x -> savable_Scene X x -> ev (fun n => fit_Scene X rep n x).
Proof.
  intros G W. unfold go_Scene in G. unfold savable_Scene in W. decompose [and] G. decompose [and] W. unfold fit_Scene.
  apply ev_and; [apply ev_ext; assumption|].
  apply ev_and; [apply ev_any; assumption|].
  apply ev_const; assumption.
Qed.
Lemma ev_Node x : go_Node X x -> savable_Node X x -> ev (fun n => fit_Node X rep n x).
Proof.
  intros G W. unfold go_Node in G. unfold savable_Node in W. decompose [and] G. decompose [and] W. unfold fit_Node.
  apply ev_and; [apply ev_ext; assumption|].
  apply ev_and; [apply ev_any; assumption|].
  apply ev_and; [apply ev_const; assumption|].
  apply ev_and; [apply ev_const; assumption|].
  apply ev_and; [apply ev_const; assumption|].
  apply ev_and; [apply ev_const; apply fit_farray; assumption|].
  apply ev_and; [apply ev_const; assumption|].
  apply ev_and; [apply ev_const; apply fit_farray; assumption|].
  apply ev_and; [apply ev_const; apply fit_farray; assumption|].
  apply ev_and; [apply ev_const; apply fit_farray; assumption|].
  apply ev_const; apply fit_floats; assumption.
Qed.
Lemma ev_Skin x : go_Skin X x -> savable_Skin X x -> ev (fun n => fit_Skin X rep n x).
Proof.
  intros G W. unfold go_Skin in G. unfold savable_Skin in W. decompose [and] G. decompose [and] W. unfold fit_Skin.
  apply ev_and; [apply ev_ext; assumption|].
  apply ev_and; [apply ev_any; assumption|].
  apply ev_and; [apply ev_const; assumption|].
  apply ev_and; [apply ev_const; assumption|].
  apply ev_const; assumption.
Qed.
Lemma ev_Orthographic x : go_Orthographic X x -> savable_Orthographic X x -> ev (fun n => fit_Orthographic X rep n x).
Proof.
  intros G W. unfold go_Orthographic in G. unfold savable_Orthographic in W. decompose [and] G. decompose [and] W. unfold fit_Orthographic.
  apply ev_and; [apply ev_ext; assumption|].
  apply ev_and; [apply ev_any; assumption|].
  apply ev_and; [apply ev_const; apply fit_float; assumption|].
  apply ev_and; [apply ev_const; apply fit_float; assumption|].
  apply ev_and; [apply ev_const; apply fit_float; assumption|].
  apply ev_const; apply fit_float; assumption.
Qed.
Lemma ev_Perspective x : go_Perspective X x -> savable_Perspective X x -> ev (fun n => fit_Perspective X rep n x).
Proof.
  intros G W. unfold go_Perspective in G. unfold savable_Perspective in W. decompose [and] G. decompose [and] W. unfold fit_Perspective.
  apply ev_and; [apply ev_ext; assumption|].
  apply ev_and; [apply ev_any; assumption|].
  apply ev_and; [apply ev_const; apply fit_ofloat; assumption|].
  apply ev_and; [apply ev_const; apply fit_float; assumption|].
  apply ev_and; [apply ev_const; apply fit_ofloat; assumption|].
  apply ev_const; apply fit_float; assumption.
Qed.
Lemma ev_Camera x : go_Camera X x -> savable_Camera X x -> ev (fun n => fit_Camera X rep n x).
Proof.
  intros G W. unfold go_Camera in G. unfold savable_Camera in W. decompose [and] G. decompose [and] W. unfold fit_Camera.
  apply ev_and; [apply ev_ext; assumption|].
  apply ev_and; [apply ev_any; assumption|].
  apply ev_and; [apply (ev_ptr _ _ _ _ ev_Orthographic); assumption|].
  apply ev_and; [apply (ev_ptr _ _ _ _ ev_Perspective); assumption|].
  apply ev_const; assumption.
Qed.
Lemma ev_Primitive x : go_Primitive X x -> savable_Primitive X x -> ev (fun n => fit_Primitive X rep n x).
Proof.
  intros G W. unfold go_Primitive in G. unfold savable_Primitive in W. decompose [and] G. decompose [and] W. unfold fit_Primitive.
  apply ev_and; [apply ev_ext; assumption|].
  apply ev_and; [apply ev_any; assumption|].
  apply ev_and; [apply ev_const; assumption|].
  apply ev_and; [apply ev_const; assumption|].
  apply ev_and; [apply ev_const; assumption|].
  apply ev_const; assumption.
Qed.
Lemma ev_Mesh x : go_Mesh X x -> savable_Mesh X x -> ev (fun n => fit_Mesh X rep n x).
Proof.
  intros G W. unfold go_Mesh in G. unfold savable_Mesh in W. decompose [and] G. decompose [and] W. unfold fit_Mesh.
  apply ev_and; [apply ev_ext; assumption|].
  apply ev_and; [apply ev_any; assumption|].
  apply ev_and; [apply (ev_olist _ _ _ _ ev_Primitive); assumption|].
  apply ev_const; apply fit_floats; assumption.
Qed.
Lemma ev_TextureInfo x : go_TextureInfo X x -> savable_TextureInfo X x -> ev (fun n => fit_TextureInfo X rep n x).
Proof.
  intros G W. unfold go_TextureInfo in G. unfold savable_TextureInfo in W. decompose [and] G. decompose [and] W. unfold fit_TextureInfo.
  apply ev_and; [apply ev_ext; assumption|].
  apply ev_and; [apply ev_any; assumption|].
  apply ev_and; [apply ev_const; assumption|].
  apply ev_const; assumption.
Qed.
Lemma ev_NormalTexture x : go_NormalTexture X x -> savable_NormalTexture X x -> ev (fun n => fit_NormalTexture X rep n x).
Proof.
  intros G W. unfold go_NormalTexture in G. unfold savable_NormalTexture in W. decompose [and] G. decompose [and] W. unfold fit_NormalTexture.
  apply ev_and; [apply ev_ext; assumption|].
  apply ev_and; [apply ev_any; assumption|].
  apply ev_and; [apply ev_const; assumption|].
  apply ev_and; [apply ev_const; assumption|].
  apply ev_const; apply fit_ofloat; assumption.
Qed.
Lemma ev_OcclusionTexture x : go_OcclusionTexture X x -> savable_OcclusionTexture X x -> ev (fun n => fit_OcclusionTexture X rep n x).
Proof.
  intros G W. unfold go_OcclusionTexture in G. unfold savable_OcclusionTexture in W. decompose [and] G. decompose [and] W. unfold fit_OcclusionTexture.
  apply ev_and; [apply ev_ext; assumption|].
  apply ev_and; [apply ev_any; assumption|].
  apply ev_and; [apply ev_const; assumption|].
  apply ev_and; [apply ev_const; assumption|].
  apply ev_const; apply fit_ofloat; assumption.
Qed.
Lemma ev_PBRMetallicRoughness x : go_PBRMetallicRoughness X x -> savable_PBRMetallicRoughness X x -> ev (fun n => fit_PBRMetallicRoughness X rep n x).
Proof.
  intros G W. unfold go_PBRMetallicRoughness in G. unfold savable_PBRMetallicRoughness in W. decompose [and] G. decompose [and] W. unfold fit_PBRMetallicRoughness.
  apply ev_and; [apply ev_ext; assumption|].
  apply ev_and; [apply ev_any; assumption|].
  apply ev_and; [apply ev_const; apply fit_ofarray; assumption|].
  apply ev_and; [apply (ev_ptr _ _ _ _ ev_TextureInfo); assumption|].
  apply ev_and; [apply ev_const; apply fit_ofloat; assumption|].
  apply ev_and; [apply ev_const; apply fit_ofloat; assumption|].
  apply (ev_ptr _ _ _ _ ev_TextureInfo); assumption.
Qed.
Lemma ev_Material x : go_Material X x -> savable_Material X x -> ev (fun n => fit_Material X rep n x).
Proof.
  intros G W. unfold go_Material in G. unfold savable_Material in W. decompose [and] G. decompose [and] W. unfold fit_Material.
  apply ev_and; [apply ev_ext; assumption|].
  apply ev_and; [apply ev_any; assumption|].
  apply ev_and; [apply (ev_ptr _ _ _ _ ev_PBRMetallicRoughness); assumption|].
  apply ev_and; [apply (ev_ptr _ _ _ _ ev_NormalTexture); assumption|].
  apply ev_and; [apply (ev_ptr _ _ _ _ ev_OcclusionTexture); assumption|].
  apply ev_and; [apply (ev_ptr _ _ _ _ ev_TextureInfo); assumption|].
  apply ev_and; [apply ev_const; apply fit_farray; assumption|].
  apply ev_const; apply fit_ofloat; assumption.
Qed.
Lemma ev_Texture x : go_Texture X x -> savable_Texture X x -> ev (fun n => fit_Texture X rep n x).
Proof.
  intros G W. unfold go_Texture in G. unfold savable_Texture in W. decompose [and] G. decompose [and] W. unfold fit_Texture.
  apply ev_and; [apply ev_ext; assumption|].
  apply ev_and; [apply ev_any; assumption|].
  apply ev_and; [apply ev_const; assumption|].
  apply ev_const; assumption.
Qed.
Lemma ev_Sampler x : go_Sampler X x -> savable_Sampler X x -> ev (fun n => fit_Sampler X rep n x).
Proof.
  intros G W. unfold go_Sampler in G. unfold savable_Sampler in W. decompose [and] G. decompose [and] W. unfold fit_Sampler.
  apply ev_and; [apply ev_ext; assumption|].
  apply ev_any; assumption.
Qed.
Lemma ev_Image x : go_Image X x -> savable_Image X x -> ev (fun n => fit_Image X rep n x).
Proof.
  intros G W. unfold go_Image in G. unfold savable_Image in W. decompose [and] G. decompose [and] W. unfold fit_Image.
  apply ev_and; [apply ev_ext; assumption|].
  apply ev_and; [apply ev_any; assumption|].
  apply ev_const; assumption.
Qed.
Lemma ev_AnimationSampler x : go_AnimationSampler X x -> savable_AnimationSampler X x -> ev (fun n => fit_AnimationSampler X rep n x).
Proof.
  intros G W. unfold go_AnimationSampler in G. unfold savable_AnimationSampler in W. decompose [and] G. decompose [and] W. unfold fit_AnimationSampler.
  apply ev_and; [apply ev_ext; assumption|].
  apply ev_and; [apply ev_any; assumption|].
  apply ev_and; [apply ev_const; assumption|].
  apply ev_const; assumption.
Qed.
Lemma ev_AnimationChannelTarget x : go_AnimationChannelTarget X x -> savable_AnimationChannelTarget X x -> ev (fun n => fit_AnimationChannelTarget X rep n x).
Proof.
  intros G W. unfold go_AnimationChannelTarget in G. unfold savable_AnimationChannelTarget in W. decompose [and] G. decompose [and] W. unfold fit_AnimationChannelTarget.
  apply ev_and; [apply ev_ext; assumption|].
  apply ev_and; [apply ev_any; assumption|].
  apply ev_const; assumption.
Qed.
Lemma ev_AnimationChannel x : go_AnimationChannel X x -> savable_AnimationChannel X x -> ev (fun n => fit_AnimationChannel X rep n x).
Proof.
  intros G W. unfold go_AnimationChannel in G. unfold savable_AnimationChannel in W. decompose [and] G. decompose [and] W. unfold fit_AnimationChannel.
  apply ev_and; [apply ev_ext; assumption|].
  apply ev_and; [apply ev_any; assumption|].
  apply ev_and; [apply ev_const; assumption|].
  apply ev_AnimationChannelTarget; assumption.
Qed.
Lemma ev_Animation x : go_Animation X x -> savable_Animation X x -> ev (fun n => fit_Animation X rep n x).
Proof.
  intros G W. unfold go_Animation in G. unfold savable_Animation in W. decompose [and] G. decompose [and] W. unfold fit_Animation.
  apply ev_and; [apply ev_ext; assumption|].
  apply ev_and; [apply ev_any; assumption|].
  apply ev_and; [apply (ev_olist _ _ _ _ ev_AnimationChannel); assumption|].
  apply (ev_olist _ _ _ _ ev_AnimationSampler); assumption.
Qed.
Lemma ev_Document x : go_Document X x -> savable_Document X x -> typed x = true -> ev (fun n => fit_Document X rep n x).
Proof.
  intros G W TY. unfold go_Document in G. unfold savable_Document in W. decompose [and] G. decompose [and] W. unfold fit_Document.
  apply ev_and; [apply ev_ext; assumption|].
  apply ev_and; [apply ev_any; assumption|].
  apply ev_and; [apply ev_Accessors; assumption|].
  apply ev_and; [apply (ev_list _ _ _ _ ev_Animation); assumption|].
  apply ev_and; [apply ev_Asset; assumption|].
  apply ev_and; [apply (ev_list _ _ _ _ ev_Buffer); assumption|].
  apply ev_and; [apply (ev_list _ _ _ _ ev_BufferView); assumption|].
  apply ev_and; [apply (ev_list _ _ _ _ ev_Camera); assumption|].
  apply ev_and; [apply (ev_list _ _ _ _ ev_Image); assumption|].
  apply ev_and; [apply (ev_list _ _ _ _ ev_Material); assumption|].
  apply ev_and; [apply (ev_list _ _ _ _ ev_Mesh); assumption|].
  apply ev_and; [apply (ev_list _ _ _ _ ev_Node); assumption|].
  apply ev_and; [apply (ev_list _ _ _ _ ev_Sampler); assumption|].
  apply ev_and; [apply ev_const; assumption|].
  apply ev_and; [apply (ev_list _ _ _ _ ev_Scene); assumption|].
  apply ev_and; [apply (ev_list _ _ _ _ ev_Skin); assumption|].
  apply (ev_list _ _ _ _ ev_Texture); assumption.
Qed.
End Fits.

Section Params.
Context (F : float_lib) (X : ext_lib) (rep : string -> string) (HF : float_contract F) (R : repairs rep) (n : nat).
Lemma fields_rk_fields_Asset x : fit_Asset X rep n x -> ast_Version x <> ""%string -> forall pre, Forall (skipped (fields_Asset F X) (n + 1)) pre ->
  exists m, enc_fields (fields_Asset F X) x = Ok m /\ wf_json (n + 2) (JObj (pre ++ m)) /\
    dec_struct (fields_Asset F X) default_Asset (JObj (pre ++ m)) = Ok (kept_Asset X rep x).
Proof.
  intros W NV. unfold fit_Asset in W. decompose [and] W.
  replace (n + 2)%nat with (S (n + 1)) by lia.
  apply rt_fields.
  - plain_tac.
  - lens_tac.
  - indep_tac.
  - repeat apply Forall_cons; [..|apply Forall_nil].
    + apply (fspec_intro _ _ _ _ _ _ _ _ _ (fit_ext X rep n) (kept_ext X rep)); [apply (rt_mono _ (S n)); [apply (rk_ext rep R X)|lia]|kfield_tac|komit_tac rep R].
    + apply (fspec_intro _ _ _ _ _ _ _ _ _ (fit_any n) (kept_any rep)); [apply (rt_mono _ n); [apply (rk_any rep R F HF)|lia]|kfield_tac|komit_tac rep R].
    + apply (fspec_intro _ _ _ _ _ _ _ _ _ (fun _ => True) (rep)); [apply (rt_mono _ n); [apply (rk_str rep R)|lia]|kfield_tac|komit_tac rep R].
    + apply (fspec_intro _ _ _ _ _ _ _ _ _ (fun _ => True) (rep)); [apply (rt_mono _ n); [apply (rk_str rep R)|lia]|kfield_tac|komit_tac rep R].
    + apply (fspec_intro _ _ _ _ _ _ _ _ _ (fun _ => True) (rep)); [apply (rt_mono _ n); [apply (rk_str rep R)|lia]|kfield_tac|komit_tac rep R].
    + apply (fspec_intro _ _ _ _ _ _ _ _ _ (fun _ => True) (rep)); [apply (rt_mono _ n); [apply (rk_str rep R)|lia]|kfield_tac|komit_tac rep R].
  - intros y A K. unfold fields_Asset in A, K. agree_tac A. apply ext_Asset; try assumption.
Qed.
Lemma fields_rk_out_Asset x : fit_Asset X rep n x -> ast_Version x <> ""%string -> forall pre, Forall (skipped (fields_Asset F X) (n + 1)) pre ->
  exists m, enc_fields (out_Asset F X) x = Ok m /\ wf_json (n + 2) (JObj (pre ++ m)) /\
    dec_struct (fields_Asset F X) default_Asset (JObj (pre ++ m)) = Ok (kept_Asset X rep x).
Proof.
  intros W NV. unfold fit_Asset in W. decompose [and] W.
  replace (n + 2)%nat with (S (n + 1)) by lia.
  apply rt_fields.
  - plain_tac.
  - lens_tac.
  - indep_tac.
  - repeat apply Forall_cons; [..|apply Forall_nil].
    + apply (fspec_intro _ _ _ _ _ _ _ _ _ (fun _ => True) (rep)); [apply (rt_mono _ n); [apply (rk_str rep R)|lia]|kfield_tac|komit_tac rep R].
    + apply (fspec_intro _ _ _ _ _ _ _ _ _ (fit_ext X rep n) (kept_ext X rep)); [apply (rt_mono _ (S n)); [apply (rk_ext rep R X)|lia]|kfield_tac|komit_tac rep R].
    + apply (fspec_intro _ _ _ _ _ _ _ _ _ (fit_any n) (kept_any rep)); [apply (rt_mono _ n); [apply (rk_any rep R F HF)|lia]|kfield_tac|komit_tac rep R].
    + apply (fspec_intro _ _ _ _ _ _ _ _ _ (fun _ => True) (rep)); [apply (rt_mono _ n); [apply (rk_str rep R)|lia]|kfield_tac|komit_tac rep R].
    + apply (fspec_intro _ _ _ _ _ _ _ _ _ (fun _ => True) (rep)); [apply (rt_mono _ n); [apply (rk_str rep R)|lia]|kfield_tac|komit_tac rep R].
    + apply (fspec_intro _ _ _ _ _ _ _ _ _ (fun _ => True) (rep)); [apply (rt_mono _ n); [apply (rk_str rep R)|lia]|kfield_tac|komit_tac rep R].
  - intros y A K. unfold out_Asset in A, K. agree_tac A. apply ext_Asset; try assumption.
Qed.
Lemma rk_Asset : forall old, rt (c_Asset F X) (n + 2) old (fit_Asset X rep n) (kept_Asset X rep).
Proof.
  intros old x W. cbn [c_Asset enc dec]. unfold enc_Asset. destruct (str_empty (ast_Version x)) eqn:E.
  - apply String.eqb_eq in E.
    destruct (fields_rk_out_Asset (set_ast_Version "2.0" x)) with (pre := @nil (string * json)) as (m & Em & Wm & Dm).
    + exact W.
    + discriminate.
    + apply Forall_nil.
    + exists (JObj m). unfold enc_struct. rewrite Em. split; [reflexivity|]. split; [exact Wm|].
      cbn [app] in Dm. rewrite Dm. f_equal.
      assert (V : rep "2.0"%string = "2.0"%string) by (apply (repairs_utf8 rep R), ascii_utf8; reflexivity).
      clear - E V. destruct x; cbn in E; subst. unfold kept_Asset, kept_version; cbn. rewrite V. reflexivity.
  - apply String.eqb_neq in E.
    destruct (fields_rk_fields_Asset x W E [] (Forall_nil _)) as (m & Em & Wm & Dm).
    exists (JObj m). unfold enc_struct. rewrite Em. split; [reflexivity|]. split; [exact Wm|exact Dm].
Qed.
Lemma rk_ptr_Asset : forall old, rt (c_ptr zero_Asset (c_Asset F X)) (n + 2) old (opt (fit_Asset X rep n)) (option_map (kept_Asset X rep)).
Proof.
  intros old. apply rt_ptr.
  - intros o Ho. apply rk_Asset.
  - intros x j W E. cbn in E. unfold enc_Asset in E. destruct (str_empty (ast_Version x)); exact (enc_struct_nonnull _ _ _ E).
Qed.
Lemma fields_rk_fields_SparseValues x : fit_SparseValues X rep n x -> forall pre, Forall (skipped (fields_SparseValues F X) (n + 1)) pre ->
  exists m, enc_fields (fields_SparseValues F X) x = Ok m /\ wf_json (n + 2) (JObj (pre ++ m)) /\
    dec_struct (fields_SparseValues F X) zero_SparseValues (JObj (pre ++ m)) = Ok (kept_SparseValues X rep x).
Proof.
  intros W. unfold fit_SparseValues in W. decompose [and] W.
  replace (n + 2)%nat with (S (n + 1)) by lia.
  apply rt_fields.
  - plain_tac.
  - lens_tac.
  - indep_tac.
  - repeat apply Forall_cons; [..|apply Forall_nil].
    + apply (fspec_intro _ _ _ _ _ _ _ _ _ (fit_ext X rep n) (kept_ext X rep)); [apply (rt_mono _ (S n)); [apply (rk_ext rep R X)|lia]|kfield_tac|komit_tac rep R].
    + apply (fspec_intro _ _ _ _ _ _ _ _ _ (fit_any n) (kept_any rep)); [apply (rt_mono _ n); [apply (rk_any rep R F HF)|lia]|kfield_tac|komit_tac rep R].
    + apply (fspec_intro _ _ _ _ _ _ _ _ _ (in_i64) (fun v => v)); [apply (rt_mono _ n); [apply rt_int|lia]|kfield_tac|komit_tac rep R].
    + apply (fspec_intro _ _ _ _ _ _ _ _ _ (in_i64) (fun v => v)); [apply (rt_mono _ n); [apply rt_int|lia]|kfield_tac|komit_tac rep R].
  - intros y A K. unfold fields_SparseValues in A, K. agree_tac A. apply ext_SparseValues; try assumption.
Qed.
Lemma rk_SparseValues : forall old, old = zero_SparseValues -> rt (c_SparseValues F X) (n + 2) old (fit_SparseValues X rep n) (kept_SparseValues X rep).
Proof.
  intros old -> x W. destruct (fields_rk_fields_SparseValues x W [] (Forall_nil _)) as (m & Em & Wm & Dm).
  exists (JObj m). cbn [c_SparseValues c_struct enc dec]. unfold enc_struct. rewrite Em. split; [reflexivity|]. split; [exact Wm|exact Dm].
Qed.
Lemma rk_ptr_SparseValues : forall old, old = None -> rt (c_ptr zero_SparseValues (c_SparseValues F X)) (n + 2) old (opt (fit_SparseValues X rep n)) (option_map (kept_SparseValues X rep)).
Proof.
  intros old ->. apply rt_ptr.
  - intros o Ho. apply rk_SparseValues. destruct Ho as [Ho|[_ Ho]]; [discriminate|exact Ho].
  - intros x j W E. exact (enc_struct_nonnull _ _ _ E).
Qed.
Lemma fields_rk_fields_SparseIndices x : fit_SparseIndices X rep n x -> forall pre, Forall (skipped (fields_SparseIndices F X) (n + 1)) pre ->
  exists m, enc_fields (fields_SparseIndices F X) x = Ok m /\ wf_json (n + 2) (JObj (pre ++ m)) /\
    dec_struct (fields_SparseIndices F X) zero_SparseIndices (JObj (pre ++ m)) = Ok (kept_SparseIndices X rep x).
Proof.
  intros W. unfold fit_SparseIndices in W. decompose [and] W.
  replace (n + 2)%nat with (S (n + 1)) by lia.
  apply rt_fields.
  - plain_tac.
  - lens_tac.
  - indep_tac.
  - repeat apply Forall_cons; [..|apply Forall_nil].
    + apply (fspec_intro _ _ _ _ _ _ _ _ _ (fit_ext X rep n) (kept_ext X rep)); [apply (rt_mono _ (S n)); [apply (rk_ext rep R X)|lia]|kfield_tac|komit_tac rep R].
    + apply (fspec_intro _ _ _ _ _ _ _ _ _ (fit_any n) (kept_any rep)); [apply (rt_mono _ n); [apply (rk_any rep R F HF)|lia]|kfield_tac|komit_tac rep R].
    + apply (fspec_intro _ _ _ _ _ _ _ _ _ (in_i64) (fun v => v)); [apply (rt_mono _ n); [apply rt_int|lia]|kfield_tac|komit_tac rep R].
    + apply (fspec_intro _ _ _ _ _ _ _ _ _ (in_i64) (fun v => v)); [apply (rt_mono _ n); [apply rt_int|lia]|kfield_tac|komit_tac rep R].
    + apply (fspec_intro _ _ _ _ _ _ _ _ _ (fun _ => True) (kept_ct)); [apply (rt_mono _ n); [apply rk_ct|lia]|kfield_tac|komit_tac rep R].
  - intros y A K. unfold fields_SparseIndices in A, K. agree_tac A. apply ext_SparseIndices; try assumption.
Qed.
Lemma rk_SparseIndices : forall old, old = zero_SparseIndices -> rt (c_SparseIndices F X) (n + 2) old (fit_SparseIndices X rep n) (kept_SparseIndices X rep).
Proof.
  intros old -> x W. destruct (fields_rk_fields_SparseIndices x W [] (Forall_nil _)) as (m & Em & Wm & Dm).
  exists (JObj m). cbn [c_SparseIndices c_struct enc dec]. unfold enc_struct. rewrite Em. split; [reflexivity|]. split; [exact Wm|exact Dm].
Qed.
Lemma rk_ptr_SparseIndices : forall old, old = None -> rt (c_ptr zero_SparseIndices (c_SparseIndices F X)) (n + 2) old (opt (fit_SparseIndices X rep n)) (option_map (kept_SparseIndices X rep)).
Proof.
  intros old ->. apply rt_ptr.
  - intros o Ho. apply rk_SparseIndices. destruct Ho as [Ho|[_ Ho]]; [discriminate|exact Ho].
  - intros x j W E. exact (enc_struct_nonnull _ _ _ E).
Qed.
Lemma fields_rk_fields_Sparse x : fit_Sparse X rep n x -> forall pre, Forall (skipped (fields_Sparse F X) (n + 2)) pre ->
  exists m, enc_fields (fields_Sparse F X) x = Ok m /\ wf_json (n + 3) (JObj (pre ++ m)) /\
    dec_struct (fields_Sparse F X) zero_Sparse (JObj (pre ++ m)) = Ok (kept_Sparse X rep x).
Proof.
  intros W. unfold fit_Sparse in W. decompose [and] W.
  replace (n + 3)%nat with (S (n + 2)) by lia.
  apply rt_fields.
  - plain_tac.
  - lens_tac.
  - indep_tac.
  - repeat apply Forall_cons; [..|apply Forall_nil].
    + apply (fspec_intro _ _ _ _ _ _ _ _ _ (fit_ext X rep n) (kept_ext X rep)); [apply (rt_mono _ (S n)); [apply (rk_ext rep R X)|lia]|kfield_tac|komit_tac rep R].
    + apply (fspec_intro _ _ _ _ _ _ _ _ _ (fit_any n) (kept_any rep)); [apply (rt_mono _ n); [apply (rk_any rep R F HF)|lia]|kfield_tac|komit_tac rep R].
    + apply (fspec_intro _ _ _ _ _ _ _ _ _ (in_i64) (fun v => v)); [apply (rt_mono _ n); [apply rt_int|lia]|kfield_tac|komit_tac rep R].
    + apply (fspec_intro _ _ _ _ _ _ _ _ _ ((fit_SparseIndices X rep n)) ((kept_SparseIndices X rep))); [apply (rt_mono _ (n + 2)); [apply rk_SparseIndices; reflexivity|lia]|kfield_tac|komit_tac rep R].
    + apply (fspec_intro _ _ _ _ _ _ _ _ _ ((fit_SparseValues X rep n)) ((kept_SparseValues X rep))); [apply (rt_mono _ (n + 2)); [apply rk_SparseValues; reflexivity|lia]|kfield_tac|komit_tac rep R].
  - intros y A K. unfold fields_Sparse in A, K. agree_tac A. apply ext_Sparse; try assumption.
Qed.
Lemma rk_Sparse : forall old, old = zero_Sparse -> rt (c_Sparse F X) (n + 3) old (fit_Sparse X rep n) (kept_Sparse X rep).
Proof.
  intros old -> x W. destruct (fields_rk_fields_Sparse x W [] (Forall_nil _)) as (m & Em & Wm & Dm).
  exists (JObj m). cbn [c_Sparse c_struct enc dec]. unfold enc_struct. rewrite Em. split; [reflexivity|]. split; [exact Wm|exact Dm].
Qed.
Lemma rk_ptr_Sparse : forall old, old = None -> rt (c_ptr zero_Sparse (c_Sparse F X)) (n + 3) old (opt (fit_Sparse X rep n)) (option_map (kept_Sparse X rep)).
Proof.
  intros old ->. apply rt_ptr.
  - intros o Ho. apply rk_Sparse. destruct Ho as [Ho|[_ Ho]]; [discriminate|exact Ho].
  - intros x j W E. exact (enc_struct_nonnull _ _ _ E).
Qed.
Lemma fields_rk_fields_Accessor x : fit_Accessor X rep n x -> forall pre, Forall (skipped (fields_Accessor F X) (n + 3)) pre ->
  exists m, enc_fields (fields_Accessor F X) x = Ok m /\ wf_json (n + 4) (JObj (pre ++ m)) /\
    dec_struct (fields_Accessor F X) zero_Accessor (JObj (pre ++ m)) = Ok (kept_Accessor X rep x).
Proof.
  intros W. unfold fit_Accessor in W. decompose [and] W.
  replace (n + 4)%nat with (S (n + 3)) by lia.
  apply rt_fields.
  - plain_tac.
  - lens_tac.
  - indep_tac.
  - repeat apply Forall_cons; [..|apply Forall_nil].
    + apply (fspec_intro _ _ _ _ _ _ _ _ _ (fit_ext X rep n) (kept_ext X rep)); [apply (rt_mono _ (S n)); [apply (rk_ext rep R X)|lia]|kfield_tac|komit_tac rep R].
    + apply (fspec_intro _ _ _ _ _ _ _ _ _ (fit_any n) (kept_any rep)); [apply (rt_mono _ n); [apply (rk_any rep R F HF)|lia]|kfield_tac|komit_tac rep R].
    + apply (fspec_intro _ _ _ _ _ _ _ _ _ (fun _ => True) (rep)); [apply (rt_mono _ n); [apply (rk_str rep R)|lia]|kfield_tac|komit_tac rep R].
    + apply (fspec_intro _ _ _ _ _ _ _ _ _ (opt in_i64) (option_map (fun v => v))); [apply (rt_mono _ n); [apply rt_oint|lia]|kfield_tac|komit_tac rep R].
    + apply (fspec_intro _ _ _ _ _ _ _ _ _ (in_i64) (fun v => v)); [apply (rt_mono _ n); [apply rt_int|lia]|kfield_tac|komit_tac rep R].
    + apply (fspec_intro _ _ _ _ _ _ _ _ _ (fun _ => True) (kept_ct)); [apply (rt_mono _ n); [apply rk_ct|lia]|kfield_tac|komit_tac rep R].
    + apply (fspec_intro _ _ _ _ _ _ _ _ _ (fun _ => True) (fun v => v)); [apply (rt_mono _ n); [apply rt_bool|lia]|kfield_tac|komit_tac rep R].
    + apply (fspec_intro _ _ _ _ _ _ _ _ _ (in_i64) (fun v => v)); [apply (rt_mono _ n); [apply rt_int|lia]|kfield_tac|komit_tac rep R].
    + apply (fspec_intro _ _ _ _ _ _ _ _ _ ((fun v => at_valid v = true)) (fun v => v)); [apply (rt_mono _ n); [apply rt_at|lia]|kfield_tac|komit_tac rep R].
    + apply (fspec_intro _ _ _ _ _ _ _ _ _ (Forall float_ok) (map (fun v => v))); [apply (rt_mono _ (S n)); [apply (rt_slice 0 (c_f64 F) n float_ok (fun v => v)), rt_f64, HF|lia]|kfield_tac|komit_tac rep R].
    + apply (fspec_intro _ _ _ _ _ _ _ _ _ (Forall float_ok) (map (fun v => v))); [apply (rt_mono _ (S n)); [apply (rt_slice 0 (c_f64 F) n float_ok (fun v => v)), rt_f64, HF|lia]|kfield_tac|komit_tac rep R].
    + apply (fspec_intro _ _ _ _ _ _ _ _ _ (opt (fit_Sparse X rep n)) (option_map (kept_Sparse X rep))); [apply (rt_mono _ (n + 3)); [apply rk_ptr_Sparse; reflexivity|lia]|kfield_tac|komit_tac rep R].
  - intros y A K. unfold fields_Accessor in A, K. agree_tac A. apply ext_Accessor; try assumption.
Qed.
Lemma rk_Accessor : forall old, old = zero_Accessor -> rt (c_Accessor F X) (n + 4) old (fit_Accessor X rep n) (kept_Accessor X rep).
Proof.
  intros old -> x W. destruct (fields_rk_fields_Accessor x W [] (Forall_nil _)) as (m & Em & Wm & Dm).
  exists (JObj m). cbn [c_Accessor c_struct enc dec]. unfold enc_struct. rewrite Em. split; [reflexivity|]. split; [exact Wm|exact Dm].
Qed.
Lemma rk_ptr_Accessor : forall old, old = None -> rt (c_ptr zero_Accessor (c_Accessor F X)) (n + 4) old (opt (fit_Accessor X rep n)) (option_map (kept_Accessor X rep)).
Proof.
  intros old ->. apply rt_ptr.
  - intros o Ho. apply rk_Accessor. destruct Ho as [Ho|[_ Ho]]; [discriminate|exact Ho].
  - intros x j W E. exact (enc_struct_nonnull _ _ _ E).
Qed.
Lemma fields_rk_fields_Buffer x : fit_Buffer X rep n x -> forall pre, Forall (skipped (fields_Buffer F X) (n + 1)) pre ->
  exists m, enc_fields (fields_Buffer F X) x = Ok m /\ wf_json (n + 2) (JObj (pre ++ m)) /\
    dec_struct (fields_Buffer F X) zero_Buffer (JObj (pre ++ m)) = Ok (kept_Buffer X rep x).
Proof.
  intros W. unfold fit_Buffer in W. decompose [and] W.
  replace (n + 2)%nat with (S (n + 1)) by lia.
  apply rt_fields.
  - plain_tac.
  - lens_tac.
  - indep_tac.
  - repeat apply Forall_cons; [..|apply Forall_nil].
    + apply (fspec_intro _ _ _ _ _ _ _ _ _ (fit_ext X rep n) (kept_ext X rep)); [apply (rt_mono _ (S n)); [apply (rk_ext rep R X)|lia]|kfield_tac|komit_tac rep R].
    + apply (fspec_intro _ _ _ _ _ _ _ _ _ (fit_any n) (kept_any rep)); [apply (rt_mono _ n); [apply (rk_any rep R F HF)|lia]|kfield_tac|komit_tac rep R].
    + apply (fspec_intro _ _ _ _ _ _ _ _ _ (fun _ => True) (rep)); [apply (rt_mono _ n); [apply (rk_str rep R)|lia]|kfield_tac|komit_tac rep R].
    + apply (fspec_intro _ _ _ _ _ _ _ _ _ (fun _ => True) (rep)); [apply (rt_mono _ n); [apply (rk_str rep R)|lia]|kfield_tac|komit_tac rep R].
    + apply (fspec_intro _ _ _ _ _ _ _ _ _ (in_i64) (fun v => v)); [apply (rt_mono _ n); [apply rt_int|lia]|kfield_tac|komit_tac rep R].
  - intros y A K. unfold fields_Buffer in A, K. agree_tac A. apply ext_Buffer; try assumption. rewrite K by keeps_tac. reflexivity.
Qed.
Lemma rk_Buffer : forall old, old = zero_Buffer -> rt (c_Buffer F X) (n + 2) old (fit_Buffer X rep n) (kept_Buffer X rep).
Proof.
  intros old -> x W. destruct (fields_rk_fields_Buffer x W [] (Forall_nil _)) as (m & Em & Wm & Dm).
  exists (JObj m). cbn [c_Buffer c_struct enc dec]. unfold enc_struct. rewrite Em. split; [reflexivity|]. split; [exact Wm|exact Dm].
Qed.
Lemma rk_ptr_Buffer : forall old, old = None -> rt (c_ptr zero_Buffer (c_Buffer F X)) (n + 2) old (opt (fit_Buffer X rep n)) (option_map (kept_Buffer X rep)).
Proof.
  intros old ->. apply rt_ptr.
  - intros o Ho. apply rk_Buffer. destruct Ho as [Ho|[_ Ho]]; [discriminate|exact Ho].
  - intros x j W E. exact (enc_struct_nonnull _ _ _ E).
Qed.
Lemma fields_rk_fields_BufferView x : fit_BufferView X rep n x -> forall pre, Forall (skipped (fields_BufferView F X) (n + 1)) pre ->
  exists m, enc_fields (fields_BufferView F X) x = Ok m /\ wf_json (n + 2) (JObj (pre ++ m)) /\
    dec_struct (fields_BufferView F X) zero_BufferView (JObj (pre ++ m)) = Ok (kept_BufferView X rep x).
Proof.
  intros W. unfold fit_BufferView in W. decompose [and] W.
  replace (n + 2)%nat with (S (n + 1)) by lia.
  apply rt_fields.
  - plain_tac.
  - lens_tac.
  - indep_tac.
  - repeat apply Forall_cons; [..|apply Forall_nil].
    + apply (fspec_intro _ _ _ _ _ _ _ _ _ (fit_ext X rep n) (kept_ext X rep)); [apply (rt_mono _ (S n)); [apply (rk_ext rep R X)|lia]|kfield_tac|komit_tac rep R].
    + apply (fspec_intro _ _ _ _ _ _ _ _ _ (fit_any n) (kept_any rep)); [apply (rt_mono _ n); [apply (rk_any rep R F HF)|lia]|kfield_tac|komit_tac rep R].
    + apply (fspec_intro _ _ _ _ _ _ _ _ _ (in_i64) (fun v => v)); [apply (rt_mono _ n); [apply rt_int|lia]|kfield_tac|komit_tac rep R].
    + apply (fspec_intro _ _ _ _ _ _ _ _ _ (in_i64) (fun v => v)); [apply (rt_mono _ n); [apply rt_int|lia]|kfield_tac|komit_tac rep R].
    + apply (fspec_intro _ _ _ _ _ _ _ _ _ (in_i64) (fun v => v)); [apply (rt_mono _ n); [apply rt_int|lia]|kfield_tac|komit_tac rep R].
    + apply (fspec_intro _ _ _ _ _ _ _ _ _ (in_i64) (fun v => v)); [apply (rt_mono _ n); [apply rt_int|lia]|kfield_tac|komit_tac rep R].
    + apply (fspec_intro _ _ _ _ _ _ _ _ _ (range 65536) (fun v => v)); [apply (rt_mono _ n); [apply rt_tgt|lia]|kfield_tac|komit_tac rep R].
    + apply (fspec_intro _ _ _ _ _ _ _ _ _ (fun _ => True) (rep)); [apply (rt_mono _ n); [apply (rk_str rep R)|lia]|kfield_tac|komit_tac rep R].
  - intros y A K. unfold fields_BufferView in A, K. agree_tac A. apply ext_BufferView; try assumption.
Qed.
Lemma rk_BufferView : forall old, old = zero_BufferView -> rt (c_BufferView F X) (n + 2) old (fit_BufferView X rep n) (kept_BufferView X rep).
Proof.
  intros old -> x W. destruct (fields_rk_fields_BufferView x W [] (Forall_nil _)) as (m & Em & Wm & Dm).
  exists (JObj m). cbn [c_BufferView c_struct enc dec]. unfold enc_struct. rewrite Em. split; [reflexivity|]. split; [exact Wm|exact Dm].
Qed.
Lemma rk_ptr_BufferView : forall old, old = None -> rt (c_ptr zero_BufferView (c_BufferView F X)) (n + 2) old (opt (fit_BufferView X rep n)) (option_map (kept_BufferView X rep)).
Proof.
  intros old ->. apply rt_ptr.
  - intros o Ho. apply rk_BufferView. destruct Ho as [Ho|[_ Ho]]; [discriminate|exact Ho].
  - intros x j W E. exact (enc_struct_nonnull _ _ _ E).
Qed.
Lemma fields_rk_fields_Scene x : fit_Scene X rep n x -> forall pre, Forall (skipped (fields_Scene F X) (n + 1)) pre ->
  exists m, enc_fields (fields_Scene F X) x = Ok m /\ wf_json (n + 2) (JObj (pre ++ m)) /\
    dec_struct (fields_Scene F X) zero_Scene (JObj (pre ++ m)) = Ok (kept_Scene X rep x).
Proof.
  intros W. unfold fit_Scene in W. decompose [and] W.
  replace (n + 2)%nat with (S (n + 1)) by lia.
  apply rt_fields.
  - plain_tac.
  - lens_tac.
  - indep_tac.
  - repeat apply Forall_cons; [..|apply Forall_nil].
    + apply (fspec_intro _ _ _ _ _ _ _ _ _ (fit_ext X rep n) (kept_ext X rep)); [apply (rt_mono _ (S n)); [apply (rk_ext rep R X)|lia]|kfield_tac|komit_tac rep R].
    + apply (fspec_intro _ _ _ _ _ _ _ _ _ (fit_any n) (kept_any rep)); [apply (rt_mono _ n); [apply (rk_any rep R F HF)|lia]|kfield_tac|komit_tac rep R].
    + apply (fspec_intro _ _ _ _ _ _ _ _ _ (fun _ => True) (rep)); [apply (rt_mono _ n); [apply (rk_str rep R)|lia]|kfield_tac|komit_tac rep R].
    + apply (fspec_intro _ _ _ _ _ _ _ _ _ (Forall in_i64) (map (fun v => v))); [apply (rt_mono _ (S n)); [apply (rt_slice 0 c_int n in_i64 (fun v => v)), rt_int|lia]|kfield_tac|komit_tac rep R].
  - intros y A K. unfold fields_Scene in A, K. agree_tac A. apply ext_Scene; try assumption.
Qed.
Lemma rk_Scene : forall old, old = zero_Scene -> rt (c_Scene F X) (n + 2) old (fit_Scene X rep n) (kept_Scene X rep).
Proof.
  intros old -> x W. destruct (fields_rk_fields_Scene x W [] (Forall_nil _)) as (m & Em & Wm & Dm).
  exists (JObj m). cbn [c_Scene c_struct enc dec]. unfold enc_struct. rewrite Em. split; [reflexivity|]. split; [exact Wm|exact Dm].
Qed.
Lemma rk_ptr_Scene : forall old, old = None -> rt (c_ptr zero_Scene (c_Scene F X)) (n + 2) old (opt (fit_Scene X rep n)) (option_map (kept_Scene X rep)).
Proof.
  intros old ->. apply rt_ptr.
  - intros o Ho. apply rk_Scene. destruct Ho as [Ho|[_ Ho]]; [discriminate|exact Ho].
  - intros x j W E. exact (enc_struct_nonnull _ _ _ E).
Qed.
Lemma fields_rk_out_Node x : fit_Node X rep n x -> forall pre, Forall (skipped (fields_Node F X) (n + 1)) pre ->
  exists m, enc_fields (out_Node F X) x = Ok m /\ wf_json (n + 2) (JObj (pre ++ m)) /\
    dec_struct (fields_Node F X) default_Node (JObj (pre ++ m)) = Ok (kept_Node X rep x).
Proof.
  intros W. unfold fit_Node in W. decompose [and] W.
  replace (n + 2)%nat with (S (n + 1)) by lia.
  apply rt_fields.
  - plain_tac.
  - lens_tac.
  - indep_tac.
  - repeat apply Forall_cons; [..|apply Forall_nil].
    + apply (fspec_intro _ _ _ _ _ _ _ _ _ (farray 16) (fun v => v)); [apply (rt_mono _ (S n)); [apply (rt_array 0 (c_f64 F) n 16); [intros; apply rt_f64, HF|reflexivity]|lia]|kfield_tac|komit_tac rep R].
    + apply (fspec_intro _ _ _ _ _ _ _ _ _ (farray 4) (fun v => v)); [apply (rt_mono _ (S n)); [apply (rt_array 0 (c_f64 F) n 4); [intros; apply rt_f64, HF|reflexivity]|lia]|kfield_tac|komit_tac rep R].
    + apply (fspec_intro _ _ _ _ _ _ _ _ _ (farray 3) (fun v => v)); [apply (rt_mono _ (S n)); [apply (rt_array 0 (c_f64 F) n 3); [intros; apply rt_f64, HF|reflexivity]|lia]|kfield_tac|komit_tac rep R].
    + apply (fspec_intro _ _ _ _ _ _ _ _ _ (farray 3) (fun v => v)); [apply (rt_mono _ (S n)); [apply (rt_array 0 (c_f64 F) n 3); [intros; apply rt_f64, HF|reflexivity]|lia]|kfield_tac|komit_tac rep R].
    + apply (fspec_intro _ _ _ _ _ _ _ _ _ (fit_ext X rep n) (kept_ext X rep)); [apply (rt_mono _ (S n)); [apply (rk_ext rep R X)|lia]|kfield_tac|komit_tac rep R].
    + apply (fspec_intro _ _ _ _ _ _ _ _ _ (fit_any n) (kept_any rep)); [apply (rt_mono _ n); [apply (rk_any rep R F HF)|lia]|kfield_tac|komit_tac rep R].
    + apply (fspec_intro _ _ _ _ _ _ _ _ _ (fun _ => True) (rep)); [apply (rt_mono _ n); [apply (rk_str rep R)|lia]|kfield_tac|komit_tac rep R].
    + apply (fspec_intro _ _ _ _ _ _ _ _ _ (opt in_i64) (option_map (fun v => v))); [apply (rt_mono _ n); [apply rt_oint|lia]|kfield_tac|komit_tac rep R].
    + apply (fspec_intro _ _ _ _ _ _ _ _ _ (Forall in_i64) (map (fun v => v))); [apply (rt_mono _ (S n)); [apply (rt_slice 0 c_int n in_i64 (fun v => v)), rt_int|lia]|kfield_tac|komit_tac rep R].
    + apply (fspec_intro _ _ _ _ _ _ _ _ _ (opt in_i64) (option_map (fun v => v))); [apply (rt_mono _ n); [apply rt_oint|lia]|kfield_tac|komit_tac rep R].
    + apply (fspec_intro _ _ _ _ _ _ _ _ _ (opt in_i64) (option_map (fun v => v))); [apply (rt_mono _ n); [apply rt_oint|lia]|kfield_tac|komit_tac rep R].
    + apply (fspec_intro _ _ _ _ _ _ _ _ _ (Forall float_ok) (map (fun v => v))); [apply (rt_mono _ (S n)); [apply (rt_slice 0 (c_f64 F) n float_ok (fun v => v)), rt_f64, HF|lia]|kfield_tac|komit_tac rep R].
  - intros y A K. unfold out_Node in A, K. agree_tac A. apply ext_Node; try assumption.
Qed.
Lemma rk_Node : forall old, rt (c_Node F X) (n + 2) old (fit_Node X rep n) (kept_Node X rep).
Proof.
  intros old x W. destruct (fields_rk_out_Node x W [] (Forall_nil _)) as (m & Em & Wm & Dm).
  exists (JObj m). cbn [c_Node c_struct enc dec]. unfold enc_struct. rewrite Em. split; [reflexivity|]. split; [exact Wm|exact Dm].
Qed.
Lemma rk_ptr_Node : forall old, rt (c_ptr zero_Node (c_Node F X)) (n + 2) old (opt (fit_Node X rep n)) (option_map (kept_Node X rep)).
Proof.
  intros old. apply rt_ptr.
  - intros o Ho. apply rk_Node.
  - intros x j W E. exact (enc_struct_nonnull _ _ _ E).
Qed.
Lemma fields_rk_fields_Skin x : fit_Skin X rep n x -> forall pre, Forall (skipped (fields_Skin F X) (n + 1)) pre ->
  exists m, enc_fields (fields_Skin F X) x = Ok m /\ wf_json (n + 2) (JObj (pre ++ m)) /\
    dec_struct (fields_Skin F X) zero_Skin (JObj (pre ++ m)) = Ok (kept_Skin X rep x).
Proof.
  intros W. unfold fit_Skin in W. decompose [and] W.
  replace (n + 2)%nat with (S (n + 1)) by lia.
  apply rt_fields.
  - plain_tac.
  - lens_tac.
  - indep_tac.
  - repeat apply Forall_cons; [..|apply Forall_nil].
    + apply (fspec_intro _ _ _ _ _ _ _ _ _ (fit_ext X rep n) (kept_ext X rep)); [apply (rt_mono _ (S n)); [apply (rk_ext rep R X)|lia]|kfield_tac|komit_tac rep R].
    + apply (fspec_intro _ _ _ _ _ _ _ _ _ (fit_any n) (kept_any rep)); [apply (rt_mono _ n); [apply (rk_any rep R F HF)|lia]|kfield_tac|komit_tac rep R].
    + apply (fspec_intro _ _ _ _ _ _ _ _ _ (fun _ => True) (rep)); [apply (rt_mono _ n); [apply (rk_str rep R)|lia]|kfield_tac|komit_tac rep R].
    + apply (fspec_intro _ _ _ _ _ _ _ _ _ (opt in_i64) (option_map (fun v => v))); [apply (rt_mono _ n); [apply rt_oint|lia]|kfield_tac|komit_tac rep R].
    + apply (fspec_intro _ _ _ _ _ _ _ _ _ (opt in_i64) (option_map (fun v => v))); [apply (rt_mono _ n); [apply rt_oint|lia]|kfield_tac|komit_tac rep R].
    + apply (fspec_intro _ _ _ _ _ _ _ _ _ (opt (Forall in_i64)) (option_map (map (fun v => v)))); [apply (rt_mono _ (S n)); [apply (rt_oslice 0 c_int n in_i64 (fun v => v)), rt_int|lia]|kfield_tac|komit_tac rep R].
  - intros y A K. unfold fields_Skin in A, K. agree_tac A. apply ext_Skin; try assumption.
Qed.
Lemma rk_Skin : forall old, old = zero_Skin -> rt (c_Skin F X) (n + 2) old (fit_Skin X rep n) (kept_Skin X rep).
Proof.
  intros old -> x W. destruct (fields_rk_fields_Skin x W [] (Forall_nil _)) as (m & Em & Wm & Dm).
  exists (JObj m). cbn [c_Skin c_struct enc dec]. unfold enc_struct. rewrite Em. split; [reflexivity|]. split; [exact Wm|exact Dm].
Qed.
Lemma rk_ptr_Skin : forall old, old = None -> rt (c_ptr zero_Skin (c_Skin F X)) (n + 2) old (opt (fit_Skin X rep n)) (option_map (kept_Skin X rep)).
Proof.
  intros old ->. apply rt_ptr.
  - intros o Ho. apply rk_Skin. destruct Ho as [Ho|[_ Ho]]; [discriminate|exact Ho].
  - intros x j W E. exact (enc_struct_nonnull _ _ _ E).
Qed.
Lemma fields_rk_fields_Orthographic x : fit_Orthographic X rep n x -> forall pre, Forall (skipped (fields_Orthographic F X) (n + 1)) pre ->
  exists m, enc_fields (fields_Orthographic F X) x = Ok m /\ wf_json (n + 2) (JObj (pre ++ m)) /\
    dec_struct (fields_Orthographic F X) zero_Orthographic (JObj (pre ++ m)) = Ok (kept_Orthographic X rep x).
Proof.
  intros W. unfold fit_Orthographic in W. decompose [and] W.
  replace (n + 2)%nat with (S (n + 1)) by lia.
  apply rt_fields.
  - plain_tac.
  - lens_tac.
  - indep_tac.
  - repeat apply Forall_cons; [..|apply Forall_nil].
    + apply (fspec_intro _ _ _ _ _ _ _ _ _ (fit_ext X rep n) (kept_ext X rep)); [apply (rt_mono _ (S n)); [apply (rk_ext rep R X)|lia]|kfield_tac|komit_tac rep R].
    + apply (fspec_intro _ _ _ _ _ _ _ _ _ (fit_any n) (kept_any rep)); [apply (rt_mono _ n); [apply (rk_any rep R F HF)|lia]|kfield_tac|komit_tac rep R].
    + apply (fspec_intro _ _ _ _ _ _ _ _ _ (float_ok) (fun v => v)); [apply (rt_mono _ n); [apply rt_f64; exact HF|lia]|kfield_tac|komit_tac rep R].
    + apply (fspec_intro _ _ _ _ _ _ _ _ _ (float_ok) (fun v => v)); [apply (rt_mono _ n); [apply rt_f64; exact HF|lia]|kfield_tac|komit_tac rep R].
    + apply (fspec_intro _ _ _ _ _ _ _ _ _ (float_ok) (fun v => v)); [apply (rt_mono _ n); [apply rt_f64; exact HF|lia]|kfield_tac|komit_tac rep R].
    + apply (fspec_intro _ _ _ _ _ _ _ _ _ (float_ok) (fun v => v)); [apply (rt_mono _ n); [apply rt_f64; exact HF|lia]|kfield_tac|komit_tac rep R].
  - intros y A K. unfold fields_Orthographic in A, K. agree_tac A. apply ext_Orthographic; try assumption.
Qed.
Lemma rk_Orthographic : forall old, old = zero_Orthographic -> rt (c_Orthographic F X) (n + 2) old (fit_Orthographic X rep n) (kept_Orthographic X rep).
Proof.
  intros old -> x W. destruct (fields_rk_fields_Orthographic x W [] (Forall_nil _)) as (m & Em & Wm & Dm).
  exists (JObj m). cbn [c_Orthographic c_struct enc dec]. unfold enc_struct. rewrite Em. split; [reflexivity|]. split; [exact Wm|exact Dm].
Qed.
Lemma rk_ptr_Orthographic : forall old, old = None -> rt (c_ptr zero_Orthographic (c_Orthographic F X)) (n + 2) old (opt (fit_Orthographic X rep n)) (option_map (kept_Orthographic X rep)).
Proof.
  intros old ->. apply rt_ptr.
  - intros o Ho. apply rk_Orthographic. destruct Ho as [Ho|[_ Ho]]; [discriminate|exact Ho].
  - intros x j W E. exact (enc_struct_nonnull _ _ _ E).
Qed.
Lemma fields_rk_fields_Perspective x : fit_Perspective X rep n x -> forall pre, Forall (skipped (fields_Perspective F X) (n + 1)) pre ->
  exists m, enc_fields (fields_Perspective F X) x = Ok m /\ wf_json (n + 2) (JObj (pre ++ m)) /\
    dec_struct (fields_Perspective F X) zero_Perspective (JObj (pre ++ m)) = Ok (kept_Perspective X rep x).
Proof.
  intros W. unfold fit_Perspective in W. decompose [and] W.
  replace (n + 2)%nat with (S (n + 1)) by lia.
  apply rt_fields.
  - plain_tac.
  - lens_tac.
  - indep_tac.
  - repeat apply Forall_cons; [..|apply Forall_nil].
    + apply (fspec_intro _ _ _ _ _ _ _ _ _ (fit_ext X rep n) (kept_ext X rep)); [apply (rt_mono _ (S n)); [apply (rk_ext rep R X)|lia]|kfield_tac|komit_tac rep R].
    + apply (fspec_intro _ _ _ _ _ _ _ _ _ (fit_any n) (kept_any rep)); [apply (rt_mono _ n); [apply (rk_any rep R F HF)|lia]|kfield_tac|komit_tac rep R].
    + apply (fspec_intro _ _ _ _ _ _ _ _ _ (opt float_ok) (option_map (fun v => v))); [apply (rt_mono _ n); [apply (rt_of64 F HF)|lia]|kfield_tac|komit_tac rep R].
    + apply (fspec_intro _ _ _ _ _ _ _ _ _ (float_ok) (fun v => v)); [apply (rt_mono _ n); [apply rt_f64; exact HF|lia]|kfield_tac|komit_tac rep R].
    + apply (fspec_intro _ _ _ _ _ _ _ _ _ (opt float_ok) (option_map (fun v => v))); [apply (rt_mono _ n); [apply (rt_of64 F HF)|lia]|kfield_tac|komit_tac rep R].
    + apply (fspec_intro _ _ _ _ _ _ _ _ _ (float_ok) (fun v => v)); [apply (rt_mono _ n); [apply rt_f64; exact HF|lia]|kfield_tac|komit_tac rep R].
  - intros y A K. unfold fields_Perspective in A, K. agree_tac A. apply ext_Perspective; try assumption.
Qed.
Lemma rk_Perspective : forall old, old = zero_Perspective -> rt (c_Perspective F X) (n + 2) old (fit_Perspective X rep n) (kept_Perspective X rep).
Proof.
  intros old -> x W. destruct (fields_rk_fields_Perspective x W [] (Forall_nil _)) as (m & Em & Wm & Dm).
  exists (JObj m). cbn [c_Perspective c_struct enc dec]. unfold enc_struct. rewrite Em. split; [reflexivity|]. split; [exact Wm|exact Dm].
Qed.
Lemma rk_ptr_Perspective : forall old, old = None -> rt (c_ptr zero_Perspective (c_Perspective F X)) (n + 2) old (opt (fit_Perspective X rep n)) (option_map (kept_Perspective X rep)).
Proof.
  intros old ->. apply rt_ptr.
  - intros o Ho. apply rk_Perspective. destruct Ho as [Ho|[_ Ho]]; [discriminate|exact Ho].
  - intros x j W E. exact (enc_struct_nonnull _ _ _ E).
Qed.
Lemma fields_rk_fields_Camera x : fit_Camera X rep n x -> forall pre, Forall (skipped (fields_Camera F X) (n + 2)) pre ->
  exists m, enc_fields (fields_Camera F X) x = Ok m /\ wf_json (n + 3) (JObj (pre ++ m)) /\
    dec_struct (fields_Camera F X) zero_Camera (JObj (pre ++ m)) = Ok (kept_Camera X rep x).
Proof.
  intros W. unfold fit_Camera in W. decompose [and] W.
  replace (n + 3)%nat with (S (n + 2)) by lia.
  apply rt_fields.
  - plain_tac.
  - lens_tac.
  - indep_tac.
  - repeat apply Forall_cons; [..|apply Forall_nil].
    + apply (fspec_intro _ _ _ _ _ _ _ _ _ (fit_ext X rep n) (kept_ext X rep)); [apply (rt_mono _ (S n)); [apply (rk_ext rep R X)|lia]|kfield_tac|komit_tac rep R].
    + apply (fspec_intro _ _ _ _ _ _ _ _ _ (fit_any n) (kept_any rep)); [apply (rt_mono _ n); [apply (rk_any rep R F HF)|lia]|kfield_tac|komit_tac rep R].
    + apply (fspec_intro _ _ _ _ _ _ _ _ _ (fun _ => True) (rep)); [apply (rt_mono _ n); [apply (rk_str rep R)|lia]|kfield_tac|komit_tac rep R].
    + apply (fspec_intro _ _ _ _ _ _ _ _ _ (opt (fit_Orthographic X rep n)) (option_map (kept_Orthographic X rep))); [apply (rt_mono _ (n + 2)); [apply rk_ptr_Orthographic; reflexivity|lia]|kfield_tac|komit_tac rep R].
    + apply (fspec_intro _ _ _ _ _ _ _ _ _ (opt (fit_Perspective X rep n)) (option_map (kept_Perspective X rep))); [apply (rt_mono _ (n + 2)); [apply rk_ptr_Perspective; reflexivity|lia]|kfield_tac|komit_tac rep R].
  - intros y A K. unfold fields_Camera in A, K. agree_tac A. apply ext_Camera; try assumption.
Qed.
Lemma rk_Camera : forall old, old = zero_Camera -> rt (c_Camera F X) (n + 3) old (fit_Camera X rep n) (kept_Camera X rep).
Proof.
  intros old -> x W. cbn [c_Camera enc dec]. unfold enc_Camera.
  assert (C : cam_Orthographic x <> None \/ cam_Perspective x <> None) by (unfold fit_Camera in W; decompose [and] W; assumption).
  assert (S : forall s, s = "perspective"%string \/ s = "orthographic"%string ->
    Forall (skipped (fields_Camera F X) (n + 2)) [("type"%string, JStr s)]).
  { intros s Hs. constructor; [|constructor]. split; [vm_compute; reflexivity|]. split; [apply ascii_utf8; reflexivity|].
    split; [reflexivity|]. cbn [snd]. constructor. replace s with (quote_str s) by (destruct Hs as [-> | ->]; vm_compute; reflexivity).
    apply quote_str_body. }
  destruct (cam_Perspective x); [|destruct (cam_Orthographic x)].
  - destruct (fields_rk_fields_Camera x W _ (S _ (or_introl eq_refl))) as (m & Em & Wm & Dm).
    eexists. rewrite Em. split; [reflexivity|]. split; [exact Wm|exact Dm].
  - destruct (fields_rk_fields_Camera x W _ (S _ (or_intror eq_refl))) as (m & Em & Wm & Dm).
    eexists. rewrite Em. split; [reflexivity|]. split; [exact Wm|exact Dm].
  - destruct C as [C|C]; contradiction.
Qed.
Lemma rk_ptr_Camera : forall old, old = None -> rt (c_ptr zero_Camera (c_Camera F X)) (n + 3) old (opt (fit_Camera X rep n)) (option_map (kept_Camera X rep)).
Proof.
  intros old ->. apply rt_ptr.
  - intros o Ho. apply rk_Camera. destruct Ho as [Ho|[_ Ho]]; [discriminate|exact Ho].
  - intros x j W E. cbn in E. unfold enc_Camera in E. destruct (cam_Perspective x), (cam_Orthographic x), (enc_fields (fields_Camera F X) x); cbn in E; try discriminate E; injection E as <-; discriminate.
Qed.
Lemma fields_rk_fields_Primitive x : fit_Primitive X rep n x -> forall pre, Forall (skipped (fields_Primitive F X) (n + 2)) pre ->
  exists m, enc_fields (fields_Primitive F X) x = Ok m /\ wf_json (n + 3) (JObj (pre ++ m)) /\
    dec_struct (fields_Primitive F X) zero_Primitive (JObj (pre ++ m)) = Ok (kept_Primitive X rep x).
Proof.
  intros W. unfold fit_Primitive in W. decompose [and] W.
  replace (n + 3)%nat with (S (n + 2)) by lia.
  apply rt_fields.
  - plain_tac.
  - lens_tac.
  - indep_tac.
  - repeat apply Forall_cons; [..|apply Forall_nil].
    + apply (fspec_intro _ _ _ _ _ _ _ _ _ (fit_ext X rep n) (kept_ext X rep)); [apply (rt_mono _ (S n)); [apply (rk_ext rep R X)|lia]|kfield_tac|komit_tac rep R].
    + apply (fspec_intro _ _ _ _ _ _ _ _ _ (fit_any n) (kept_any rep)); [apply (rt_mono _ n); [apply (rk_any rep R F HF)|lia]|kfield_tac|komit_tac rep R].
    + apply (fspec_intro _ _ _ _ _ _ _ _ _ (opt fit_attrs) (option_map (kept_attrs rep))); [apply (rt_mono _ (S n)); [apply (rk_attrs rep R n); reflexivity|lia]|kfield_tac|komit_tac rep R].
    + apply (fspec_intro _ _ _ _ _ _ _ _ _ (opt in_i64) (option_map (fun v => v))); [apply (rt_mono _ n); [apply rt_oint|lia]|kfield_tac|komit_tac rep R].
    + apply (fspec_intro _ _ _ _ _ _ _ _ _ (opt in_i64) (option_map (fun v => v))); [apply (rt_mono _ n); [apply rt_oint|lia]|kfield_tac|komit_tac rep R].
    + apply (fspec_intro _ _ _ _ _ _ _ _ _ (fun _ => True) (kept_mode)); [apply (rt_mono _ n); [apply rk_mode|lia]|kfield_tac|komit_tac rep R].
    + apply (fspec_intro _ _ _ _ _ _ _ _ _ (Forall (opt fit_attrs)) (map (option_map (kept_attrs rep)))); [apply (rt_mono _ (S (S n))); [apply (rt_slice None c_attrs (S n) (opt fit_attrs) (option_map (kept_attrs rep))), (rk_attrs rep R); reflexivity|lia]|kfield_tac|komit_tac rep R].
  - intros y A K. unfold fields_Primitive in A, K. agree_tac A. apply ext_Primitive; try assumption.
Qed.
Lemma rk_Primitive : forall old, old = zero_Primitive -> rt (c_Primitive F X) (n + 3) old (fit_Primitive X rep n) (kept_Primitive X rep).
Proof.
  intros old -> x W. destruct (fields_rk_fields_Primitive x W [] (Forall_nil _)) as (m & Em & Wm & Dm).
  exists (JObj m). cbn [c_Primitive c_struct enc dec]. unfold enc_struct. rewrite Em. split; [reflexivity|]. split; [exact Wm|exact Dm].
Qed.
Lemma rk_ptr_Primitive : forall old, old = None -> rt (c_ptr zero_Primitive (c_Primitive F X)) (n + 3) old (opt (fit_Primitive X rep n)) (option_map (kept_Primitive X rep)).
Proof.
  intros old ->. apply rt_ptr.
  - intros o Ho. apply rk_Primitive. destruct Ho as [Ho|[_ Ho]]; [discriminate|exact Ho].
  - intros x j W E. exact (enc_struct_nonnull _ _ _ E).
Qed.
Lemma fields_rk_fields_Mesh x : fit_Mesh X rep n x -> forall pre, Forall (skipped (fields_Mesh F X) (n + 4)) pre ->
  exists m, enc_fields (fields_Mesh F X) x = Ok m /\ wf_json (n + 5) (JObj (pre ++ m)) /\
    dec_struct (fields_Mesh F X) zero_Mesh (JObj (pre ++ m)) = Ok (kept_Mesh X rep x).
Proof.
  intros W. unfold fit_Mesh in W. decompose [and] W.
  replace (n + 5)%nat with (S (n + 4)) by lia.
  apply rt_fields.
  - plain_tac.
  - lens_tac.
  - indep_tac.
  - repeat apply Forall_cons; [..|apply Forall_nil].
    + apply (fspec_intro _ _ _ _ _ _ _ _ _ (fit_ext X rep n) (kept_ext X rep)); [apply (rt_mono _ (S n)); [apply (rk_ext rep R X)|lia]|kfield_tac|komit_tac rep R].
    + apply (fspec_intro _ _ _ _ _ _ _ _ _ (fit_any n) (kept_any rep)); [apply (rt_mono _ n); [apply (rk_any rep R F HF)|lia]|kfield_tac|komit_tac rep R].
    + apply (fspec_intro _ _ _ _ _ _ _ _ _ (fun _ => True) (rep)); [apply (rt_mono _ n); [apply (rk_str rep R)|lia]|kfield_tac|komit_tac rep R].
    + apply (fspec_intro _ _ _ _ _ _ _ _ _ (opt (Forall (opt (fit_Primitive X rep n)))) (option_map (map (option_map (kept_Primitive X rep))))); [apply (rt_mono _ (S (n + 3))); [apply (rt_oslice None _ _ (opt (fit_Primitive X rep n)) (option_map (kept_Primitive X rep))), rk_ptr_Primitive; reflexivity|lia]|kfield_tac|komit_tac rep R].
    + apply (fspec_intro _ _ _ _ _ _ _ _ _ (Forall float_ok) (map (fun v => v))); [apply (rt_mono _ (S n)); [apply (rt_slice 0 (c_f64 F) n float_ok (fun v => v)), rt_f64, HF|lia]|kfield_tac|komit_tac rep R].
  - intros y A K. unfold fields_Mesh in A, K. agree_tac A. apply ext_Mesh; try assumption.
Qed.
Lemma rk_Mesh : forall old, old = zero_Mesh -> rt (c_Mesh F X) (n + 5) old (fit_Mesh X rep n) (kept_Mesh X rep).
Proof.
  intros old -> x W. destruct (fields_rk_fields_Mesh x W [] (Forall_nil _)) as (m & Em & Wm & Dm).
  exists (JObj m). cbn [c_Mesh c_struct enc dec]. unfold enc_struct. rewrite Em. split; [reflexivity|]. split; [exact Wm|exact Dm].
Qed.
Lemma rk_ptr_Mesh : forall old, old = None -> rt (c_ptr zero_Mesh (c_Mesh F X)) (n + 5) old (opt (fit_Mesh X rep n)) (option_map (kept_Mesh X rep)).
Proof.
  intros old ->. apply rt_ptr.
  - intros o Ho. apply rk_Mesh. destruct Ho as [Ho|[_ Ho]]; [discriminate|exact Ho].
  - intros x j W E. exact (enc_struct_nonnull _ _ _ E).
Qed.
Lemma fields_rk_fields_TextureInfo x : fit_TextureInfo X rep n x -> forall pre, Forall (skipped (fields_TextureInfo F X) (n + 1)) pre ->
  exists m, enc_fields (fields_TextureInfo F X) x = Ok m /\ wf_json (n + 2) (JObj (pre ++ m)) /\
    dec_struct (fields_TextureInfo F X) zero_TextureInfo (JObj (pre ++ m)) = Ok (kept_TextureInfo X rep x).
Proof.
  intros W. unfold fit_TextureInfo in W. decompose [and] W.
  replace (n + 2)%nat with (S (n + 1)) by lia.
  apply rt_fields.
  - plain_tac.
  - lens_tac.
  - indep_tac.
  - repeat apply Forall_cons; [..|apply Forall_nil].
    + apply (fspec_intro _ _ _ _ _ _ _ _ _ (fit_ext X rep n) (kept_ext X rep)); [apply (rt_mono _ (S n)); [apply (rk_ext rep R X)|lia]|kfield_tac|komit_tac rep R].
    + apply (fspec_intro _ _ _ _ _ _ _ _ _ (fit_any n) (kept_any rep)); [apply (rt_mono _ n); [apply (rk_any rep R F HF)|lia]|kfield_tac|komit_tac rep R].
    + apply (fspec_intro _ _ _ _ _ _ _ _ _ (in_i64) (fun v => v)); [apply (rt_mono _ n); [apply rt_int|lia]|kfield_tac|komit_tac rep R].
    + apply (fspec_intro _ _ _ _ _ _ _ _ _ (in_i64) (fun v => v)); [apply (rt_mono _ n); [apply rt_int|lia]|kfield_tac|komit_tac rep R].
  - intros y A K. unfold fields_TextureInfo in A, K. agree_tac A. apply ext_TextureInfo; try assumption.
Qed.
Lemma rk_TextureInfo : forall old, old = zero_TextureInfo -> rt (c_TextureInfo F X) (n + 2) old (fit_TextureInfo X rep n) (kept_TextureInfo X rep).
Proof.
  intros old -> x W. destruct (fields_rk_fields_TextureInfo x W [] (Forall_nil _)) as (m & Em & Wm & Dm).
  exists (JObj m). cbn [c_TextureInfo c_struct enc dec]. unfold enc_struct. rewrite Em. split; [reflexivity|]. split; [exact Wm|exact Dm].
Qed.
Lemma rk_ptr_TextureInfo : forall old, old = None -> rt (c_ptr zero_TextureInfo (c_TextureInfo F X)) (n + 2) old (opt (fit_TextureInfo X rep n)) (option_map (kept_TextureInfo X rep)).
Proof.
  intros old ->. apply rt_ptr.
  - intros o Ho. apply rk_TextureInfo. destruct Ho as [Ho|[_ Ho]]; [discriminate|exact Ho].
  - intros x j W E. exact (enc_struct_nonnull _ _ _ E).
Qed.
Lemma fields_rk_fields_NormalTexture x : fit_NormalTexture X rep n x -> forall pre, Forall (skipped (fields_NormalTexture F X) (n + 1)) pre ->
  exists m, enc_fields (fields_NormalTexture F X) x = Ok m /\ wf_json (n + 2) (JObj (pre ++ m)) /\
    dec_struct (fields_NormalTexture F X) default_NormalTexture (JObj (pre ++ m)) = Ok (kept_NormalTexture X rep x).
Proof.
  intros W. unfold fit_NormalTexture in W. decompose [and] W.
  replace (n + 2)%nat with (S (n + 1)) by lia.
  apply rt_fields.
  - plain_tac.
  - lens_tac.
  - indep_tac.
  - repeat apply Forall_cons; [..|apply Forall_nil].
    + apply (fspec_intro _ _ _ _ _ _ _ _ _ (fit_ext X rep n) (kept_ext X rep)); [apply (rt_mono _ (S n)); [apply (rk_ext rep R X)|lia]|kfield_tac|komit_tac rep R].
    + apply (fspec_intro _ _ _ _ _ _ _ _ _ (fit_any n) (kept_any rep)); [apply (rt_mono _ n); [apply (rk_any rep R F HF)|lia]|kfield_tac|komit_tac rep R].
    + apply (fspec_intro _ _ _ _ _ _ _ _ _ (opt in_i64) (option_map (fun v => v))); [apply (rt_mono _ n); [apply rt_oint|lia]|kfield_tac|komit_tac rep R].
    + apply (fspec_intro _ _ _ _ _ _ _ _ _ (in_i64) (fun v => v)); [apply (rt_mono _ n); [apply rt_int|lia]|kfield_tac|komit_tac rep R].
    + apply (fspec_intro _ _ _ _ _ _ _ _ _ (opt float_ok) (option_map (fun v => v))); [apply (rt_mono _ n); [apply (rt_of64 F HF)|lia]|kfield_tac|komit_tac rep R].
  - intros y A K. unfold fields_NormalTexture in A, K. agree_tac A. apply ext_NormalTexture; try assumption.
Qed.
Lemma rk_NormalTexture : forall old, rt (c_NormalTexture F X) (n + 2) old (fit_NormalTexture X rep n) (kept_NormalTexture X rep).
Proof.
  intros old x W. destruct (fields_rk_fields_NormalTexture x W [] (Forall_nil _)) as (m & Em & Wm & Dm).
  exists (JObj m). cbn [c_NormalTexture c_struct enc dec]. unfold enc_struct. rewrite Em. split; [reflexivity|]. split; [exact Wm|exact Dm].
Qed.
Lemma rk_ptr_NormalTexture : forall old, rt (c_ptr zero_NormalTexture (c_NormalTexture F X)) (n + 2) old (opt (fit_NormalTexture X rep n)) (option_map (kept_NormalTexture X rep)).
Proof.
  intros old. apply rt_ptr.
  - intros o Ho. apply rk_NormalTexture.
  - intros x j W E. exact (enc_struct_nonnull _ _ _ E).
Qed.
Lemma fields_rk_fields_OcclusionTexture x : fit_OcclusionTexture X rep n x -> forall pre, Forall (skipped (fields_OcclusionTexture F X) (n + 1)) pre ->
  exists m, enc_fields (fields_OcclusionTexture F X) x = Ok m /\ wf_json (n + 2) (JObj (pre ++ m)) /\
    dec_struct (fields_OcclusionTexture F X) default_OcclusionTexture (JObj (pre ++ m)) = Ok (kept_OcclusionTexture X rep x).
Proof.
  intros W. unfold fit_OcclusionTexture in W. decompose [and] W.
  replace (n + 2)%nat with (S (n + 1)) by lia.
  apply rt_fields.
  - plain_tac.
  - lens_tac.
  - indep_tac.
  - repeat apply Forall_cons; [..|apply Forall_nil].
    + apply (fspec_intro _ _ _ _ _ _ _ _ _ (fit_ext X rep n) (kept_ext X rep)); [apply (rt_mono _ (S n)); [apply (rk_ext rep R X)|lia]|kfield_tac|komit_tac rep R].
    + apply (fspec_intro _ _ _ _ _ _ _ _ _ (fit_any n) (kept_any rep)); [apply (rt_mono _ n); [apply (rk_any rep R F HF)|lia]|kfield_tac|komit_tac rep R].
    + apply (fspec_intro _ _ _ _ _ _ _ _ _ (opt in_i64) (option_map (fun v => v))); [apply (rt_mono _ n); [apply rt_oint|lia]|kfield_tac|komit_tac rep R].
    + apply (fspec_intro _ _ _ _ _ _ _ _ _ (in_i64) (fun v => v)); [apply (rt_mono _ n); [apply rt_int|lia]|kfield_tac|komit_tac rep R].
    + apply (fspec_intro _ _ _ _ _ _ _ _ _ (opt float_ok) (option_map (fun v => v))); [apply (rt_mono _ n); [apply (rt_of64 F HF)|lia]|kfield_tac|komit_tac rep R].
  - intros y A K. unfold fields_OcclusionTexture in A, K. agree_tac A. apply ext_OcclusionTexture; try assumption.
Qed.
Lemma rk_OcclusionTexture : forall old, rt (c_OcclusionTexture F X) (n + 2) old (fit_OcclusionTexture X rep n) (kept_OcclusionTexture X rep).
Proof.
  intros old x W. destruct (fields_rk_fields_OcclusionTexture x W [] (Forall_nil _)) as (m & Em & Wm & Dm).
  exists (JObj m). cbn [c_OcclusionTexture c_struct enc dec]. unfold enc_struct. rewrite Em. split; [reflexivity|]. split; [exact Wm|exact Dm].
Qed.
Lemma rk_ptr_OcclusionTexture : forall old, rt (c_ptr zero_OcclusionTexture (c_OcclusionTexture F X)) (n + 2) old (opt (fit_OcclusionTexture X rep n)) (option_map (kept_OcclusionTexture X rep)).
Proof.
  intros old. apply rt_ptr.
  - intros o Ho. apply rk_OcclusionTexture.
  - intros x j W E. exact (enc_struct_nonnull _ _ _ E).
Qed.
Lemma fields_rk_fields_PBRMetallicRoughness x : fit_PBRMetallicRoughness X rep n x -> forall pre, Forall (skipped (fields_PBRMetallicRoughness F X) (n + 2)) pre ->
  exists m, enc_fields (fields_PBRMetallicRoughness F X) x = Ok m /\ wf_json (n + 3) (JObj (pre ++ m)) /\
    dec_struct (fields_PBRMetallicRoughness F X) default_PBRMetallicRoughness (JObj (pre ++ m)) = Ok (kept_PBRMetallicRoughness X rep x).
Proof.
  intros W. unfold fit_PBRMetallicRoughness in W. decompose [and] W.
  replace (n + 3)%nat with (S (n + 2)) by lia.
  apply rt_fields.
  - plain_tac.
  - lens_tac.
  - indep_tac.
  - repeat apply Forall_cons; [..|apply Forall_nil].
    + apply (fspec_intro _ _ _ _ _ _ _ _ _ (fit_ext X rep n) (kept_ext X rep)); [apply (rt_mono _ (S n)); [apply (rk_ext rep R X)|lia]|kfield_tac|komit_tac rep R].
    + apply (fspec_intro _ _ _ _ _ _ _ _ _ (fit_any n) (kept_any rep)); [apply (rt_mono _ n); [apply (rk_any rep R F HF)|lia]|kfield_tac|komit_tac rep R].
    + apply (fspec_intro _ _ _ _ _ _ _ _ _ (opt (farray 4)) (option_map (fun v => v))); [apply (rt_mono _ (S n)); [apply (rt_oarr4 F HF); cbn; auto|lia]|kfield_tac|komit_tac rep R].
    + apply (fspec_intro _ _ _ _ _ _ _ _ _ (opt (fit_TextureInfo X rep n)) (option_map (kept_TextureInfo X rep))); [apply (rt_mono _ (n + 2)); [apply rk_ptr_TextureInfo; reflexivity|lia]|kfield_tac|komit_tac rep R].
    + apply (fspec_intro _ _ _ _ _ _ _ _ _ (opt float_ok) (option_map (fun v => v))); [apply (rt_mono _ n); [apply (rt_of64 F HF)|lia]|kfield_tac|komit_tac rep R].
    + apply (fspec_intro _ _ _ _ _ _ _ _ _ (opt float_ok) (option_map (fun v => v))); [apply (rt_mono _ n); [apply (rt_of64 F HF)|lia]|kfield_tac|komit_tac rep R].
    + apply (fspec_intro _ _ _ _ _ _ _ _ _ (opt (fit_TextureInfo X rep n)) (option_map (kept_TextureInfo X rep))); [apply (rt_mono _ (n + 2)); [apply rk_ptr_TextureInfo; reflexivity|lia]|kfield_tac|komit_tac rep R].
  - intros y A K. unfold fields_PBRMetallicRoughness in A, K. agree_tac A. apply ext_PBRMetallicRoughness; try assumption.
Qed.
Lemma rk_PBRMetallicRoughness : forall old, rt (c_PBRMetallicRoughness F X) (n + 3) old (fit_PBRMetallicRoughness X rep n) (kept_PBRMetallicRoughness X rep).
Proof.
  intros old x W. destruct (fields_rk_fields_PBRMetallicRoughness x W [] (Forall_nil _)) as (m & Em & Wm & Dm).
  exists (JObj m). cbn [c_PBRMetallicRoughness c_struct enc dec]. unfold enc_struct. rewrite Em. split; [reflexivity|]. split; [exact Wm|exact Dm].
Qed.
Lemma rk_ptr_PBRMetallicRoughness : forall old, rt (c_ptr zero_PBRMetallicRoughness (c_PBRMetallicRoughness F X)) (n + 3) old (opt (fit_PBRMetallicRoughness X rep n)) (option_map (kept_PBRMetallicRoughness X rep)).
Proof.
  intros old. apply rt_ptr.
  - intros o Ho. apply rk_PBRMetallicRoughness.
  - intros x j W E. exact (enc_struct_nonnull _ _ _ E).
Qed.
Lemma fields_rk_out_Material x : fit_Material X rep n x -> forall pre, Forall (skipped (fields_Material F X) (n + 3)) pre ->
  exists m, enc_fields (out_Material F X) x = Ok m /\ wf_json (n + 4) (JObj (pre ++ m)) /\
    dec_struct (fields_Material F X) default_Material (JObj (pre ++ m)) = Ok (kept_Material X rep x).
Proof.
  intros W. unfold fit_Material in W. decompose [and] W.
  replace (n + 4)%nat with (S (n + 3)) by lia.
  apply rt_fields.
  - plain_tac.
  - lens_tac.
  - indep_tac.
  - repeat apply Forall_cons; [..|apply Forall_nil].
    + apply (fspec_intro _ _ _ _ _ _ _ _ _ (farray 3) (fun v => v)); [apply (rt_mono _ (S n)); [apply (rt_array 0 (c_f64 F) n 3); [intros; apply rt_f64, HF|reflexivity]|lia]|kfield_tac|komit_tac rep R].
    + apply (fspec_intro _ _ _ _ _ _ _ _ _ (opt float_ok) (option_map (fun v => v))); [apply (rt_mono _ n); [apply (rt_of64 F HF)|lia]|kfield_tac|komit_tac rep R].
    + apply (fspec_intro _ _ _ _ _ _ _ _ _ (fit_ext X rep n) (kept_ext X rep)); [apply (rt_mono _ (S n)); [apply (rk_ext rep R X)|lia]|kfield_tac|komit_tac rep R].
    + apply (fspec_intro _ _ _ _ _ _ _ _ _ (fit_any n) (kept_any rep)); [apply (rt_mono _ n); [apply (rk_any rep R F HF)|lia]|kfield_tac|komit_tac rep R].
    + apply (fspec_intro _ _ _ _ _ _ _ _ _ (fun _ => True) (rep)); [apply (rt_mono _ n); [apply (rk_str rep R)|lia]|kfield_tac|komit_tac rep R].
    + apply (fspec_intro _ _ _ _ _ _ _ _ _ (opt (fit_PBRMetallicRoughness X rep n)) (option_map (kept_PBRMetallicRoughness X rep))); [apply (rt_mono _ (n + 3)); [apply rk_ptr_PBRMetallicRoughness|lia]|kfield_tac|komit_tac rep R].
    + apply (fspec_intro _ _ _ _ _ _ _ _ _ (opt (fit_NormalTexture X rep n)) (option_map (kept_NormalTexture X rep))); [apply (rt_mono _ (n + 2)); [apply rk_ptr_NormalTexture|lia]|kfield_tac|komit_tac rep R].
    + apply (fspec_intro _ _ _ _ _ _ _ _ _ (opt (fit_OcclusionTexture X rep n)) (option_map (kept_OcclusionTexture X rep))); [apply (rt_mono _ (n + 2)); [apply rk_ptr_OcclusionTexture|lia]|kfield_tac|komit_tac rep R].
    + apply (fspec_intro _ _ _ _ _ _ _ _ _ (opt (fit_TextureInfo X rep n)) (option_map (kept_TextureInfo X rep))); [apply (rt_mono _ (n + 2)); [apply rk_ptr_TextureInfo; reflexivity|lia]|kfield_tac|komit_tac rep R].
    + apply (fspec_intro _ _ _ _ _ _ _ _ _ (fun _ => True) (kept_enum 3)); [apply (rt_mono _ n); [apply rk_alpha|lia]|kfield_tac|komit_tac rep R].
    + apply (fspec_intro _ _ _ _ _ _ _ _ _ (fun _ => True) (fun v => v)); [apply (rt_mono _ n); [apply rt_bool|lia]|kfield_tac|komit_tac rep R].
  - intros y A K. unfold out_Material in A, K. agree_tac A. apply ext_Material; try assumption.
Qed.
Lemma rk_Material : forall old, rt (c_Material F X) (n + 4) old (fit_Material X rep n) (kept_Material X rep).
Proof.
  intros old x W. destruct (fields_rk_out_Material x W [] (Forall_nil _)) as (m & Em & Wm & Dm).
  exists (JObj m). cbn [c_Material c_struct enc dec]. unfold enc_struct. rewrite Em. split; [reflexivity|]. split; [exact Wm|exact Dm].
Qed.
Lemma rk_ptr_Material : forall old, rt (c_ptr zero_Material (c_Material F X)) (n + 4) old (opt (fit_Material X rep n)) (option_map (kept_Material X rep)).
Proof.
  intros old. apply rt_ptr.
  - intros o Ho. apply rk_Material.
  - intros x j W E. exact (enc_struct_nonnull _ _ _ E).
Qed.
Lemma fields_rk_fields_Texture x : fit_Texture X rep n x -> forall pre, Forall (skipped (fields_Texture F X) (n + 1)) pre ->
  exists m, enc_fields (fields_Texture F X) x = Ok m /\ wf_json (n + 2) (JObj (pre ++ m)) /\
    dec_struct (fields_Texture F X) zero_Texture (JObj (pre ++ m)) = Ok (kept_Texture X rep x).
Proof.
  intros W. unfold fit_Texture in W. decompose [and] W.
  replace (n + 2)%nat with (S (n + 1)) by lia.
  apply rt_fields.
  - plain_tac.
  - lens_tac.
  - indep_tac.
  - repeat apply Forall_cons; [..|apply Forall_nil].
    + apply (fspec_intro _ _ _ _ _ _ _ _ _ (fit_ext X rep n) (kept_ext X rep)); [apply (rt_mono _ (S n)); [apply (rk_ext rep R X)|lia]|kfield_tac|komit_tac rep R].
    + apply (fspec_intro _ _ _ _ _ _ _ _ _ (fit_any n) (kept_any rep)); [apply (rt_mono _ n); [apply (rk_any rep R F HF)|lia]|kfield_tac|komit_tac rep R].
    + apply (fspec_intro _ _ _ _ _ _ _ _ _ (fun _ => True) (rep)); [apply (rt_mono _ n); [apply (rk_str rep R)|lia]|kfield_tac|komit_tac rep R].
    + apply (fspec_intro _ _ _ _ _ _ _ _ _ (opt in_i64) (option_map (fun v => v))); [apply (rt_mono _ n); [apply rt_oint|lia]|kfield_tac|komit_tac rep R].
    + apply (fspec_intro _ _ _ _ _ _ _ _ _ (opt in_i64) (option_map (fun v => v))); [apply (rt_mono _ n); [apply rt_oint|lia]|kfield_tac|komit_tac rep R].
  - intros y A K. unfold fields_Texture in A, K. agree_tac A. apply ext_Texture; try assumption.
Qed.
Lemma rk_Texture : forall old, old = zero_Texture -> rt (c_Texture F X) (n + 2) old (fit_Texture X rep n) (kept_Texture X rep).
Proof.
  intros old -> x W. destruct (fields_rk_fields_Texture x W [] (Forall_nil _)) as (m & Em & Wm & Dm).
  exists (JObj m). cbn [c_Texture c_struct enc dec]. unfold enc_struct. rewrite Em. split; [reflexivity|]. split; [exact Wm|exact Dm].
Qed.
Lemma rk_ptr_Texture : forall old, old = None -> rt (c_ptr zero_Texture (c_Texture F X)) (n + 2) old (opt (fit_Texture X rep n)) (option_map (kept_Texture X rep)).
Proof.
  intros old ->. apply rt_ptr.
  - intros o Ho. apply rk_Texture. destruct Ho as [Ho|[_ Ho]]; [discriminate|exact Ho].
  - intros x j W E. exact (enc_struct_nonnull _ _ _ E).
Qed.
Lemma fields_rk_fields_Sampler x : fit_Sampler X rep n x -> forall pre, Forall (skipped (fields_Sampler F X) (n + 1)) pre ->
  exists m, enc_fields (fields_Sampler F X) x = Ok m /\ wf_json (n + 2) (JObj (pre ++ m)) /\
    dec_struct (fields_Sampler F X) zero_Sampler (JObj (pre ++ m)) = Ok (kept_Sampler X rep x).
Proof.
  intros W. unfold fit_Sampler in W. decompose [and] W.
  replace (n + 2)%nat with (S (n + 1)) by lia.
  apply rt_fields.
  - plain_tac.
  - lens_tac.
  - indep_tac.
  - repeat apply Forall_cons; [..|apply Forall_nil].
    + apply (fspec_intro _ _ _ _ _ _ _ _ _ (fit_ext X rep n) (kept_ext X rep)); [apply (rt_mono _ (S n)); [apply (rk_ext rep R X)|lia]|kfield_tac|komit_tac rep R].
    + apply (fspec_intro _ _ _ _ _ _ _ _ _ (fit_any n) (kept_any rep)); [apply (rt_mono _ n); [apply (rk_any rep R F HF)|lia]|kfield_tac|komit_tac rep R].
    + apply (fspec_intro _ _ _ _ _ _ _ _ _ (fun _ => True) (rep)); [apply (rt_mono _ n); [apply (rk_str rep R)|lia]|kfield_tac|komit_tac rep R].
    + apply (fspec_intro _ _ _ _ _ _ _ _ _ (fun _ => True) (kept_enum 3)); [apply (rt_mono _ n); [apply rk_mag|lia]|kfield_tac|komit_tac rep R].
    + apply (fspec_intro _ _ _ _ _ _ _ _ _ (fun _ => True) (kept_enum 7)); [apply (rt_mono _ n); [apply rk_minf|lia]|kfield_tac|komit_tac rep R].
    + apply (fspec_intro _ _ _ _ _ _ _ _ _ (fun _ => True) (kept_enum 3)); [apply (rt_mono _ n); [apply rk_wrap|lia]|kfield_tac|komit_tac rep R].
    + apply (fspec_intro _ _ _ _ _ _ _ _ _ (fun _ => True) (kept_enum 3)); [apply (rt_mono _ n); [apply rk_wrap|lia]|kfield_tac|komit_tac rep R].
  - intros y A K. unfold fields_Sampler in A, K. agree_tac A. apply ext_Sampler; try assumption.
Qed.
Lemma rk_Sampler : forall old, old = zero_Sampler -> rt (c_Sampler F X) (n + 2) old (fit_Sampler X rep n) (kept_Sampler X rep).
Proof.
  intros old -> x W. destruct (fields_rk_fields_Sampler x W [] (Forall_nil _)) as (m & Em & Wm & Dm).
  exists (JObj m). cbn [c_Sampler c_struct enc dec]. unfold enc_struct. rewrite Em. split; [reflexivity|]. split; [exact Wm|exact Dm].
Qed.
Lemma rk_ptr_Sampler : forall old, old = None -> rt (c_ptr zero_Sampler (c_Sampler F X)) (n + 2) old (opt (fit_Sampler X rep n)) (option_map (kept_Sampler X rep)).
Proof.
  intros old ->. apply rt_ptr.
  - intros o Ho. apply rk_Sampler. destruct Ho as [Ho|[_ Ho]]; [discriminate|exact Ho].
  - intros x j W E. exact (enc_struct_nonnull _ _ _ E).
Qed.
Lemma fields_rk_fields_Image x : fit_Image X rep n x -> forall pre, Forall (skipped (fields_Image F X) (n + 1)) pre ->
  exists m, enc_fields (fields_Image F X) x = Ok m /\ wf_json (n + 2) (JObj (pre ++ m)) /\
    dec_struct (fields_Image F X) zero_Image (JObj (pre ++ m)) = Ok (kept_Image X rep x).
Proof.
  intros W. unfold fit_Image in W. decompose [and] W.
  replace (n + 2)%nat with (S (n + 1)) by lia.
  apply rt_fields.
  - plain_tac.
  - lens_tac.
  - indep_tac.
  - repeat apply Forall_cons; [..|apply Forall_nil].
    + apply (fspec_intro _ _ _ _ _ _ _ _ _ (fit_ext X rep n) (kept_ext X rep)); [apply (rt_mono _ (S n)); [apply (rk_ext rep R X)|lia]|kfield_tac|komit_tac rep R].
    + apply (fspec_intro _ _ _ _ _ _ _ _ _ (fit_any n) (kept_any rep)); [apply (rt_mono _ n); [apply (rk_any rep R F HF)|lia]|kfield_tac|komit_tac rep R].
    + apply (fspec_intro _ _ _ _ _ _ _ _ _ (fun _ => True) (rep)); [apply (rt_mono _ n); [apply (rk_str rep R)|lia]|kfield_tac|komit_tac rep R].
    + apply (fspec_intro _ _ _ _ _ _ _ _ _ (fun _ => True) (rep)); [apply (rt_mono _ n); [apply (rk_str rep R)|lia]|kfield_tac|komit_tac rep R].
    + apply (fspec_intro _ _ _ _ _ _ _ _ _ (fun _ => True) (rep)); [apply (rt_mono _ n); [apply (rk_str rep R)|lia]|kfield_tac|komit_tac rep R].
    + apply (fspec_intro _ _ _ _ _ _ _ _ _ (opt in_i64) (option_map (fun v => v))); [apply (rt_mono _ n); [apply rt_oint|lia]|kfield_tac|komit_tac rep R].
  - intros y A K. unfold fields_Image in A, K. agree_tac A. apply ext_Image; try assumption.
Qed.
Lemma rk_Image : forall old, old = zero_Image -> rt (c_Image F X) (n + 2) old (fit_Image X rep n) (kept_Image X rep).
Proof.
  intros old -> x W. destruct (fields_rk_fields_Image x W [] (Forall_nil _)) as (m & Em & Wm & Dm).
  exists (JObj m). cbn [c_Image c_struct enc dec]. unfold enc_struct. rewrite Em. split; [reflexivity|]. split; [exact Wm|exact Dm].
Qed.
Lemma rk_ptr_Image : forall old, old = None -> rt (c_ptr zero_Image (c_Image F X)) (n + 2) old (opt (fit_Image X rep n)) (option_map (kept_Image X rep)).
Proof.
  intros old ->. apply rt_ptr.
  - intros o Ho. apply rk_Image. destruct Ho as [Ho|[_ Ho]]; [discriminate|exact Ho].
  - intros x j W E. exact (enc_struct_nonnull _ _ _ E).
Qed.
Lemma fields_rk_fields_AnimationSampler x : fit_AnimationSampler X rep n x -> forall pre, Forall (skipped (fields_AnimationSampler F X) (n + 1)) pre ->
  exists m, enc_fields (fields_AnimationSampler F X) x = Ok m /\ wf_json (n + 2) (JObj (pre ++ m)) /\
    dec_struct (fields_AnimationSampler F X) zero_AnimationSampler (JObj (pre ++ m)) = Ok (kept_AnimationSampler X rep x).
Proof.
  intros W. unfold fit_AnimationSampler in W. decompose [and] W.
  replace (n + 2)%nat with (S (n + 1)) by lia.
  apply rt_fields.
  - plain_tac.
  - lens_tac.
  - indep_tac.
  - repeat apply Forall_cons; [..|apply Forall_nil].
    + apply (fspec_intro _ _ _ _ _ _ _ _ _ (fit_ext X rep n) (kept_ext X rep)); [apply (rt_mono _ (S n)); [apply (rk_ext rep R X)|lia]|kfield_tac|komit_tac rep R].
    + apply (fspec_intro _ _ _ _ _ _ _ _ _ (fit_any n) (kept_any rep)); [apply (rt_mono _ n); [apply (rk_any rep R F HF)|lia]|kfield_tac|komit_tac rep R].
    + apply (fspec_intro _ _ _ _ _ _ _ _ _ (in_i64) (fun v => v)); [apply (rt_mono _ n); [apply rt_int|lia]|kfield_tac|komit_tac rep R].
    + apply (fspec_intro _ _ _ _ _ _ _ _ _ (fun _ => True) (kept_enum 3)); [apply (rt_mono _ n); [apply rk_interp|lia]|kfield_tac|komit_tac rep R].
    + apply (fspec_intro _ _ _ _ _ _ _ _ _ (in_i64) (fun v => v)); [apply (rt_mono _ n); [apply rt_int|lia]|kfield_tac|komit_tac rep R].
  - intros y A K. unfold fields_AnimationSampler in A, K. agree_tac A. apply ext_AnimationSampler; try assumption.
Qed.
Lemma rk_AnimationSampler : forall old, old = zero_AnimationSampler -> rt (c_AnimationSampler F X) (n + 2) old (fit_AnimationSampler X rep n) (kept_AnimationSampler X rep).
Proof.
  intros old -> x W. destruct (fields_rk_fields_AnimationSampler x W [] (Forall_nil _)) as (m & Em & Wm & Dm).
  exists (JObj m). cbn [c_AnimationSampler c_struct enc dec]. unfold enc_struct. rewrite Em. split; [reflexivity|]. split; [exact Wm|exact Dm].
Qed.
Lemma rk_ptr_AnimationSampler : forall old, old = None -> rt (c_ptr zero_AnimationSampler (c_AnimationSampler F X)) (n + 2) old (opt (fit_AnimationSampler X rep n)) (option_map (kept_AnimationSampler X rep)).
Proof.
  intros old ->. apply rt_ptr.
  - intros o Ho. apply rk_AnimationSampler. destruct Ho as [Ho|[_ Ho]]; [discriminate|exact Ho].
  - intros x j W E. exact (enc_struct_nonnull _ _ _ E).
Qed.
Lemma fields_rk_fields_AnimationChannelTarget x : fit_AnimationChannelTarget X rep n x -> forall pre, Forall (skipped (fields_AnimationChannelTarget F X) (n + 1)) pre ->
  exists m, enc_fields (fields_AnimationChannelTarget F X) x = Ok m /\ wf_json (n + 2) (JObj (pre ++ m)) /\
    dec_struct (fields_AnimationChannelTarget F X) zero_AnimationChannelTarget (JObj (pre ++ m)) = Ok (kept_AnimationChannelTarget X rep x).
Proof.
  intros W. unfold fit_AnimationChannelTarget in W. decompose [and] W.
  replace (n + 2)%nat with (S (n + 1)) by lia.
  apply rt_fields.
  - plain_tac.
  - lens_tac.
  - indep_tac.
  - repeat apply Forall_cons; [..|apply Forall_nil].
    + apply (fspec_intro _ _ _ _ _ _ _ _ _ (fit_ext X rep n) (kept_ext X rep)); [apply (rt_mono _ (S n)); [apply (rk_ext rep R X)|lia]|kfield_tac|komit_tac rep R].
    + apply (fspec_intro _ _ _ _ _ _ _ _ _ (fit_any n) (kept_any rep)); [apply (rt_mono _ n); [apply (rk_any rep R F HF)|lia]|kfield_tac|komit_tac rep R].
    + apply (fspec_intro _ _ _ _ _ _ _ _ _ (opt in_i64) (option_map (fun v => v))); [apply (rt_mono _ n); [apply rt_oint|lia]|kfield_tac|komit_tac rep R].
    + apply (fspec_intro _ _ _ _ _ _ _ _ _ (fun _ => True) (kept_enum 4)); [apply (rt_mono _ n); [apply rk_trs|lia]|kfield_tac|komit_tac rep R].
  - intros y A K. unfold fields_AnimationChannelTarget in A, K. agree_tac A. apply ext_AnimationChannelTarget; try assumption.
Qed.
Lemma rk_AnimationChannelTarget : forall old, old = zero_AnimationChannelTarget -> rt (c_AnimationChannelTarget F X) (n + 2) old (fit_AnimationChannelTarget X rep n) (kept_AnimationChannelTarget X rep).
Proof.
  intros old -> x W. destruct (fields_rk_fields_AnimationChannelTarget x W [] (Forall_nil _)) as (m & Em & Wm & Dm).
  exists (JObj m). cbn [c_AnimationChannelTarget c_struct enc dec]. unfold enc_struct. rewrite Em. split; [reflexivity|]. split; [exact Wm|exact Dm].
Qed.
Lemma rk_ptr_AnimationChannelTarget : forall old, old = None -> rt (c_ptr zero_AnimationChannelTarget (c_AnimationChannelTarget F X)) (n + 2) old (opt (fit_AnimationChannelTarget X rep n)) (option_map (kept_AnimationChannelTarget X rep)).
Proof.
  intros old ->. apply rt_ptr.
  - intros o Ho. apply rk_AnimationChannelTarget. destruct Ho as [Ho|[_ Ho]]; [discriminate|exact Ho].
  - intros x j W E. exact (enc_struct_nonnull _ _ _ E).
Qed.
Lemma fields_rk_fields_AnimationChannel x : fit_AnimationChannel X rep n x -> forall pre, Forall (skipped (fields_AnimationChannel F X) (n + 2)) pre ->
  exists m, enc_fields (fields_AnimationChannel F X) x = Ok m /\ wf_json (n + 3) (JObj (pre ++ m)) /\
    dec_struct (fields_AnimationChannel F X) zero_AnimationChannel (JObj (pre ++ m)) = Ok (kept_AnimationChannel X rep x).
Proof.
  intros W. unfold fit_AnimationChannel in W. decompose [and] W.
  replace (n + 3)%nat with (S (n + 2)) by lia.
  apply rt_fields.
  - plain_tac.
  - lens_tac.
  - indep_tac.
  - repeat apply Forall_cons; [..|apply Forall_nil].
    + apply (fspec_intro _ _ _ _ _ _ _ _ _ (fit_ext X rep n) (kept_ext X rep)); [apply (rt_mono _ (S n)); [apply (rk_ext rep R X)|lia]|kfield_tac|komit_tac rep R].
    + apply (fspec_intro _ _ _ _ _ _ _ _ _ (fit_any n) (kept_any rep)); [apply (rt_mono _ n); [apply (rk_any rep R F HF)|lia]|kfield_tac|komit_tac rep R].
    + apply (fspec_intro _ _ _ _ _ _ _ _ _ (in_i64) (fun v => v)); [apply (rt_mono _ n); [apply rt_int|lia]|kfield_tac|komit_tac rep R].
    + apply (fspec_intro _ _ _ _ _ _ _ _ _ ((fit_AnimationChannelTarget X rep n)) ((kept_AnimationChannelTarget X rep))); [apply (rt_mono _ (n + 2)); [apply rk_AnimationChannelTarget; reflexivity|lia]|kfield_tac|komit_tac rep R].
  - intros y A K. unfold fields_AnimationChannel in A, K. agree_tac A. apply ext_AnimationChannel; try assumption.
Qed.
Lemma rk_AnimationChannel : forall old, old = zero_AnimationChannel -> rt (c_AnimationChannel F X) (n + 3) old (fit_AnimationChannel X rep n) (kept_AnimationChannel X rep).
Proof.
  intros old -> x W. destruct (fields_rk_fields_AnimationChannel x W [] (Forall_nil _)) as (m & Em & Wm & Dm).
  exists (JObj m). cbn [c_AnimationChannel c_struct enc dec]. unfold enc_struct. rewrite Em. split; [reflexivity|]. split; [exact Wm|exact Dm].
Qed.
Lemma rk_ptr_AnimationChannel : forall old, old = None -> rt (c_ptr zero_AnimationChannel (c_AnimationChannel F X)) (n + 3) old (opt (fit_AnimationChannel X rep n)) (option_map (kept_AnimationChannel X rep)).
Proof.
  intros old ->. apply rt_ptr.
  - intros o Ho. apply rk_AnimationChannel. destruct Ho as [Ho|[_ Ho]]; [discriminate|exact Ho].
  - intros x j W E. exact (enc_struct_nonnull _ _ _ E).
Qed.
Lemma fields_rk_fields_Animation x : fit_Animation X rep n x -> forall pre, Forall (skipped (fields_Animation F X) (n + 4)) pre ->
  exists m, enc_fields (fields_Animation F X) x = Ok m /\ wf_json (n + 5) (JObj (pre ++ m)) /\
    dec_struct (fields_Animation F X) zero_Animation (JObj (pre ++ m)) = Ok (kept_Animation X rep x).
Proof.
  intros W. unfold fit_Animation in W. decompose [and] W.
  replace (n + 5)%nat with (S (n + 4)) by lia.
  apply rt_fields.
  - plain_tac.
  - lens_tac.
  - indep_tac.
  - repeat apply Forall_cons; [..|apply Forall_nil].
    + apply (fspec_intro _ _ _ _ _ _ _ _ _ (fit_ext X rep n) (kept_ext X rep)); [apply (rt_mono _ (S n)); [apply (rk_ext rep R X)|lia]|kfield_tac|komit_tac rep R].
    + apply (fspec_intro _ _ _ _ _ _ _ _ _ (fit_any n) (kept_any rep)); [apply (rt_mono _ n); [apply (rk_any rep R F HF)|lia]|kfield_tac|komit_tac rep R].
    + apply (fspec_intro _ _ _ _ _ _ _ _ _ (fun _ => True) (rep)); [apply (rt_mono _ n); [apply (rk_str rep R)|lia]|kfield_tac|komit_tac rep R].
    + apply (fspec_intro _ _ _ _ _ _ _ _ _ (opt (Forall (opt (fit_AnimationChannel X rep n)))) (option_map (map (option_map (kept_AnimationChannel X rep))))); [apply (rt_mono _ (S (n + 3))); [apply (rt_oslice None _ _ (opt (fit_AnimationChannel X rep n)) (option_map (kept_AnimationChannel X rep))), rk_ptr_AnimationChannel; reflexivity|lia]|kfield_tac|komit_tac rep R].
    + apply (fspec_intro _ _ _ _ _ _ _ _ _ (opt (Forall (opt (fit_AnimationSampler X rep n)))) (option_map (map (option_map (kept_AnimationSampler X rep))))); [apply (rt_mono _ (S (n + 2))); [apply (rt_oslice None _ _ (opt (fit_AnimationSampler X rep n)) (option_map (kept_AnimationSampler X rep))), rk_ptr_AnimationSampler; reflexivity|lia]|kfield_tac|komit_tac rep R].
  - intros y A K. unfold fields_Animation in A, K. agree_tac A. apply ext_Animation; try assumption.
Qed.
Lemma rk_Animation : forall old, old = zero_Animation -> rt (c_Animation F X) (n + 5) old (fit_Animation X rep n) (kept_Animation X rep).
Proof.
  intros old -> x W. destruct (fields_rk_fields_Animation x W [] (Forall_nil _)) as (m & Em & Wm & Dm).
  exists (JObj m). cbn [c_Animation c_struct enc dec]. unfold enc_struct. rewrite Em. split; [reflexivity|]. split; [exact Wm|exact Dm].
Qed.
Lemma rk_ptr_Animation : forall old, old = None -> rt (c_ptr zero_Animation (c_Animation F X)) (n + 5) old (opt (fit_Animation X rep n)) (option_map (kept_Animation X rep)).
Proof.
  intros old ->. apply rt_ptr.
  - intros o Ho. apply rk_Animation. destruct Ho as [Ho|[_ Ho]]; [discriminate|exact Ho].
  - intros x j W E. exact (enc_struct_nonnull _ _ _ E).
Qed.
Lemma fields_rk_out_Document x : fit_Document X rep n x -> forall pre, Forall (skipped (fields_Document F X) (n + 6)) pre ->
  exists m, enc_fields (out_Document F X) x = Ok m /\ wf_json (n + 7) (JObj (pre ++ m)) /\
    dec_struct (fields_Document F X) zero_Document (JObj (pre ++ m)) = Ok (kept_Document X rep x).
Proof.
  intros W. unfold fit_Document in W. decompose [and] W.
  replace (n + 7)%nat with (S (n + 6)) by lia.
  apply rt_fields.
  - plain_tac.
  - lens_tac.
  - indep_tac.
  - repeat apply Forall_cons; [..|apply Forall_nil].
    + apply (fspec_intro _ _ _ _ _ _ _ _ _ (Forall (opt (fit_Buffer X rep n))) (map (option_map (kept_Buffer X rep)))); [apply (rt_mono _ (S (n + 2))); [apply (rt_slice None _ _ (opt (fit_Buffer X rep n)) (option_map (kept_Buffer X rep))), rk_ptr_Buffer; reflexivity|lia]|kfield_tac|komit_tac rep R].
    + apply (fspec_intro _ _ _ _ _ _ _ _ _ (fit_ext X rep n) (kept_ext X rep)); [apply (rt_mono _ (S n)); [apply (rk_ext rep R X)|lia]|kfield_tac|komit_tac rep R].
    + apply (fspec_intro _ _ _ _ _ _ _ _ _ (fit_any n) (kept_any rep)); [apply (rt_mono _ n); [apply (rk_any rep R F HF)|lia]|kfield_tac|komit_tac rep R].
    + apply (fspec_intro _ _ _ _ _ _ _ _ _ (fun _ => True) (map rep)); [apply (rt_mono _ (S n)); [apply (rk_strs rep R n)|lia]|kfield_tac|komit_tac rep R].
    + apply (fspec_intro _ _ _ _ _ _ _ _ _ (fun _ => True) (map rep)); [apply (rt_mono _ (S n)); [apply (rk_strs rep R n)|lia]|kfield_tac|komit_tac rep R].
    + apply (fspec_intro _ _ _ _ _ _ _ _ _ (Forall (opt (fit_Accessor X rep n))) (map (option_map (kept_Accessor X rep)))); [apply (rt_mono _ (S (n + 4))); [apply (rt_slice None _ _ (opt (fit_Accessor X rep n)) (option_map (kept_Accessor X rep))), rk_ptr_Accessor; reflexivity|lia]|kfield_tac|komit_tac rep R].
    + apply (fspec_intro _ _ _ _ _ _ _ _ _ (Forall (opt (fit_Animation X rep n))) (map (option_map (kept_Animation X rep)))); [apply (rt_mono _ (S (n + 5))); [apply (rt_slice None _ _ (opt (fit_Animation X rep n)) (option_map (kept_Animation X rep))), rk_ptr_Animation; reflexivity|lia]|kfield_tac|komit_tac rep R].
    + apply (fspec_intro _ _ _ _ _ _ _ _ _ ((fit_Asset X rep n)) ((kept_Asset X rep))); [apply (rt_mono _ (n + 2)); [apply rk_Asset|lia]|kfield_tac|komit_tac rep R].
    + apply (fspec_intro _ _ _ _ _ _ _ _ _ (Forall (opt (fit_BufferView X rep n))) (map (option_map (kept_BufferView X rep)))); [apply (rt_mono _ (S (n + 2))); [apply (rt_slice None _ _ (opt (fit_BufferView X rep n)) (option_map (kept_BufferView X rep))), rk_ptr_BufferView; reflexivity|lia]|kfield_tac|komit_tac rep R].
    + apply (fspec_intro _ _ _ _ _ _ _ _ _ (Forall (opt (fit_Camera X rep n))) (map (option_map (kept_Camera X rep)))); [apply (rt_mono _ (S (n + 3))); [apply (rt_slice None _ _ (opt (fit_Camera X rep n)) (option_map (kept_Camera X rep))), rk_ptr_Camera; reflexivity|lia]|kfield_tac|komit_tac rep R].
    + apply (fspec_intro _ _ _ _ _ _ _ _ _ (Forall (opt (fit_Image X rep n))) (map (option_map (kept_Image X rep)))); [apply (rt_mono _ (S (n + 2))); [apply (rt_slice None _ _ (opt (fit_Image X rep n)) (option_map (kept_Image X rep))), rk_ptr_Image; reflexivity|lia]|kfield_tac|komit_tac rep R].
    + apply (fspec_intro _ _ _ _ _ _ _ _ _ (Forall (opt (fit_Material X rep n))) (map (option_map (kept_Material X rep)))); [apply (rt_mono _ (S (n + 4))); [apply (rt_slice None _ _ (opt (fit_Material X rep n)) (option_map (kept_Material X rep))), rk_ptr_Material; reflexivity|lia]|kfield_tac|komit_tac rep R].
    + apply (fspec_intro _ _ _ _ _ _ _ _ _ (Forall (opt (fit_Mesh X rep n))) (map (option_map (kept_Mesh X rep)))); [apply (rt_mono _ (S (n + 5))); [apply (rt_slice None _ _ (opt (fit_Mesh X rep n)) (option_map (kept_Mesh X rep))), rk_ptr_Mesh; reflexivity|lia]|kfield_tac|komit_tac rep R].
    + apply (fspec_intro _ _ _ _ _ _ _ _ _ (Forall (opt (fit_Node X rep n))) (map (option_map (kept_Node X rep)))); [apply (rt_mono _ (S (n + 2))); [apply (rt_slice None _ _ (opt (fit_Node X rep n)) (option_map (kept_Node X rep))), rk_ptr_Node; reflexivity|lia]|kfield_tac|komit_tac rep R].
    + apply (fspec_intro _ _ _ _ _ _ _ _ _ (Forall (opt (fit_Sampler X rep n))) (map (option_map (kept_Sampler X rep)))); [apply (rt_mono _ (S (n + 2))); [apply (rt_slice None _ _ (opt (fit_Sampler X rep n)) (option_map (kept_Sampler X rep))), rk_ptr_Sampler; reflexivity|lia]|kfield_tac|komit_tac rep R].
    + apply (fspec_intro _ _ _ _ _ _ _ _ _ (opt in_i64) (option_map (fun v => v))); [apply (rt_mono _ n); [apply rt_oint|lia]|kfield_tac|komit_tac rep R].
    + apply (fspec_intro _ _ _ _ _ _ _ _ _ (Forall (opt (fit_Scene X rep n))) (map (option_map (kept_Scene X rep)))); [apply (rt_mono _ (S (n + 2))); [apply (rt_slice None _ _ (opt (fit_Scene X rep n)) (option_map (kept_Scene X rep))), rk_ptr_Scene; reflexivity|lia]|kfield_tac|komit_tac rep R].
    + apply (fspec_intro _ _ _ _ _ _ _ _ _ (Forall (opt (fit_Skin X rep n))) (map (option_map (kept_Skin X rep)))); [apply (rt_mono _ (S (n + 2))); [apply (rt_slice None _ _ (opt (fit_Skin X rep n)) (option_map (kept_Skin X rep))), rk_ptr_Skin; reflexivity|lia]|kfield_tac|komit_tac rep R].
    + apply (fspec_intro _ _ _ _ _ _ _ _ _ (Forall (opt (fit_Texture X rep n))) (map (option_map (kept_Texture X rep)))); [apply (rt_mono _ (S (n + 2))); [apply (rt_slice None _ _ (opt (fit_Texture X rep n)) (option_map (kept_Texture X rep))), rk_ptr_Texture; reflexivity|lia]|kfield_tac|komit_tac rep R].
  - intros y A K. unfold out_Document in A, K. agree_tac A. apply ext_Document; try assumption.
Qed.
Lemma rk_Document : forall old, old = zero_Document -> rt (c_Document F X) (n + 7) old (fit_Document X rep n) (kept_Document X rep).
Proof.
  intros old -> x W. destruct (fields_rk_out_Document x W [] (Forall_nil _)) as (m & Em & Wm & Dm).
  exists (JObj m). cbn [c_Document c_struct enc dec]. unfold enc_struct. rewrite Em. split; [reflexivity|]. split; [exact Wm|exact Dm].
Qed.
Lemma rk_ptr_Document : forall old, old = None -> rt (c_ptr zero_Document (c_Document F X)) (n + 7) old (opt (fit_Document X rep n)) (option_map (kept_Document X rep)).
Proof.
  intros old ->. apply rt_ptr.
  - intros o Ho. apply rk_Document. destruct Ho as [Ho|[_ Ho]]; [discriminate|exact Ho].
  - intros x j W E. exact (enc_struct_nonnull _ _ _ E).
Qed.
End Params.
