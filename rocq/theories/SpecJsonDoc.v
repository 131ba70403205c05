(** Encodable documents, and what JSON keeps of them.  GENERATED by
    tools/gen_codec.py; do not edit.

    [wf_T]: every value the JSON mapping can represent, with extensions and
    extras nested at most [n] deep.  [norm_T]: the same value with unset or
    zero optional properties replaced by the glTF defaults, raw extensions
    given to their factory, and without the bytes of buffers. *)
From Verif Require Import Base Types Doc F64 SpecText Codec SpecJson.

Definition or_version (s : string) : string := if String.eqb s "" then "2.0" else s.

Section Spec.
Context (X : ext_lib) (n : nat).

Definition wf_Asset (x : Asset) : Prop :=
  wf_ext X n (ast_Extensions x) /\
  wf_any n (ast_Extras x) /\
  utf8_str (ast_Copyright x) /\
  utf8_str (ast_Generator x) /\
  utf8_str (ast_Version x) /\
  utf8_str (ast_MinVersion x).
Definition norm_Asset (x : Asset) : Asset :=
  mkAsset (norm_ext X (ast_Extensions x))
    (ast_Extras x)
    (ast_Copyright x)
    (ast_Generator x)
    (or_version (ast_Version x))
    (ast_MinVersion x).
Definition canon_Asset (x : Asset) : Prop :=
  canon_ext X (ast_Extensions x) /\
  ast_Version x <> ""%string.
Definition settled_Asset (x : Asset) : Prop :=
  settled_ext X (ast_Extensions x).

Definition wf_SparseValues (x : SparseValues) : Prop :=
  wf_ext X n (spv_Extensions x) /\
  wf_any n (spv_Extras x) /\
  in_i64 (spv_BufferView x) /\
  in_i64 (spv_ByteOffset x).
Definition norm_SparseValues (x : SparseValues) : SparseValues :=
  mkSparseValues (norm_ext X (spv_Extensions x))
    (spv_Extras x)
    (spv_BufferView x)
    (spv_ByteOffset x).
Definition canon_SparseValues (x : SparseValues) : Prop :=
  canon_ext X (spv_Extensions x).
Definition settled_SparseValues (x : SparseValues) : Prop :=
  settled_ext X (spv_Extensions x).

Definition wf_SparseIndices (x : SparseIndices) : Prop :=
  wf_ext X n (spi_Extensions x) /\
  wf_any n (spi_Extras x) /\
  in_i64 (spi_BufferView x) /\
  in_i64 (spi_ByteOffset x) /\
  (fun v => ct_valid v = true) (spi_ComponentType x).
Definition norm_SparseIndices (x : SparseIndices) : SparseIndices :=
  mkSparseIndices (norm_ext X (spi_Extensions x))
    (spi_Extras x)
    (spi_BufferView x)
    (spi_ByteOffset x)
    (spi_ComponentType x).
Definition canon_SparseIndices (x : SparseIndices) : Prop :=
  canon_ext X (spi_Extensions x).
Definition settled_SparseIndices (x : SparseIndices) : Prop :=
  settled_ext X (spi_Extensions x).

Definition wf_Sparse (x : Sparse) : Prop :=
  wf_ext X n (spa_Extensions x) /\
  wf_any n (spa_Extras x) /\
  in_i64 (spa_Count x) /\
  wf_SparseIndices (spa_Indices x) /\
  wf_SparseValues (spa_Values x).
Definition norm_Sparse (x : Sparse) : Sparse :=
  mkSparse (norm_ext X (spa_Extensions x))
    (spa_Extras x)
    (spa_Count x)
    (norm_SparseIndices (spa_Indices x))
    (norm_SparseValues (spa_Values x)).
Definition canon_Sparse (x : Sparse) : Prop :=
  canon_ext X (spa_Extensions x) /\
  canon_SparseIndices (spa_Indices x) /\
  canon_SparseValues (spa_Values x).
Definition settled_Sparse (x : Sparse) : Prop :=
  settled_ext X (spa_Extensions x) /\
  settled_SparseIndices (spa_Indices x) /\
  settled_SparseValues (spa_Values x).

Definition wf_Accessor (x : Accessor) : Prop :=
  wf_ext X n (acr_Extensions x) /\
  wf_any n (acr_Extras x) /\
  utf8_str (acr_Name x) /\
  opt in_i64 (acr_BufferView x) /\
  in_i64 (acr_ByteOffset x) /\
  (fun v => ct_valid v = true) (acr_ComponentType x) /\
  in_i64 (acr_Count x) /\
  (fun v => at_valid v = true) (acr_Type x) /\
  Forall float_ok (acr_Max x) /\
  Forall float_ok (acr_Min x) /\
  opt wf_Sparse (acr_Sparse x).
Definition norm_Accessor (x : Accessor) : Accessor :=
  mkAccessor (norm_ext X (acr_Extensions x))
    (acr_Extras x)
    (acr_Name x)
    (acr_BufferView x)
    (acr_ByteOffset x)
    (acr_ComponentType x)
    (acr_Normalized x)
    (acr_Count x)
    (acr_Type x)
    (acr_Max x)
    (acr_Min x)
    (option_map norm_Sparse (acr_Sparse x)).
Definition canon_Accessor (x : Accessor) : Prop :=
  canon_ext X (acr_Extensions x) /\
  opt canon_Sparse (acr_Sparse x).
Definition settled_Accessor (x : Accessor) : Prop :=
  settled_ext X (acr_Extensions x) /\
  opt settled_Sparse (acr_Sparse x).

Definition wf_Buffer (x : Buffer) : Prop :=
  wf_ext X n (buf_Extensions x) /\
  wf_any n (buf_Extras x) /\
  utf8_str (buf_Name x) /\
  utf8_str (buf_URI x) /\
  in_i64 (buf_ByteLength x).
Definition norm_Buffer (x : Buffer) : Buffer :=
  mkBuffer (norm_ext X (buf_Extensions x))
    (buf_Extras x)
    (buf_Name x)
    (buf_URI x)
    (buf_ByteLength x)
    [].
Definition canon_Buffer (x : Buffer) : Prop :=
  canon_ext X (buf_Extensions x).
Definition settled_Buffer (x : Buffer) : Prop :=
  settled_ext X (buf_Extensions x).

Definition wf_BufferView (x : BufferView) : Prop :=
  wf_ext X n (bvw_Extensions x) /\
  wf_any n (bvw_Extras x) /\
  in_i64 (bvw_Buffer x) /\
  in_i64 (bvw_ByteOffset x) /\
  in_i64 (bvw_ByteLength x) /\
  in_i64 (bvw_ByteStride x) /\
  range 65536 (bvw_Target x) /\
  utf8_str (bvw_Name x).
Definition norm_BufferView (x : BufferView) : BufferView :=
  mkBufferView (norm_ext X (bvw_Extensions x))
    (bvw_Extras x)
    (bvw_Buffer x)
    (bvw_ByteOffset x)
    (bvw_ByteLength x)
    (bvw_ByteStride x)
    (bvw_Target x)
    (bvw_Name x).
Definition canon_BufferView (x : BufferView) : Prop :=
  canon_ext X (bvw_Extensions x).
Definition settled_BufferView (x : BufferView) : Prop :=
  settled_ext X (bvw_Extensions x).

Definition wf_Scene (x : Scene) : Prop :=
  wf_ext X n (scn_Extensions x) /\
  wf_any n (scn_Extras x) /\
  utf8_str (scn_Name x) /\
  Forall in_i64 (scn_Nodes x).
Definition norm_Scene (x : Scene) : Scene :=
  mkScene (norm_ext X (scn_Extensions x))
    (scn_Extras x)
    (scn_Name x)
    (scn_Nodes x).
Definition canon_Scene (x : Scene) : Prop :=
  canon_ext X (scn_Extensions x).
Definition settled_Scene (x : Scene) : Prop :=
  settled_ext X (scn_Extensions x).

Definition wf_Node (x : Node) : Prop :=
  wf_ext X n (nod_Extensions x) /\
  wf_any n (nod_Extras x) /\
  utf8_str (nod_Name x) /\
  opt in_i64 (nod_Camera x) /\
  Forall in_i64 (nod_Children x) /\
  opt in_i64 (nod_Skin x) /\
  farray 16 (nod_Matrix x) /\
  opt in_i64 (nod_Mesh x) /\
  farray 4 (nod_Rotation x) /\
  farray 3 (nod_Scale x) /\
  farray 3 (nod_Translation x) /\
  Forall float_ok (nod_Weights x).
Definition norm_Node (x : Node) : Node :=
  mkNode (norm_ext X (nod_Extensions x))
    (nod_Extras x)
    (nod_Name x)
    (nod_Camera x)
    (nod_Children x)
    (nod_Skin x)
    (or_default identity_matrix (repeat 0 16) (nod_Matrix x))
    (nod_Mesh x)
    (or_default identity_rotation (repeat 0 4) (nod_Rotation x))
    (or_default identity_scale (repeat 0 3) (nod_Scale x))
    (or_default (repeat 0 3) (repeat 0 3) (nod_Translation x))
    (nod_Weights x).
Definition canon_Node (x : Node) : Prop :=
  canon_ext X (nod_Extensions x).
Definition settled_Node (x : Node) : Prop :=
  settled_ext X (nod_Extensions x).

Definition wf_Skin (x : Skin) : Prop :=
  wf_ext X n (skn_Extensions x) /\
  wf_any n (skn_Extras x) /\
  utf8_str (skn_Name x) /\
  opt in_i64 (skn_InverseBindMatrices x) /\
  opt in_i64 (skn_Skeleton x) /\
  opt (Forall in_i64) (skn_Joints x).
Definition norm_Skin (x : Skin) : Skin :=
  mkSkin (norm_ext X (skn_Extensions x))
    (skn_Extras x)
    (skn_Name x)
    (skn_InverseBindMatrices x)
    (skn_Skeleton x)
    (skn_Joints x).
Definition canon_Skin (x : Skin) : Prop :=
  canon_ext X (skn_Extensions x).
Definition settled_Skin (x : Skin) : Prop :=
  settled_ext X (skn_Extensions x).

Definition wf_Orthographic (x : Orthographic) : Prop :=
  wf_ext X n (ort_Extensions x) /\
  wf_any n (ort_Extras x) /\
  float_ok (ort_Xmag x) /\
  float_ok (ort_Ymag x) /\
  float_ok (ort_Zfar x) /\
  float_ok (ort_Znear x).
Definition norm_Orthographic (x : Orthographic) : Orthographic :=
  mkOrthographic (norm_ext X (ort_Extensions x))
    (ort_Extras x)
    (ort_Xmag x)
    (ort_Ymag x)
    (ort_Zfar x)
    (ort_Znear x).
Definition canon_Orthographic (x : Orthographic) : Prop :=
  canon_ext X (ort_Extensions x).
Definition settled_Orthographic (x : Orthographic) : Prop :=
  settled_ext X (ort_Extensions x).

Definition wf_Perspective (x : Perspective) : Prop :=
  wf_ext X n (per_Extensions x) /\
  wf_any n (per_Extras x) /\
  opt float_ok (per_AspectRatio x) /\
  float_ok (per_Yfov x) /\
  opt float_ok (per_Zfar x) /\
  float_ok (per_Znear x).
Definition norm_Perspective (x : Perspective) : Perspective :=
  mkPerspective (norm_ext X (per_Extensions x))
    (per_Extras x)
    (per_AspectRatio x)
    (per_Yfov x)
    (per_Zfar x)
    (per_Znear x).
Definition canon_Perspective (x : Perspective) : Prop :=
  canon_ext X (per_Extensions x).
Definition settled_Perspective (x : Perspective) : Prop :=
  settled_ext X (per_Extensions x).

Definition wf_Camera (x : Camera) : Prop :=
  wf_ext X n (cam_Extensions x) /\
  wf_any n (cam_Extras x) /\
  utf8_str (cam_Name x) /\
  opt wf_Orthographic (cam_Orthographic x) /\
  opt wf_Perspective (cam_Perspective x) /\
  (cam_Orthographic x <> None \/ cam_Perspective x <> None).
Definition norm_Camera (x : Camera) : Camera :=
  mkCamera (norm_ext X (cam_Extensions x))
    (cam_Extras x)
    (cam_Name x)
    (option_map norm_Orthographic (cam_Orthographic x))
    (option_map norm_Perspective (cam_Perspective x)).
Definition canon_Camera (x : Camera) : Prop :=
  canon_ext X (cam_Extensions x) /\
  opt canon_Orthographic (cam_Orthographic x) /\
  opt canon_Perspective (cam_Perspective x).
Definition settled_Camera (x : Camera) : Prop :=
  settled_ext X (cam_Extensions x) /\
  opt settled_Orthographic (cam_Orthographic x) /\
  opt settled_Perspective (cam_Perspective x).
(** As decoded: cameras may have no projection. *)
Definition decoded_Camera (x : Camera) : Prop :=
  wf_ext X n (cam_Extensions x) /\
  wf_any n (cam_Extras x) /\
  utf8_str (cam_Name x) /\
  opt wf_Orthographic (cam_Orthographic x) /\
  opt wf_Perspective (cam_Perspective x).

Definition wf_Primitive (x : Primitive) : Prop :=
  wf_ext X n (pri_Extensions x) /\
  wf_any n (pri_Extras x) /\
  opt wf_attrs (pri_Attributes x) /\
  opt in_i64 (pri_Indices x) /\
  opt in_i64 (pri_Material x) /\
  range 7 (pri_Mode x) /\
  Forall (opt wf_attrs) (pri_Targets x).
Definition norm_Primitive (x : Primitive) : Primitive :=
  mkPrimitive (norm_ext X (pri_Extensions x))
    (pri_Extras x)
    (pri_Attributes x)
    (pri_Indices x)
    (pri_Material x)
    (pri_Mode x)
    (pri_Targets x).
Definition canon_Primitive (x : Primitive) : Prop :=
  canon_ext X (pri_Extensions x).
Definition settled_Primitive (x : Primitive) : Prop :=
  settled_ext X (pri_Extensions x).

Definition wf_Mesh (x : Mesh) : Prop :=
  wf_ext X n (msh_Extensions x) /\
  wf_any n (msh_Extras x) /\
  utf8_str (msh_Name x) /\
  opt (Forall (opt wf_Primitive)) (msh_Primitives x) /\
  Forall float_ok (msh_Weights x).
Definition norm_Mesh (x : Mesh) : Mesh :=
  mkMesh (norm_ext X (msh_Extensions x))
    (msh_Extras x)
    (msh_Name x)
    (option_map (map (option_map norm_Primitive)) (msh_Primitives x))
    (msh_Weights x).
Definition canon_Mesh (x : Mesh) : Prop :=
  canon_ext X (msh_Extensions x) /\
  opt (Forall (opt canon_Primitive)) (msh_Primitives x).
Definition settled_Mesh (x : Mesh) : Prop :=
  settled_ext X (msh_Extensions x) /\
  opt (Forall (opt settled_Primitive)) (msh_Primitives x).

Definition wf_TextureInfo (x : TextureInfo) : Prop :=
  wf_ext X n (txi_Extensions x) /\
  wf_any n (txi_Extras x) /\
  in_i64 (txi_Index x) /\
  in_i64 (txi_TexCoord x).
Definition norm_TextureInfo (x : TextureInfo) : TextureInfo :=
  mkTextureInfo (norm_ext X (txi_Extensions x))
    (txi_Extras x)
    (txi_Index x)
    (txi_TexCoord x).
Definition canon_TextureInfo (x : TextureInfo) : Prop :=
  canon_ext X (txi_Extensions x).
Definition settled_TextureInfo (x : TextureInfo) : Prop :=
  settled_ext X (txi_Extensions x).

Definition wf_NormalTexture (x : NormalTexture) : Prop :=
  wf_ext X n (ntx_Extensions x) /\
  wf_any n (ntx_Extras x) /\
  opt in_i64 (ntx_Index x) /\
  in_i64 (ntx_TexCoord x) /\
  opt float_ok (ntx_Scale x).
Definition norm_NormalTexture (x : NormalTexture) : NormalTexture :=
  mkNormalTexture (norm_ext X (ntx_Extensions x))
    (ntx_Extras x)
    (ntx_Index x)
    (ntx_TexCoord x)
    (or_some one (ntx_Scale x)).
Definition canon_NormalTexture (x : NormalTexture) : Prop :=
  canon_ext X (ntx_Extensions x).
Definition settled_NormalTexture (x : NormalTexture) : Prop :=
  settled_ext X (ntx_Extensions x).

Definition wf_OcclusionTexture (x : OcclusionTexture) : Prop :=
  wf_ext X n (otx_Extensions x) /\
  wf_any n (otx_Extras x) /\
  opt in_i64 (otx_Index x) /\
  in_i64 (otx_TexCoord x) /\
  opt float_ok (otx_Strength x).
Definition norm_OcclusionTexture (x : OcclusionTexture) : OcclusionTexture :=
  mkOcclusionTexture (norm_ext X (otx_Extensions x))
    (otx_Extras x)
    (otx_Index x)
    (otx_TexCoord x)
    (or_some one (otx_Strength x)).
Definition canon_OcclusionTexture (x : OcclusionTexture) : Prop :=
  canon_ext X (otx_Extensions x).
Definition settled_OcclusionTexture (x : OcclusionTexture) : Prop :=
  settled_ext X (otx_Extensions x).

Definition wf_PBRMetallicRoughness (x : PBRMetallicRoughness) : Prop :=
  wf_ext X n (pbr_Extensions x) /\
  wf_any n (pbr_Extras x) /\
  opt (farray 4) (pbr_BaseColorFactor x) /\
  opt wf_TextureInfo (pbr_BaseColorTexture x) /\
  opt float_ok (pbr_MetallicFactor x) /\
  opt float_ok (pbr_RoughnessFactor x) /\
  opt wf_TextureInfo (pbr_MetallicRoughnessTexture x).
Definition norm_PBRMetallicRoughness (x : PBRMetallicRoughness) : PBRMetallicRoughness :=
  mkPBRMetallicRoughness (norm_ext X (pbr_Extensions x))
    (pbr_Extras x)
    (or_some (repeat one 4) (pbr_BaseColorFactor x))
    (option_map norm_TextureInfo (pbr_BaseColorTexture x))
    (or_some one (pbr_MetallicFactor x))
    (or_some one (pbr_RoughnessFactor x))
    (option_map norm_TextureInfo (pbr_MetallicRoughnessTexture x)).
Definition canon_PBRMetallicRoughness (x : PBRMetallicRoughness) : Prop :=
  canon_ext X (pbr_Extensions x) /\
  opt canon_TextureInfo (pbr_BaseColorTexture x) /\
  opt canon_TextureInfo (pbr_MetallicRoughnessTexture x).
Definition settled_PBRMetallicRoughness (x : PBRMetallicRoughness) : Prop :=
  settled_ext X (pbr_Extensions x) /\
  opt settled_TextureInfo (pbr_BaseColorTexture x) /\
  opt settled_TextureInfo (pbr_MetallicRoughnessTexture x).

Definition wf_Material (x : Material) : Prop :=
  wf_ext X n (mat_Extensions x) /\
  wf_any n (mat_Extras x) /\
  utf8_str (mat_Name x) /\
  opt wf_PBRMetallicRoughness (mat_PBRMetallicRoughness x) /\
  opt wf_NormalTexture (mat_NormalTexture x) /\
  opt wf_OcclusionTexture (mat_OcclusionTexture x) /\
  opt wf_TextureInfo (mat_EmissiveTexture x) /\
  farray 3 (mat_EmissiveFactor x) /\
  range 3 (mat_AlphaMode x) /\
  opt float_ok (mat_AlphaCutoff x).
Definition norm_Material (x : Material) : Material :=
  mkMaterial (norm_ext X (mat_Extensions x))
    (mat_Extras x)
    (mat_Name x)
    (option_map norm_PBRMetallicRoughness (mat_PBRMetallicRoughness x))
    (option_map norm_NormalTexture (mat_NormalTexture x))
    (option_map norm_OcclusionTexture (mat_OcclusionTexture x))
    (option_map norm_TextureInfo (mat_EmissiveTexture x))
    (or_default (repeat 0 3) (repeat 0 3) (mat_EmissiveFactor x))
    (mat_AlphaMode x)
    (or_some half (mat_AlphaCutoff x))
    (mat_DoubleSided x).
Definition canon_Material (x : Material) : Prop :=
  canon_ext X (mat_Extensions x) /\
  opt canon_PBRMetallicRoughness (mat_PBRMetallicRoughness x) /\
  opt canon_NormalTexture (mat_NormalTexture x) /\
  opt canon_OcclusionTexture (mat_OcclusionTexture x) /\
  opt canon_TextureInfo (mat_EmissiveTexture x).
Definition settled_Material (x : Material) : Prop :=
  settled_ext X (mat_Extensions x) /\
  opt settled_PBRMetallicRoughness (mat_PBRMetallicRoughness x) /\
  opt settled_NormalTexture (mat_NormalTexture x) /\
  opt settled_OcclusionTexture (mat_OcclusionTexture x) /\
  opt settled_TextureInfo (mat_EmissiveTexture x).

Definition wf_Texture (x : Texture) : Prop :=
  wf_ext X n (txt_Extensions x) /\
  wf_any n (txt_Extras x) /\
  utf8_str (txt_Name x) /\
  opt in_i64 (txt_Sampler x) /\
  opt in_i64 (txt_Source x).
Definition norm_Texture (x : Texture) : Texture :=
  mkTexture (norm_ext X (txt_Extensions x))
    (txt_Extras x)
    (txt_Name x)
    (txt_Sampler x)
    (txt_Source x).
Definition canon_Texture (x : Texture) : Prop :=
  canon_ext X (txt_Extensions x).
Definition settled_Texture (x : Texture) : Prop :=
  settled_ext X (txt_Extensions x).

Definition wf_Sampler (x : Sampler) : Prop :=
  wf_ext X n (smp_Extensions x) /\
  wf_any n (smp_Extras x) /\
  utf8_str (smp_Name x) /\
  range 3 (smp_MagFilter x) /\
  range 7 (smp_MinFilter x) /\
  range 3 (smp_WrapS x) /\
  range 3 (smp_WrapT x).
Definition norm_Sampler (x : Sampler) : Sampler :=
  mkSampler (norm_ext X (smp_Extensions x))
    (smp_Extras x)
    (smp_Name x)
    (smp_MagFilter x)
    (smp_MinFilter x)
    (smp_WrapS x)
    (smp_WrapT x).
Definition canon_Sampler (x : Sampler) : Prop :=
  canon_ext X (smp_Extensions x).
Definition settled_Sampler (x : Sampler) : Prop :=
  settled_ext X (smp_Extensions x).

Definition wf_Image (x : Image) : Prop :=
  wf_ext X n (img_Extensions x) /\
  wf_any n (img_Extras x) /\
  utf8_str (img_Name x) /\
  utf8_str (img_URI x) /\
  utf8_str (img_MimeType x) /\
  opt in_i64 (img_BufferView x).
Definition norm_Image (x : Image) : Image :=
  mkImage (norm_ext X (img_Extensions x))
    (img_Extras x)
    (img_Name x)
    (img_URI x)
    (img_MimeType x)
    (img_BufferView x).
Definition canon_Image (x : Image) : Prop :=
  canon_ext X (img_Extensions x).
Definition settled_Image (x : Image) : Prop :=
  settled_ext X (img_Extensions x).

Definition wf_AnimationSampler (x : AnimationSampler) : Prop :=
  wf_ext X n (ans_Extensions x) /\
  wf_any n (ans_Extras x) /\
  in_i64 (ans_Input x) /\
  range 3 (ans_Interpolation x) /\
  in_i64 (ans_Output x).
Definition norm_AnimationSampler (x : AnimationSampler) : AnimationSampler :=
  mkAnimationSampler (norm_ext X (ans_Extensions x))
    (ans_Extras x)
    (ans_Input x)
    (ans_Interpolation x)
    (ans_Output x).
Definition canon_AnimationSampler (x : AnimationSampler) : Prop :=
  canon_ext X (ans_Extensions x).
Definition settled_AnimationSampler (x : AnimationSampler) : Prop :=
  settled_ext X (ans_Extensions x).

Definition wf_AnimationChannelTarget (x : AnimationChannelTarget) : Prop :=
  wf_ext X n (act_Extensions x) /\
  wf_any n (act_Extras x) /\
  opt in_i64 (act_Node x) /\
  range 4 (act_Path x).
Definition norm_AnimationChannelTarget (x : AnimationChannelTarget) : AnimationChannelTarget :=
  mkAnimationChannelTarget (norm_ext X (act_Extensions x))
    (act_Extras x)
    (act_Node x)
    (act_Path x).
Definition canon_AnimationChannelTarget (x : AnimationChannelTarget) : Prop :=
  canon_ext X (act_Extensions x).
Definition settled_AnimationChannelTarget (x : AnimationChannelTarget) : Prop :=
  settled_ext X (act_Extensions x).

Definition wf_AnimationChannel (x : AnimationChannel) : Prop :=
  wf_ext X n (anc_Extensions x) /\
  wf_any n (anc_Extras x) /\
  in_i64 (anc_Sampler x) /\
  wf_AnimationChannelTarget (anc_Target x).
Definition norm_AnimationChannel (x : AnimationChannel) : AnimationChannel :=
  mkAnimationChannel (norm_ext X (anc_Extensions x))
    (anc_Extras x)
    (anc_Sampler x)
    (norm_AnimationChannelTarget (anc_Target x)).
Definition canon_AnimationChannel (x : AnimationChannel) : Prop :=
  canon_ext X (anc_Extensions x) /\
  canon_AnimationChannelTarget (anc_Target x).
Definition settled_AnimationChannel (x : AnimationChannel) : Prop :=
  settled_ext X (anc_Extensions x) /\
  settled_AnimationChannelTarget (anc_Target x).

Definition wf_Animation (x : Animation) : Prop :=
  wf_ext X n (ani_Extensions x) /\
  wf_any n (ani_Extras x) /\
  utf8_str (ani_Name x) /\
  opt (Forall (opt wf_AnimationChannel)) (ani_Channels x) /\
  opt (Forall (opt wf_AnimationSampler)) (ani_Samplers x).
Definition norm_Animation (x : Animation) : Animation :=
  mkAnimation (norm_ext X (ani_Extensions x))
    (ani_Extras x)
    (ani_Name x)
    (option_map (map (option_map norm_AnimationChannel)) (ani_Channels x))
    (option_map (map (option_map norm_AnimationSampler)) (ani_Samplers x)).
Definition canon_Animation (x : Animation) : Prop :=
  canon_ext X (ani_Extensions x) /\
  opt (Forall (opt canon_AnimationChannel)) (ani_Channels x) /\
  opt (Forall (opt canon_AnimationSampler)) (ani_Samplers x).
Definition settled_Animation (x : Animation) : Prop :=
  settled_ext X (ani_Extensions x) /\
  opt (Forall (opt settled_AnimationChannel)) (ani_Channels x) /\
  opt (Forall (opt settled_AnimationSampler)) (ani_Samplers x).

Definition wf_Document (x : Document) : Prop :=
  wf_ext X n (doc_Extensions x) /\
  wf_any n (doc_Extras x) /\
  Forall utf8_str (doc_ExtensionsUsed x) /\
  Forall utf8_str (doc_ExtensionsRequired x) /\
  Forall (opt wf_Accessor) (doc_Accessors x) /\
  Forall (opt wf_Animation) (doc_Animations x) /\
  wf_Asset (doc_Asset x) /\
  Forall (opt wf_Buffer) (doc_Buffers x) /\
  Forall (opt wf_BufferView) (doc_BufferViews x) /\
  Forall (opt wf_Camera) (doc_Cameras x) /\
  Forall (opt wf_Image) (doc_Images x) /\
  Forall (opt wf_Material) (doc_Materials x) /\
  Forall (opt wf_Mesh) (doc_Meshes x) /\
  Forall (opt wf_Node) (doc_Nodes x) /\
  Forall (opt wf_Sampler) (doc_Samplers x) /\
  opt in_i64 (doc_Scene x) /\
  Forall (opt wf_Scene) (doc_Scenes x) /\
  Forall (opt wf_Skin) (doc_Skins x) /\
  Forall (opt wf_Texture) (doc_Textures x).
Definition norm_Document (x : Document) : Document :=
  mkDocument (norm_ext X (doc_Extensions x))
    (doc_Extras x)
    (doc_ExtensionsUsed x)
    (doc_ExtensionsRequired x)
    (map (option_map norm_Accessor) (doc_Accessors x))
    (map (option_map norm_Animation) (doc_Animations x))
    (norm_Asset (doc_Asset x))
    (map (option_map norm_Buffer) (doc_Buffers x))
    (map (option_map norm_BufferView) (doc_BufferViews x))
    (map (option_map norm_Camera) (doc_Cameras x))
    (map (option_map norm_Image) (doc_Images x))
    (map (option_map norm_Material) (doc_Materials x))
    (map (option_map norm_Mesh) (doc_Meshes x))
    (map (option_map norm_Node) (doc_Nodes x))
    (map (option_map norm_Sampler) (doc_Samplers x))
    (doc_Scene x)
    (map (option_map norm_Scene) (doc_Scenes x))
    (map (option_map norm_Skin) (doc_Skins x))
    (map (option_map norm_Texture) (doc_Textures x)).
Definition canon_Document (x : Document) : Prop :=
  canon_ext X (doc_Extensions x) /\
  Forall (opt canon_Accessor) (doc_Accessors x) /\
  Forall (opt canon_Animation) (doc_Animations x) /\
  canon_Asset (doc_Asset x) /\
  Forall (opt canon_Buffer) (doc_Buffers x) /\
  Forall (opt canon_BufferView) (doc_BufferViews x) /\
  Forall (opt canon_Camera) (doc_Cameras x) /\
  Forall (opt canon_Image) (doc_Images x) /\
  Forall (opt canon_Material) (doc_Materials x) /\
  Forall (opt canon_Mesh) (doc_Meshes x) /\
  Forall (opt canon_Node) (doc_Nodes x) /\
  Forall (opt canon_Sampler) (doc_Samplers x) /\
  Forall (opt canon_Scene) (doc_Scenes x) /\
  Forall (opt canon_Skin) (doc_Skins x) /\
  Forall (opt canon_Texture) (doc_Textures x).
Definition settled_Document (x : Document) : Prop :=
  settled_ext X (doc_Extensions x) /\
  Forall (opt settled_Accessor) (doc_Accessors x) /\
  Forall (opt settled_Animation) (doc_Animations x) /\
  settled_Asset (doc_Asset x) /\
  Forall (opt settled_Buffer) (doc_Buffers x) /\
  Forall (opt settled_BufferView) (doc_BufferViews x) /\
  Forall (opt settled_Camera) (doc_Cameras x) /\
  Forall (opt settled_Image) (doc_Images x) /\
  Forall (opt settled_Material) (doc_Materials x) /\
  Forall (opt settled_Mesh) (doc_Meshes x) /\
  Forall (opt settled_Node) (doc_Nodes x) /\
  Forall (opt settled_Sampler) (doc_Samplers x) /\
  Forall (opt settled_Scene) (doc_Scenes x) /\
  Forall (opt settled_Skin) (doc_Skins x) /\
  Forall (opt settled_Texture) (doc_Textures x).
(** As decoded: cameras may have no projection. *)
Definition decoded_Document (x : Document) : Prop :=
  wf_ext X n (doc_Extensions x) /\
  wf_any n (doc_Extras x) /\
  Forall utf8_str (doc_ExtensionsUsed x) /\
  Forall utf8_str (doc_ExtensionsRequired x) /\
  Forall (opt wf_Accessor) (doc_Accessors x) /\
  Forall (opt wf_Animation) (doc_Animations x) /\
  wf_Asset (doc_Asset x) /\
  Forall (opt wf_Buffer) (doc_Buffers x) /\
  Forall (opt wf_BufferView) (doc_BufferViews x) /\
  Forall (opt decoded_Camera) (doc_Cameras x) /\
  Forall (opt wf_Image) (doc_Images x) /\
  Forall (opt wf_Material) (doc_Materials x) /\
  Forall (opt wf_Mesh) (doc_Meshes x) /\
  Forall (opt wf_Node) (doc_Nodes x) /\
  Forall (opt wf_Sampler) (doc_Samplers x) /\
  opt in_i64 (doc_Scene x) /\
  Forall (opt wf_Scene) (doc_Scenes x) /\
  Forall (opt wf_Skin) (doc_Skins x) /\
  Forall (opt wf_Texture) (doc_Textures x).
End Spec.
