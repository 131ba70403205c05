(** What is known of a document that was read from JSON.  GENERATED by
    tools/gen_loaded.py from the struct declarations of gltf.go; do not edit.

    [loaded_T Q x]: the numbers of [x] are numbers of their Go types, none of
    them NaN or infinite, its strings are valid UTF-8, its enumerations have
    declared values, the keys of its maps are sorted, and its extensions are as
    [Q] says. *)
From Verif Require Import Base Types Doc F64 SpecText Codec SpecJson SpecGo SpecLoaded.

Section Spec.
Context (Q : string -> extv -> Prop).

(** gltf.go:22-29 *)
Definition loaded_Asset (x : Asset) : Prop :=
  loaded_ext Q (ast_Extensions x) /\
  loaded_any (ast_Extras x) /\
  utf8_str (ast_Copyright x) /\
  utf8_str (ast_Generator x) /\
  utf8_str (ast_Version x) /\
  utf8_str (ast_MinVersion x).

(** gltf.go:93-99 *)
Definition loaded_SparseValues (x : SparseValues) : Prop :=
  loaded_ext Q (spv_Extensions x) /\
  loaded_any (spv_Extras x) /\
  in_i64 (spv_BufferView x) /\
  in_i64 (spv_ByteOffset x).

(** gltf.go:101-108 *)
Definition loaded_SparseIndices (x : SparseIndices) : Prop :=
  loaded_ext Q (spi_Extensions x) /\
  loaded_any (spi_Extras x) /\
  in_i64 (spi_BufferView x) /\
  in_i64 (spi_ByteOffset x) /\
  (fun v => ct_valid v = true) (spi_ComponentType x).

(** gltf.go:84-91 *)
Definition loaded_Sparse (x : Sparse) : Prop :=
  loaded_ext Q (spa_Extensions x) /\
  loaded_any (spa_Extras x) /\
  in_i64 (spa_Count x) /\
  loaded_SparseIndices (spa_Indices x) /\
  loaded_SparseValues (spa_Values x).

(** gltf.go:65-82 *)
Definition loaded_Accessor (x : Accessor) : Prop :=
  loaded_ext Q (acr_Extensions x) /\
  loaded_any (acr_Extras x) /\
  utf8_str (acr_Name x) /\
  opt in_i64 (acr_BufferView x) /\
  in_i64 (acr_ByteOffset x) /\
  (fun v => ct_valid v = true) (acr_ComponentType x) /\
  in_i64 (acr_Count x) /\
  (fun v => at_valid v = true) (acr_Type x) /\
  Forall float_ok (acr_Max x) /\
  Forall float_ok (acr_Min x) /\
  opt loaded_Sparse (acr_Sparse x).

(** gltf.go:110-120 *)
Definition loaded_Buffer (x : Buffer) : Prop :=
  loaded_ext Q (buf_Extensions x) /\
  loaded_any (buf_Extras x) /\
  utf8_str (buf_Name x) /\
  utf8_str (buf_URI x) /\
  in_i64 (buf_ByteLength x).

(** gltf.go:147-157 *)
Definition loaded_BufferView (x : BufferView) : Prop :=
  loaded_ext Q (bvw_Extensions x) /\
  loaded_any (bvw_Extras x) /\
  in_i64 (bvw_Buffer x) /\
  in_i64 (bvw_ByteOffset x) /\
  in_i64 (bvw_ByteLength x) /\
  in_i64 (bvw_ByteStride x) /\
  range 65536 (bvw_Target x) /\
  utf8_str (bvw_Name x).

(** gltf.go:159-165 *)
Definition loaded_Scene (x : Scene) : Prop :=
  loaded_ext Q (scn_Extensions x) /\
  loaded_any (scn_Extras x) /\
  utf8_str (scn_Name x) /\
  Forall in_i64 (scn_Nodes x).

(** gltf.go:167-182 *)
Definition loaded_Node (x : Node) : Prop :=
  loaded_ext Q (nod_Extensions x) /\
  loaded_any (nod_Extras x) /\
  utf8_str (nod_Name x) /\
  opt in_i64 (nod_Camera x) /\
  Forall in_i64 (nod_Children x) /\
  opt in_i64 (nod_Skin x) /\
  farray 16 (nod_Matrix x) /\
  opt in_i64 (nod_Mesh x) /\
  farray 4 (nod_Rotation x) /\
  farray 3 (nod_Scale x) /\
  farray 3 (nod_Translation x) /\
  Forall float_ok (nod_Weights x).

(** gltf.go:213-221 *)
Definition loaded_Skin (x : Skin) : Prop :=
  loaded_ext Q (skn_Extensions x) /\
  loaded_any (skn_Extras x) /\
  utf8_str (skn_Name x) /\
  opt in_i64 (skn_InverseBindMatrices x) /\
  opt in_i64 (skn_Skeleton x) /\
  opt (Forall in_i64) (skn_Joints x).

(** gltf.go:232-240 *)
Definition loaded_Orthographic (x : Orthographic) : Prop :=
  loaded_ext Q (ort_Extensions x) /\
  loaded_any (ort_Extras x) /\
  float_ok (ort_Xmag x) /\
  float_ok (ort_Ymag x) /\
  float_ok (ort_Zfar x) /\
  float_ok (ort_Znear x).

(** gltf.go:242-250 *)
Definition loaded_Perspective (x : Perspective) : Prop :=
  loaded_ext Q (per_Extensions x) /\
  loaded_any (per_Extras x) /\
  opt float_ok (per_AspectRatio x) /\
  float_ok (per_Yfov x) /\
  opt float_ok (per_Zfar x) /\
  float_ok (per_Znear x).

(** gltf.go:223-230 *)
Definition loaded_Camera (x : Camera) : Prop :=
  loaded_ext Q (cam_Extensions x) /\
  loaded_any (cam_Extras x) /\
  utf8_str (cam_Name x) /\
  opt loaded_Orthographic (cam_Orthographic x) /\
  opt loaded_Perspective (cam_Perspective x).

(** gltf.go:261-270 *)
Definition loaded_Primitive (x : Primitive) : Prop :=
  loaded_ext Q (pri_Extensions x) /\
  loaded_any (pri_Extras x) /\
  opt wf_attrs (pri_Attributes x) /\
  opt in_i64 (pri_Indices x) /\
  opt in_i64 (pri_Material x) /\
  range 7 (pri_Mode x) /\
  Forall (opt wf_attrs) (pri_Targets x).

(** gltf.go:252-259 *)
Definition loaded_Mesh (x : Mesh) : Prop :=
  loaded_ext Q (msh_Extensions x) /\
  loaded_any (msh_Extras x) /\
  utf8_str (msh_Name x) /\
  opt (Forall (opt loaded_Primitive)) (msh_Primitives x) /\
  Forall float_ok (msh_Weights x).

(** gltf.go:363-369 *)
Definition loaded_TextureInfo (x : TextureInfo) : Prop :=
  loaded_ext Q (txi_Extensions x) /\
  loaded_any (txi_Extras x) /\
  in_i64 (txi_Index x) /\
  in_i64 (txi_TexCoord x).

(** gltf.go:295-302 *)
Definition loaded_NormalTexture (x : NormalTexture) : Prop :=
  loaded_ext Q (ntx_Extensions x) /\
  loaded_any (ntx_Extras x) /\
  opt in_i64 (ntx_Index x) /\
  in_i64 (ntx_TexCoord x) /\
  opt float_ok (ntx_Scale x).

(** gltf.go:312-319 *)
Definition loaded_OcclusionTexture (x : OcclusionTexture) : Prop :=
  loaded_ext Q (otx_Extensions x) /\
  loaded_any (otx_Extras x) /\
  opt in_i64 (otx_Index x) /\
  in_i64 (otx_TexCoord x) /\
  opt float_ok (otx_Strength x).

(** gltf.go:329-338 *)
Definition loaded_PBRMetallicRoughness (x : PBRMetallicRoughness) : Prop :=
  loaded_ext Q (pbr_Extensions x) /\
  loaded_any (pbr_Extras x) /\
  opt (farray 4) (pbr_BaseColorFactor x) /\
  opt loaded_TextureInfo (pbr_BaseColorTexture x) /\
  opt float_ok (pbr_MetallicFactor x) /\
  opt float_ok (pbr_RoughnessFactor x) /\
  opt loaded_TextureInfo (pbr_MetallicRoughnessTexture x).

(** gltf.go:272-285 *)
Definition loaded_Material (x : Material) : Prop :=
  loaded_ext Q (mat_Extensions x) /\
  loaded_any (mat_Extras x) /\
  utf8_str (mat_Name x) /\
  opt loaded_PBRMetallicRoughness (mat_PBRMetallicRoughness x) /\
  opt loaded_NormalTexture (mat_NormalTexture x) /\
  opt loaded_OcclusionTexture (mat_OcclusionTexture x) /\
  opt loaded_TextureInfo (mat_EmissiveTexture x) /\
  farray 3 (mat_EmissiveFactor x) /\
  range 3 (mat_AlphaMode x) /\
  opt float_ok (mat_AlphaCutoff x).

(** gltf.go:371-378 *)
Definition loaded_Texture (x : Texture) : Prop :=
  loaded_ext Q (txt_Extensions x) /\
  loaded_any (txt_Extras x) /\
  utf8_str (txt_Name x) /\
  opt in_i64 (txt_Sampler x) /\
  opt in_i64 (txt_Source x).

(** gltf.go:380-389 *)
Definition loaded_Sampler (x : Sampler) : Prop :=
  loaded_ext Q (smp_Extensions x) /\
  loaded_any (smp_Extras x) /\
  utf8_str (smp_Name x) /\
  range 3 (smp_MagFilter x) /\
  range 7 (smp_MinFilter x) /\
  range 3 (smp_WrapS x) /\
  range 3 (smp_WrapT x).

(** gltf.go:391-400 *)
Definition loaded_Image (x : Image) : Prop :=
  loaded_ext Q (img_Extensions x) /\
  loaded_any (img_Extras x) /\
  utf8_str (img_Name x) /\
  utf8_str (img_URI x) /\
  utf8_str (img_MimeType x) /\
  opt in_i64 (img_BufferView x).

(** gltf.go:433-440 *)
Definition loaded_AnimationSampler (x : AnimationSampler) : Prop :=
  loaded_ext Q (ans_Extensions x) /\
  loaded_any (ans_Extras x) /\
  in_i64 (ans_Input x) /\
  range 3 (ans_Interpolation x) /\
  in_i64 (ans_Output x).

(** gltf.go:450-460 *)
Definition loaded_AnimationChannelTarget (x : AnimationChannelTarget) : Prop :=
  loaded_ext Q (act_Extensions x) /\
  loaded_any (act_Extras x) /\
  opt in_i64 (act_Node x) /\
  range 4 (act_Path x).

(** gltf.go:442-448 *)
Definition loaded_AnimationChannel (x : AnimationChannel) : Prop :=
  loaded_ext Q (anc_Extensions x) /\
  loaded_any (anc_Extras x) /\
  in_i64 (anc_Sampler x) /\
  loaded_AnimationChannelTarget (anc_Target x).

(** gltf.go:424-431 *)
Definition loaded_Animation (x : Animation) : Prop :=
  loaded_ext Q (ani_Extensions x) /\
  loaded_any (ani_Extras x) /\
  utf8_str (ani_Name x) /\
  opt (Forall (opt loaded_AnimationChannel)) (ani_Channels x) /\
  opt (Forall (opt loaded_AnimationSampler)) (ani_Samplers x).

(** gltf.go:31-52 *)
Definition loaded_Document (x : Document) : Prop :=
  loaded_ext Q (doc_Extensions x) /\
  loaded_any (doc_Extras x) /\
  Forall utf8_str (doc_ExtensionsUsed x) /\
  Forall utf8_str (doc_ExtensionsRequired x) /\
  Forall (opt loaded_Accessor) (doc_Accessors x) /\
  Forall (opt loaded_Animation) (doc_Animations x) /\
  loaded_Asset (doc_Asset x) /\
  Forall (opt loaded_Buffer) (doc_Buffers x) /\
  Forall (opt loaded_BufferView) (doc_BufferViews x) /\
  Forall (opt loaded_Camera) (doc_Cameras x) /\
  Forall (opt loaded_Image) (doc_Images x) /\
  Forall (opt loaded_Material) (doc_Materials x) /\
  Forall (opt loaded_Mesh) (doc_Meshes x) /\
  Forall (opt loaded_Node) (doc_Nodes x) /\
  Forall (opt loaded_Sampler) (doc_Samplers x) /\
  opt in_i64 (doc_Scene x) /\
  Forall (opt loaded_Scene) (doc_Scenes x) /\
  Forall (opt loaded_Skin) (doc_Skins x) /\
  Forall (opt loaded_Texture) (doc_Textures x).
End Spec.

(** All extensions of a value and of what it is made of. *)
Definition exts_Asset (x : Asset) : Extensions :=
  ast_Extensions x.
Definition exts_SparseValues (x : SparseValues) : Extensions :=
  spv_Extensions x.
Definition exts_SparseIndices (x : SparseIndices) : Extensions :=
  spi_Extensions x.
Definition exts_Sparse (x : Sparse) : Extensions :=
  spa_Extensions x ++ exts_SparseIndices (spa_Indices x) ++ exts_SparseValues (spa_Values x).
Definition exts_Accessor (x : Accessor) : Extensions :=
  acr_Extensions x ++ of_opt exts_Sparse (acr_Sparse x).
Definition exts_Buffer (x : Buffer) : Extensions :=
  buf_Extensions x.
Definition exts_BufferView (x : BufferView) : Extensions :=
  bvw_Extensions x.
Definition exts_Scene (x : Scene) : Extensions :=
  scn_Extensions x.
Definition exts_Node (x : Node) : Extensions :=
  nod_Extensions x.
Definition exts_Skin (x : Skin) : Extensions :=
  skn_Extensions x.
Definition exts_Orthographic (x : Orthographic) : Extensions :=
  ort_Extensions x.
Definition exts_Perspective (x : Perspective) : Extensions :=
  per_Extensions x.
Definition exts_Camera (x : Camera) : Extensions :=
  cam_Extensions x ++ of_opt exts_Orthographic (cam_Orthographic x) ++ of_opt exts_Perspective (cam_Perspective x).
Definition exts_Primitive (x : Primitive) : Extensions :=
  pri_Extensions x.
Definition exts_Mesh (x : Mesh) : Extensions :=
  msh_Extensions x ++ of_opt (flat_map (of_opt exts_Primitive)) (msh_Primitives x).
Definition exts_TextureInfo (x : TextureInfo) : Extensions :=
  txi_Extensions x.
Definition exts_NormalTexture (x : NormalTexture) : Extensions :=
  ntx_Extensions x.
Definition exts_OcclusionTexture (x : OcclusionTexture) : Extensions :=
  otx_Extensions x.
Definition exts_PBRMetallicRoughness (x : PBRMetallicRoughness) : Extensions :=
  pbr_Extensions x ++ of_opt exts_TextureInfo (pbr_BaseColorTexture x) ++ of_opt exts_TextureInfo (pbr_MetallicRoughnessTexture x).
Definition exts_Material (x : Material) : Extensions :=
  mat_Extensions x ++ of_opt exts_PBRMetallicRoughness (mat_PBRMetallicRoughness x) ++ of_opt exts_NormalTexture (mat_NormalTexture x) ++ of_opt exts_OcclusionTexture (mat_OcclusionTexture x) ++ of_opt exts_TextureInfo (mat_EmissiveTexture x).
Definition exts_Texture (x : Texture) : Extensions :=
  txt_Extensions x.
Definition exts_Sampler (x : Sampler) : Extensions :=
  smp_Extensions x.
Definition exts_Image (x : Image) : Extensions :=
  img_Extensions x.
Definition exts_AnimationSampler (x : AnimationSampler) : Extensions :=
  ans_Extensions x.
Definition exts_AnimationChannelTarget (x : AnimationChannelTarget) : Extensions :=
  act_Extensions x.
Definition exts_AnimationChannel (x : AnimationChannel) : Extensions :=
  anc_Extensions x ++ exts_AnimationChannelTarget (anc_Target x).
Definition exts_Animation (x : Animation) : Extensions :=
  ani_Extensions x ++ of_opt (flat_map (of_opt exts_AnimationChannel)) (ani_Channels x) ++ of_opt (flat_map (of_opt exts_AnimationSampler)) (ani_Samplers x).
Definition exts_Document (x : Document) : Extensions :=
  doc_Extensions x ++ flat_map (of_opt exts_Accessor) (doc_Accessors x) ++ flat_map (of_opt exts_Animation) (doc_Animations x) ++ exts_Asset (doc_Asset x) ++ flat_map (of_opt exts_Buffer) (doc_Buffers x) ++ flat_map (of_opt exts_BufferView) (doc_BufferViews x) ++ flat_map (of_opt exts_Camera) (doc_Cameras x) ++ flat_map (of_opt exts_Image) (doc_Images x) ++ flat_map (of_opt exts_Material) (doc_Materials x) ++ flat_map (of_opt exts_Mesh) (doc_Meshes x) ++ flat_map (of_opt exts_Node) (doc_Nodes x) ++ flat_map (of_opt exts_Sampler) (doc_Samplers x) ++ flat_map (of_opt exts_Scene) (doc_Scenes x) ++ flat_map (of_opt exts_Skin) (doc_Skins x) ++ flat_map (of_opt exts_Texture) (doc_Textures x).
