(** The documents of a Go program, and which of them JSON can carry.
    GENERATED by tools/gen_go.py from the struct declarations of gltf.go; do
    not edit.

    [go_T x]: the numbers of [x] are numbers of their Go types.
    [savable_T x]: no float of [x] is NaN or infinite, each camera has a
    projection and the encoder of each registered extension succeeds. *)
From Verif Require Import Base Types Doc F64 SpecText Codec SpecJson SpecGo.

Section Spec.
Context (X : ext_lib).

(** gltf.go:22-29 *)
Definition go_Asset (x : Asset) : Prop :=
  go_ext X (ast_Extensions x) /\
  go_any (ast_Extras x).
Definition savable_Asset (x : Asset) : Prop :=
  savable_ext X (ast_Extensions x) /\
  savable_any (ast_Extras x).

(** gltf.go:93-99 *)
Definition go_SparseValues (x : SparseValues) : Prop :=
  go_ext X (spv_Extensions x) /\
  go_any (spv_Extras x) /\
  in_i64 (spv_BufferView x) /\
  in_i64 (spv_ByteOffset x).
Definition savable_SparseValues (x : SparseValues) : Prop :=
  savable_ext X (spv_Extensions x) /\
  savable_any (spv_Extras x).

(** gltf.go:101-108 *)
Definition go_SparseIndices (x : SparseIndices) : Prop :=
  go_ext X (spi_Extensions x) /\
  go_any (spi_Extras x) /\
  in_i64 (spi_BufferView x) /\
  in_i64 (spi_ByteOffset x).
Definition savable_SparseIndices (x : SparseIndices) : Prop :=
  savable_ext X (spi_Extensions x) /\
  savable_any (spi_Extras x).

(** gltf.go:84-91 *)
Definition go_Sparse (x : Sparse) : Prop :=
  go_ext X (spa_Extensions x) /\
  go_any (spa_Extras x) /\
  in_i64 (spa_Count x) /\
  go_SparseIndices (spa_Indices x) /\
  go_SparseValues (spa_Values x).
Definition savable_Sparse (x : Sparse) : Prop :=
  savable_ext X (spa_Extensions x) /\
  savable_any (spa_Extras x) /\
  savable_SparseIndices (spa_Indices x) /\
  savable_SparseValues (spa_Values x).

(** gltf.go:65-82 *)
Definition go_Accessor (x : Accessor) : Prop :=
  go_ext X (acr_Extensions x) /\
  go_any (acr_Extras x) /\
  opt in_i64 (acr_BufferView x) /\
  in_i64 (acr_ByteOffset x) /\
  in_i64 (acr_Count x) /\
  Forall go_float (acr_Max x) /\
  Forall go_float (acr_Min x) /\
  opt go_Sparse (acr_Sparse x).
Definition savable_Accessor (x : Accessor) : Prop :=
  savable_ext X (acr_Extensions x) /\
  savable_any (acr_Extras x) /\
  Forall finite (acr_Max x) /\
  Forall finite (acr_Min x) /\
  opt savable_Sparse (acr_Sparse x).

(** gltf.go:110-120 *)
Definition go_Buffer (x : Buffer) : Prop :=
  go_ext X (buf_Extensions x) /\
  go_any (buf_Extras x) /\
  in_i64 (buf_ByteLength x).
Definition savable_Buffer (x : Buffer) : Prop :=
  savable_ext X (buf_Extensions x) /\
  savable_any (buf_Extras x).

(** gltf.go:147-157 *)
Definition go_BufferView (x : BufferView) : Prop :=
  go_ext X (bvw_Extensions x) /\
  go_any (bvw_Extras x) /\
  in_i64 (bvw_Buffer x) /\
  in_i64 (bvw_ByteOffset x) /\
  in_i64 (bvw_ByteLength x) /\
  in_i64 (bvw_ByteStride x) /\
  range 65536 (bvw_Target x).
Definition savable_BufferView (x : BufferView) : Prop :=
  savable_ext X (bvw_Extensions x) /\
  savable_any (bvw_Extras x).

(** gltf.go:159-165 *)
Definition go_Scene (x : Scene) : Prop :=
  go_ext X (scn_Extensions x) /\
  go_any (scn_Extras x) /\
  Forall in_i64 (scn_Nodes x).
Definition savable_Scene (x : Scene) : Prop :=
  savable_ext X (scn_Extensions x) /\
  savable_any (scn_Extras x).

(** gltf.go:167-182 *)
Definition go_Node (x : Node) : Prop :=
  go_ext X (nod_Extensions x) /\
  go_any (nod_Extras x) /\
  opt in_i64 (nod_Camera x) /\
  Forall in_i64 (nod_Children x) /\
  opt in_i64 (nod_Skin x) /\
  go_array 16 (nod_Matrix x) /\
  opt in_i64 (nod_Mesh x) /\
  go_array 4 (nod_Rotation x) /\
  go_array 3 (nod_Scale x) /\
  go_array 3 (nod_Translation x) /\
  Forall go_float (nod_Weights x).
Definition savable_Node (x : Node) : Prop :=
  savable_ext X (nod_Extensions x) /\
  savable_any (nod_Extras x) /\
  Forall finite (nod_Matrix x) /\
  Forall finite (nod_Rotation x) /\
  Forall finite (nod_Scale x) /\
  Forall finite (nod_Translation x) /\
  Forall finite (nod_Weights x).

(** gltf.go:213-221 *)
Definition go_Skin (x : Skin) : Prop :=
  go_ext X (skn_Extensions x) /\
  go_any (skn_Extras x) /\
  opt in_i64 (skn_InverseBindMatrices x) /\
  opt in_i64 (skn_Skeleton x) /\
  opt (Forall in_i64) (skn_Joints x).
Definition savable_Skin (x : Skin) : Prop :=
  savable_ext X (skn_Extensions x) /\
  savable_any (skn_Extras x).

(** gltf.go:232-240 *)
Definition go_Orthographic (x : Orthographic) : Prop :=
  go_ext X (ort_Extensions x) /\
  go_any (ort_Extras x) /\
  go_float (ort_Xmag x) /\
  go_float (ort_Ymag x) /\
  go_float (ort_Zfar x) /\
  go_float (ort_Znear x).
Definition savable_Orthographic (x : Orthographic) : Prop :=
  savable_ext X (ort_Extensions x) /\
  savable_any (ort_Extras x) /\
  finite (ort_Xmag x) /\
  finite (ort_Ymag x) /\
  finite (ort_Zfar x) /\
  finite (ort_Znear x).

(** gltf.go:242-250 *)
Definition go_Perspective (x : Perspective) : Prop :=
  go_ext X (per_Extensions x) /\
  go_any (per_Extras x) /\
  opt go_float (per_AspectRatio x) /\
  go_float (per_Yfov x) /\
  opt go_float (per_Zfar x) /\
  go_float (per_Znear x).
Definition savable_Perspective (x : Perspective) : Prop :=
  savable_ext X (per_Extensions x) /\
  savable_any (per_Extras x) /\
  opt finite (per_AspectRatio x) /\
  finite (per_Yfov x) /\
  opt finite (per_Zfar x) /\
  finite (per_Znear x).

(** gltf.go:223-230 *)
Definition go_Camera (x : Camera) : Prop :=
  go_ext X (cam_Extensions x) /\
  go_any (cam_Extras x) /\
  opt go_Orthographic (cam_Orthographic x) /\
  opt go_Perspective (cam_Perspective x).
Definition savable_Camera (x : Camera) : Prop :=
  savable_ext X (cam_Extensions x) /\
  savable_any (cam_Extras x) /\
  opt savable_Orthographic (cam_Orthographic x) /\
  opt savable_Perspective (cam_Perspective x) /\
  (cam_Orthographic x <> None \/ cam_Perspective x <> None).

(** gltf.go:261-270 *)
Definition go_Primitive (x : Primitive) : Prop :=
  go_ext X (pri_Extensions x) /\
  go_any (pri_Extras x) /\
  opt go_attrs (pri_Attributes x) /\
  opt in_i64 (pri_Indices x) /\
  opt in_i64 (pri_Material x) /\
  Forall (opt go_attrs) (pri_Targets x).
Definition savable_Primitive (x : Primitive) : Prop :=
  savable_ext X (pri_Extensions x) /\
  savable_any (pri_Extras x).

(** gltf.go:252-259 *)
Definition go_Mesh (x : Mesh) : Prop :=
  go_ext X (msh_Extensions x) /\
  go_any (msh_Extras x) /\
  opt (Forall (opt go_Primitive)) (msh_Primitives x) /\
  Forall go_float (msh_Weights x).
Definition savable_Mesh (x : Mesh) : Prop :=
  savable_ext X (msh_Extensions x) /\
  savable_any (msh_Extras x) /\
  opt (Forall (opt savable_Primitive)) (msh_Primitives x) /\
  Forall finite (msh_Weights x).

(** gltf.go:363-369 *)
Definition go_TextureInfo (x : TextureInfo) : Prop :=
  go_ext X (txi_Extensions x) /\
  go_any (txi_Extras x) /\
  in_i64 (txi_Index x) /\
  in_i64 (txi_TexCoord x).
Definition savable_TextureInfo (x : TextureInfo) : Prop :=
  savable_ext X (txi_Extensions x) /\
  savable_any (txi_Extras x).

(** gltf.go:295-302 *)
Definition go_NormalTexture (x : NormalTexture) : Prop :=
  go_ext X (ntx_Extensions x) /\
  go_any (ntx_Extras x) /\
  opt in_i64 (ntx_Index x) /\
  in_i64 (ntx_TexCoord x) /\
  opt go_float (ntx_Scale x).
Definition savable_NormalTexture (x : NormalTexture) : Prop :=
  savable_ext X (ntx_Extensions x) /\
  savable_any (ntx_Extras x) /\
  opt finite (ntx_Scale x).

(** gltf.go:312-319 *)
Definition go_OcclusionTexture (x : OcclusionTexture) : Prop :=
  go_ext X (otx_Extensions x) /\
  go_any (otx_Extras x) /\
  opt in_i64 (otx_Index x) /\
  in_i64 (otx_TexCoord x) /\
  opt go_float (otx_Strength x).
Definition savable_OcclusionTexture (x : OcclusionTexture) : Prop :=
  savable_ext X (otx_Extensions x) /\
  savable_any (otx_Extras x) /\
  opt finite (otx_Strength x).

(** gltf.go:329-338 *)
Definition go_PBRMetallicRoughness (x : PBRMetallicRoughness) : Prop :=
  go_ext X (pbr_Extensions x) /\
  go_any (pbr_Extras x) /\
  opt (go_array 4) (pbr_BaseColorFactor x) /\
  opt go_TextureInfo (pbr_BaseColorTexture x) /\
  opt go_float (pbr_MetallicFactor x) /\
  opt go_float (pbr_RoughnessFactor x) /\
  opt go_TextureInfo (pbr_MetallicRoughnessTexture x).
Definition savable_PBRMetallicRoughness (x : PBRMetallicRoughness) : Prop :=
  savable_ext X (pbr_Extensions x) /\
  savable_any (pbr_Extras x) /\
  opt (Forall finite) (pbr_BaseColorFactor x) /\
  opt savable_TextureInfo (pbr_BaseColorTexture x) /\
  opt finite (pbr_MetallicFactor x) /\
  opt finite (pbr_RoughnessFactor x) /\
  opt savable_TextureInfo (pbr_MetallicRoughnessTexture x).

(** gltf.go:272-285 *)
Definition go_Material (x : Material) : Prop :=
  go_ext X (mat_Extensions x) /\
  go_any (mat_Extras x) /\
  opt go_PBRMetallicRoughness (mat_PBRMetallicRoughness x) /\
  opt go_NormalTexture (mat_NormalTexture x) /\
  opt go_OcclusionTexture (mat_OcclusionTexture x) /\
  opt go_TextureInfo (mat_EmissiveTexture x) /\
  go_array 3 (mat_EmissiveFactor x) /\
  opt go_float (mat_AlphaCutoff x).
Definition savable_Material (x : Material) : Prop :=
  savable_ext X (mat_Extensions x) /\
  savable_any (mat_Extras x) /\
  opt savable_PBRMetallicRoughness (mat_PBRMetallicRoughness x) /\
  opt savable_NormalTexture (mat_NormalTexture x) /\
  opt savable_OcclusionTexture (mat_OcclusionTexture x) /\
  opt savable_TextureInfo (mat_EmissiveTexture x) /\
  Forall finite (mat_EmissiveFactor x) /\
  opt finite (mat_AlphaCutoff x).

(** gltf.go:371-378 *)
Definition go_Texture (x : Texture) : Prop :=
  go_ext X (txt_Extensions x) /\
  go_any (txt_Extras x) /\
  opt in_i64 (txt_Sampler x) /\
  opt in_i64 (txt_Source x).
Definition savable_Texture (x : Texture) : Prop :=
  savable_ext X (txt_Extensions x) /\
  savable_any (txt_Extras x).

(** gltf.go:380-389 *)
Definition go_Sampler (x : Sampler) : Prop :=
  go_ext X (smp_Extensions x) /\
  go_any (smp_Extras x).
Definition savable_Sampler (x : Sampler) : Prop :=
  savable_ext X (smp_Extensions x) /\
  savable_any (smp_Extras x).

(** gltf.go:391-400 *)
Definition go_Image (x : Image) : Prop :=
  go_ext X (img_Extensions x) /\
  go_any (img_Extras x) /\
  opt in_i64 (img_BufferView x).
Definition savable_Image (x : Image) : Prop :=
  savable_ext X (img_Extensions x) /\
  savable_any (img_Extras x).

(** gltf.go:433-440 *)
Definition go_AnimationSampler (x : AnimationSampler) : Prop :=
  go_ext X (ans_Extensions x) /\
  go_any (ans_Extras x) /\
  in_i64 (ans_Input x) /\
  in_i64 (ans_Output x).
Definition savable_AnimationSampler (x : AnimationSampler) : Prop :=
  savable_ext X (ans_Extensions x) /\
  savable_any (ans_Extras x).

(** gltf.go:450-460 *)
Definition go_AnimationChannelTarget (x : AnimationChannelTarget) : Prop :=
  go_ext X (act_Extensions x) /\
  go_any (act_Extras x) /\
  opt in_i64 (act_Node x).
Definition savable_AnimationChannelTarget (x : AnimationChannelTarget) : Prop :=
  savable_ext X (act_Extensions x) /\
  savable_any (act_Extras x).

(** gltf.go:442-448 *)
Definition go_AnimationChannel (x : AnimationChannel) : Prop :=
  go_ext X (anc_Extensions x) /\
  go_any (anc_Extras x) /\
  in_i64 (anc_Sampler x) /\
  go_AnimationChannelTarget (anc_Target x).
Definition savable_AnimationChannel (x : AnimationChannel) : Prop :=
  savable_ext X (anc_Extensions x) /\
  savable_any (anc_Extras x) /\
  savable_AnimationChannelTarget (anc_Target x).

(** gltf.go:424-431 *)
Definition go_Animation (x : Animation) : Prop :=
  go_ext X (ani_Extensions x) /\
  go_any (ani_Extras x) /\
  opt (Forall (opt go_AnimationChannel)) (ani_Channels x) /\
  opt (Forall (opt go_AnimationSampler)) (ani_Samplers x).
Definition savable_Animation (x : Animation) : Prop :=
  savable_ext X (ani_Extensions x) /\
  savable_any (ani_Extras x) /\
  opt (Forall (opt savable_AnimationChannel)) (ani_Channels x) /\
  opt (Forall (opt savable_AnimationSampler)) (ani_Samplers x).

(** gltf.go:31-52 *)
Definition go_Document (x : Document) : Prop :=
  go_ext X (doc_Extensions x) /\
  go_any (doc_Extras x) /\
  Forall (opt go_Accessor) (doc_Accessors x) /\
  Forall (opt go_Animation) (doc_Animations x) /\
  go_Asset (doc_Asset x) /\
  Forall (opt go_Buffer) (doc_Buffers x) /\
  Forall (opt go_BufferView) (doc_BufferViews x) /\
  Forall (opt go_Camera) (doc_Cameras x) /\
  Forall (opt go_Image) (doc_Images x) /\
  Forall (opt go_Material) (doc_Materials x) /\
  Forall (opt go_Mesh) (doc_Meshes x) /\
  Forall (opt go_Node) (doc_Nodes x) /\
  Forall (opt go_Sampler) (doc_Samplers x) /\
  opt in_i64 (doc_Scene x) /\
  Forall (opt go_Scene) (doc_Scenes x) /\
  Forall (opt go_Skin) (doc_Skins x) /\
  Forall (opt go_Texture) (doc_Textures x).
Definition savable_Document (x : Document) : Prop :=
  savable_ext X (doc_Extensions x) /\
  savable_any (doc_Extras x) /\
  Forall (opt savable_Accessor) (doc_Accessors x) /\
  Forall (opt savable_Animation) (doc_Animations x) /\
  savable_Asset (doc_Asset x) /\
  Forall (opt savable_Buffer) (doc_Buffers x) /\
  Forall (opt savable_BufferView) (doc_BufferViews x) /\
  Forall (opt savable_Camera) (doc_Cameras x) /\
  Forall (opt savable_Image) (doc_Images x) /\
  Forall (opt savable_Material) (doc_Materials x) /\
  Forall (opt savable_Mesh) (doc_Meshes x) /\
  Forall (opt savable_Node) (doc_Nodes x) /\
  Forall (opt savable_Sampler) (doc_Samplers x) /\
  Forall (opt savable_Scene) (doc_Scenes x) /\
  Forall (opt savable_Skin) (doc_Skins x) /\
  Forall (opt savable_Texture) (doc_Textures x).
End Spec.
