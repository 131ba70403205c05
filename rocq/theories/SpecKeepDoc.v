(** What JSON keeps of any document.  GENERATED by tools/gen_keep.py; do not
    edit.

    [kept_T]: the value with strings repaired, colliding keys merged, unknown
    values of enumerations replaced, unset or zero optional properties replaced
    by the glTF defaults, extensions read by their decoder, and without the
    bytes of buffers. *)
From Verif Require Import Base Types Doc F64 SpecText Codec SpecJson SpecKeep.

Section Spec.
Context (X : ext_lib) (rep : string -> string).
Definition kept_Asset (x : Asset) : Asset :=
  mkAsset (kept_ext X rep (ast_Extensions x))
    (kept_any rep (ast_Extras x))
    (rep (ast_Copyright x))
    (rep (ast_Generator x))
    (kept_version rep (ast_Version x))
    (rep (ast_MinVersion x)).
Definition kept_SparseValues (x : SparseValues) : SparseValues :=
  mkSparseValues (kept_ext X rep (spv_Extensions x))
    (kept_any rep (spv_Extras x))
    (spv_BufferView x)
    (spv_ByteOffset x).
Definition kept_SparseIndices (x : SparseIndices) : SparseIndices :=
  mkSparseIndices (kept_ext X rep (spi_Extensions x))
    (kept_any rep (spi_Extras x))
    (spi_BufferView x)
    (spi_ByteOffset x)
    (kept_ct (spi_ComponentType x)).
Definition kept_Sparse (x : Sparse) : Sparse :=
  mkSparse (kept_ext X rep (spa_Extensions x))
    (kept_any rep (spa_Extras x))
    (spa_Count x)
    (kept_SparseIndices (spa_Indices x))
    (kept_SparseValues (spa_Values x)).
Definition kept_Accessor (x : Accessor) : Accessor :=
  mkAccessor (kept_ext X rep (acr_Extensions x))
    (kept_any rep (acr_Extras x))
    (rep (acr_Name x))
    (acr_BufferView x)
    (acr_ByteOffset x)
    (kept_ct (acr_ComponentType x))
    (acr_Normalized x)
    (acr_Count x)
    (acr_Type x)
    (acr_Max x)
    (acr_Min x)
    (option_map kept_Sparse (acr_Sparse x)).
Definition kept_Buffer (x : Buffer) : Buffer :=
  mkBuffer (kept_ext X rep (buf_Extensions x))
    (kept_any rep (buf_Extras x))
    (rep (buf_Name x))
    (rep (buf_URI x))
    (buf_ByteLength x)
    [].
Definition kept_BufferView (x : BufferView) : BufferView :=
  mkBufferView (kept_ext X rep (bvw_Extensions x))
    (kept_any rep (bvw_Extras x))
    (bvw_Buffer x)
    (bvw_ByteOffset x)
    (bvw_ByteLength x)
    (bvw_ByteStride x)
    (bvw_Target x)
    (rep (bvw_Name x)).
Definition kept_Scene (x : Scene) : Scene :=
  mkScene (kept_ext X rep (scn_Extensions x))
    (kept_any rep (scn_Extras x))
    (rep (scn_Name x))
    (scn_Nodes x).
Definition kept_Node (x : Node) : Node :=
  mkNode (kept_ext X rep (nod_Extensions x))
    (kept_any rep (nod_Extras x))
    (rep (nod_Name x))
    (nod_Camera x)
    (nod_Children x)
    (nod_Skin x)
    (or_default identity_matrix (repeat 0 16) (nod_Matrix x))
    (nod_Mesh x)
    (or_default identity_rotation (repeat 0 4) (nod_Rotation x))
    (or_default identity_scale (repeat 0 3) (nod_Scale x))
    (or_default (repeat 0 3) (repeat 0 3) (nod_Translation x))
    (nod_Weights x).
Definition kept_Skin (x : Skin) : Skin :=
  mkSkin (kept_ext X rep (skn_Extensions x))
    (kept_any rep (skn_Extras x))
    (rep (skn_Name x))
    (skn_InverseBindMatrices x)
    (skn_Skeleton x)
    (skn_Joints x).
Definition kept_Orthographic (x : Orthographic) : Orthographic :=
  mkOrthographic (kept_ext X rep (ort_Extensions x))
    (kept_any rep (ort_Extras x))
    (ort_Xmag x)
    (ort_Ymag x)
    (ort_Zfar x)
    (ort_Znear x).
Definition kept_Perspective (x : Perspective) : Perspective :=
  mkPerspective (kept_ext X rep (per_Extensions x))
    (kept_any rep (per_Extras x))
    (per_AspectRatio x)
    (per_Yfov x)
    (per_Zfar x)
    (per_Znear x).
Definition kept_Camera (x : Camera) : Camera :=
  mkCamera (kept_ext X rep (cam_Extensions x))
    (kept_any rep (cam_Extras x))
    (rep (cam_Name x))
    (option_map kept_Orthographic (cam_Orthographic x))
    (option_map kept_Perspective (cam_Perspective x)).
Definition kept_Primitive (x : Primitive) : Primitive :=
  mkPrimitive (kept_ext X rep (pri_Extensions x))
    (kept_any rep (pri_Extras x))
    (option_map (kept_attrs rep) (pri_Attributes x))
    (pri_Indices x)
    (pri_Material x)
    (kept_mode (pri_Mode x))
    (map (option_map (kept_attrs rep)) (pri_Targets x)).
Definition kept_Mesh (x : Mesh) : Mesh :=
  mkMesh (kept_ext X rep (msh_Extensions x))
    (kept_any rep (msh_Extras x))
    (rep (msh_Name x))
    (option_map (map (option_map kept_Primitive)) (msh_Primitives x))
    (msh_Weights x).
Definition kept_TextureInfo (x : TextureInfo) : TextureInfo :=
  mkTextureInfo (kept_ext X rep (txi_Extensions x))
    (kept_any rep (txi_Extras x))
    (txi_Index x)
    (txi_TexCoord x).
Definition kept_NormalTexture (x : NormalTexture) : NormalTexture :=
  mkNormalTexture (kept_ext X rep (ntx_Extensions x))
    (kept_any rep (ntx_Extras x))
    (ntx_Index x)
    (ntx_TexCoord x)
    (or_some one (ntx_Scale x)).
Definition kept_OcclusionTexture (x : OcclusionTexture) : OcclusionTexture :=
  mkOcclusionTexture (kept_ext X rep (otx_Extensions x))
    (kept_any rep (otx_Extras x))
    (otx_Index x)
    (otx_TexCoord x)
    (or_some one (otx_Strength x)).
Definition kept_PBRMetallicRoughness (x : PBRMetallicRoughness) : PBRMetallicRoughness :=
  mkPBRMetallicRoughness (kept_ext X rep (pbr_Extensions x))
    (kept_any rep (pbr_Extras x))
    (or_some (repeat one 4) (pbr_BaseColorFactor x))
    (option_map kept_TextureInfo (pbr_BaseColorTexture x))
    (or_some one (pbr_MetallicFactor x))
    (or_some one (pbr_RoughnessFactor x))
    (option_map kept_TextureInfo (pbr_MetallicRoughnessTexture x)).
Definition kept_Material (x : Material) : Material :=
  mkMaterial (kept_ext X rep (mat_Extensions x))
    (kept_any rep (mat_Extras x))
    (rep (mat_Name x))
    (option_map kept_PBRMetallicRoughness (mat_PBRMetallicRoughness x))
    (option_map kept_NormalTexture (mat_NormalTexture x))
    (option_map kept_OcclusionTexture (mat_OcclusionTexture x))
    (option_map kept_TextureInfo (mat_EmissiveTexture x))
    (or_default (repeat 0 3) (repeat 0 3) (mat_EmissiveFactor x))
    (kept_enum 3 (mat_AlphaMode x))
    (or_some half (mat_AlphaCutoff x))
    (mat_DoubleSided x).
Definition kept_Texture (x : Texture) : Texture :=
  mkTexture (kept_ext X rep (txt_Extensions x))
    (kept_any rep (txt_Extras x))
    (rep (txt_Name x))
    (txt_Sampler x)
    (txt_Source x).
Definition kept_Sampler (x : Sampler) : Sampler :=
  mkSampler (kept_ext X rep (smp_Extensions x))
    (kept_any rep (smp_Extras x))
    (rep (smp_Name x))
    (kept_enum 3 (smp_MagFilter x))
    (kept_enum 7 (smp_MinFilter x))
    (kept_enum 3 (smp_WrapS x))
    (kept_enum 3 (smp_WrapT x)).
Definition kept_Image (x : Image) : Image :=
  mkImage (kept_ext X rep (img_Extensions x))
    (kept_any rep (img_Extras x))
    (rep (img_Name x))
    (rep (img_URI x))
    (rep (img_MimeType x))
    (img_BufferView x).
Definition kept_AnimationSampler (x : AnimationSampler) : AnimationSampler :=
  mkAnimationSampler (kept_ext X rep (ans_Extensions x))
    (kept_any rep (ans_Extras x))
    (ans_Input x)
    (kept_enum 3 (ans_Interpolation x))
    (ans_Output x).
Definition kept_AnimationChannelTarget (x : AnimationChannelTarget) : AnimationChannelTarget :=
  mkAnimationChannelTarget (kept_ext X rep (act_Extensions x))
    (kept_any rep (act_Extras x))
    (act_Node x)
    (kept_enum 4 (act_Path x)).
Definition kept_AnimationChannel (x : AnimationChannel) : AnimationChannel :=
  mkAnimationChannel (kept_ext X rep (anc_Extensions x))
    (kept_any rep (anc_Extras x))
    (anc_Sampler x)
    (kept_AnimationChannelTarget (anc_Target x)).
Definition kept_Animation (x : Animation) : Animation :=
  mkAnimation (kept_ext X rep (ani_Extensions x))
    (kept_any rep (ani_Extras x))
    (rep (ani_Name x))
    (option_map (map (option_map kept_AnimationChannel)) (ani_Channels x))
    (option_map (map (option_map kept_AnimationSampler)) (ani_Samplers x)).
Definition kept_Document (x : Document) : Document :=
  mkDocument (kept_ext X rep (doc_Extensions x))
    (kept_any rep (doc_Extras x))
    (map rep (doc_ExtensionsUsed x))
    (map rep (doc_ExtensionsRequired x))
    (map (option_map kept_Accessor) (doc_Accessors x))
    (map (option_map kept_Animation) (doc_Animations x))
    (kept_Asset (doc_Asset x))
    (map (option_map kept_Buffer) (doc_Buffers x))
    (map (option_map kept_BufferView) (doc_BufferViews x))
    (map (option_map kept_Camera) (doc_Cameras x))
    (map (option_map kept_Image) (doc_Images x))
    (map (option_map kept_Material) (doc_Materials x))
    (map (option_map kept_Mesh) (doc_Meshes x))
    (map (option_map kept_Node) (doc_Nodes x))
    (map (option_map kept_Sampler) (doc_Samplers x))
    (doc_Scene x)
    (map (option_map kept_Scene) (doc_Scenes x))
    (map (option_map kept_Skin) (doc_Skins x))
    (map (option_map kept_Texture) (doc_Textures x)).
End Spec.
