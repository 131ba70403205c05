(** JSON codecs of the document types.  GENERATED by tools/gen_codec.py from
    the struct declarations of gltf.go (JSON names and omitempty as in the
    tags) and from the MarshalJSON/UnmarshalJSON methods of encode.go; do not
    edit.

    [fields_T] are the fields encoding/json decodes; [out_T] those it writes,
    in order (fields of the wrapping struct of a MarshalJSON method come
    first). *)
From Verif Require Import Base Types Doc F64 JsonText Codec.

Definition f64_one : Z := 0x3FF0000000000000.
Definition f64_half : Z := 0x3FE0000000000000.
(** const.go:11-20 *)
Definition DefaultMatrix : list Z :=
  [f64_one;0;0;0;0;f64_one;0;0;0;0;f64_one;0;0;0;0;f64_one].
Definition DefaultRotation : list Z := [0;0;0;f64_one].
Definition DefaultScale : list Z := [f64_one;f64_one;f64_one].

(** encode.go:285-299: equal to the default or to the empty array *)
Definition arr_default (d z v : list Z) : bool := arr_eq v d || arr_eq v z.
(** encode.go:346-351,371,397,428-436: nil or equal to the default *)
Definition opt_default (d : Z) (o : option Z) : bool :=
  match o with None => true | Some v => f64_eq v d end.
Definition oarr_default (d : list Z) (o : option (list Z)) : bool :=
  match o with None => true | Some v => arr_eq v d end.

Section Params.
Context (F : float_lib) (X : ext_lib).

(** gltf.go:22-29, encode.go:235-260 *)
Definition fields_Asset : list (field Asset) := [
  Fld "extensions" ast_Extensions set_ast_Extensions (c_ext X) is_nil;
  Fld "extras" ast_Extras set_ast_Extras (c_any F) any_nil;
  Fld "copyright" ast_Copyright set_ast_Copyright c_str str_empty;
  Fld "generator" ast_Generator set_ast_Generator c_str str_empty;
  Fld "version" ast_Version set_ast_Version c_str never;
  Fld "minVersion" ast_MinVersion set_ast_MinVersion c_str str_empty
].
Definition default_Asset : Asset := (set_ast_Version "2.0" zero_Asset).
(** With an empty version the field of the wrapping struct is written first. *)
Definition out_Asset : list (field Asset) := [
  Fld "version" ast_Version set_ast_Version c_str never;
  Fld "extensions" ast_Extensions set_ast_Extensions (c_ext X) is_nil;
  Fld "extras" ast_Extras set_ast_Extras (c_any F) any_nil;
  Fld "copyright" ast_Copyright set_ast_Copyright c_str str_empty;
  Fld "generator" ast_Generator set_ast_Generator c_str str_empty;
  Fld "minVersion" ast_MinVersion set_ast_MinVersion c_str str_empty
].
Definition enc_Asset (a : Asset) : res json :=
  if str_empty (ast_Version a) then enc_struct out_Asset (set_ast_Version "2.0" a)
  else enc_struct fields_Asset a.
Definition c_Asset : codec Asset :=
  mkCodec enc_Asset (fun _ j => dec_struct fields_Asset default_Asset j).

(** gltf.go:93-99 *)
Definition fields_SparseValues : list (field SparseValues) := [
  Fld "extensions" spv_Extensions set_spv_Extensions (c_ext X) is_nil;
  Fld "extras" spv_Extras set_spv_Extras (c_any F) any_nil;
  Fld "bufferView" spv_BufferView set_spv_BufferView c_int never;
  Fld "byteOffset" spv_ByteOffset set_spv_ByteOffset c_int z_zero
].
Definition c_SparseValues : codec SparseValues := c_struct fields_SparseValues.

(** gltf.go:101-108 *)
Definition fields_SparseIndices : list (field SparseIndices) := [
  Fld "extensions" spi_Extensions set_spi_Extensions (c_ext X) is_nil;
  Fld "extras" spi_Extras set_spi_Extras (c_any F) any_nil;
  Fld "bufferView" spi_BufferView set_spi_BufferView c_int never;
  Fld "byteOffset" spi_ByteOffset set_spi_ByteOffset c_int z_zero;
  Fld "componentType" spi_ComponentType set_spi_ComponentType c_ct never
].
Definition c_SparseIndices : codec SparseIndices := c_struct fields_SparseIndices.

(** gltf.go:84-91 *)
Definition fields_Sparse : list (field Sparse) := [
  Fld "extensions" spa_Extensions set_spa_Extensions (c_ext X) is_nil;
  Fld "extras" spa_Extras set_spa_Extras (c_any F) any_nil;
  Fld "count" spa_Count set_spa_Count c_int never;
  Fld "indices" spa_Indices set_spa_Indices c_SparseIndices never;
  Fld "values" spa_Values set_spa_Values c_SparseValues never
].
Definition c_Sparse : codec Sparse := c_struct fields_Sparse.

(** gltf.go:65-82 *)
Definition fields_Accessor : list (field Accessor) := [
  Fld "extensions" acr_Extensions set_acr_Extensions (c_ext X) is_nil;
  Fld "extras" acr_Extras set_acr_Extras (c_any F) any_nil;
  Fld "name" acr_Name set_acr_Name c_str str_empty;
  Fld "bufferView" acr_BufferView set_acr_BufferView (c_ptr 0 c_int) is_none;
  Fld "byteOffset" acr_ByteOffset set_acr_ByteOffset c_int z_zero;
  Fld "componentType" acr_ComponentType set_acr_ComponentType c_ct never;
  Fld "normalized" acr_Normalized set_acr_Normalized c_bool negb;
  Fld "count" acr_Count set_acr_Count c_int never;
  Fld "type" acr_Type set_acr_Type c_at never;
  Fld "max" acr_Max set_acr_Max (c_slice 0 (c_f64 F)) is_nil;
  Fld "min" acr_Min set_acr_Min (c_slice 0 (c_f64 F)) is_nil;
  Fld "sparse" acr_Sparse set_acr_Sparse (c_ptr zero_Sparse c_Sparse) is_none
].
Definition c_Accessor : codec Accessor := c_struct fields_Accessor.

(** gltf.go:110-120 *)
Definition fields_Buffer : list (field Buffer) := [
  Fld "extensions" buf_Extensions set_buf_Extensions (c_ext X) is_nil;
  Fld "extras" buf_Extras set_buf_Extras (c_any F) any_nil;
  Fld "name" buf_Name set_buf_Name c_str str_empty;
  Fld "uri" buf_URI set_buf_URI c_str str_empty;
  Fld "byteLength" buf_ByteLength set_buf_ByteLength c_int never
].
Definition c_Buffer : codec Buffer := c_struct fields_Buffer.

(** gltf.go:147-157 *)
Definition fields_BufferView : list (field BufferView) := [
  Fld "extensions" bvw_Extensions set_bvw_Extensions (c_ext X) is_nil;
  Fld "extras" bvw_Extras set_bvw_Extras (c_any F) any_nil;
  Fld "buffer" bvw_Buffer set_bvw_Buffer c_int never;
  Fld "byteOffset" bvw_ByteOffset set_bvw_ByteOffset c_int z_zero;
  Fld "byteLength" bvw_ByteLength set_bvw_ByteLength c_int never;
  Fld "byteStride" bvw_ByteStride set_bvw_ByteStride c_int z_zero;
  Fld "target" bvw_Target set_bvw_Target c_tgt z_zero;
  Fld "name" bvw_Name set_bvw_Name c_str str_empty
].
Definition c_BufferView : codec BufferView := c_struct fields_BufferView.

(** gltf.go:159-165 *)
Definition fields_Scene : list (field Scene) := [
  Fld "extensions" scn_Extensions set_scn_Extensions (c_ext X) is_nil;
  Fld "extras" scn_Extras set_scn_Extras (c_any F) any_nil;
  Fld "name" scn_Name set_scn_Name c_str str_empty;
  Fld "nodes" scn_Nodes set_scn_Nodes (c_slice 0 c_int) is_nil
].
Definition c_Scene : codec Scene := c_struct fields_Scene.

(** gltf.go:167-182, encode.go:263-302 *)
Definition fields_Node : list (field Node) := [
  Fld "extensions" nod_Extensions set_nod_Extensions (c_ext X) is_nil;
  Fld "extras" nod_Extras set_nod_Extras (c_any F) any_nil;
  Fld "name" nod_Name set_nod_Name c_str str_empty;
  Fld "camera" nod_Camera set_nod_Camera (c_ptr 0 c_int) is_none;
  Fld "children" nod_Children set_nod_Children (c_slice 0 c_int) is_nil;
  Fld "skin" nod_Skin set_nod_Skin (c_ptr 0 c_int) is_none;
  Fld "matrix" nod_Matrix set_nod_Matrix (c_array 0 (c_f64 F)) (arr_default DefaultMatrix (repeat 0 16));
  Fld "mesh" nod_Mesh set_nod_Mesh (c_ptr 0 c_int) is_none;
  Fld "rotation" nod_Rotation set_nod_Rotation (c_array 0 (c_f64 F)) (arr_default DefaultRotation (repeat 0 4));
  Fld "scale" nod_Scale set_nod_Scale (c_array 0 (c_f64 F)) (arr_default DefaultScale (repeat 0 3));
  Fld "translation" nod_Translation set_nod_Translation (c_array 0 (c_f64 F)) (arr_default (repeat 0 3) (repeat 0 3));
  Fld "weights" nod_Weights set_nod_Weights (c_slice 0 (c_f64 F)) is_nil
].
Definition out_Node : list (field Node) := [
  Fld "matrix" nod_Matrix set_nod_Matrix (c_array 0 (c_f64 F)) (arr_default DefaultMatrix (repeat 0 16));
  Fld "rotation" nod_Rotation set_nod_Rotation (c_array 0 (c_f64 F)) (arr_default DefaultRotation (repeat 0 4));
  Fld "scale" nod_Scale set_nod_Scale (c_array 0 (c_f64 F)) (arr_default DefaultScale (repeat 0 3));
  Fld "translation" nod_Translation set_nod_Translation (c_array 0 (c_f64 F)) (arr_default (repeat 0 3) (repeat 0 3));
  Fld "extensions" nod_Extensions set_nod_Extensions (c_ext X) is_nil;
  Fld "extras" nod_Extras set_nod_Extras (c_any F) any_nil;
  Fld "name" nod_Name set_nod_Name c_str str_empty;
  Fld "camera" nod_Camera set_nod_Camera (c_ptr 0 c_int) is_none;
  Fld "children" nod_Children set_nod_Children (c_slice 0 c_int) is_nil;
  Fld "skin" nod_Skin set_nod_Skin (c_ptr 0 c_int) is_none;
  Fld "mesh" nod_Mesh set_nod_Mesh (c_ptr 0 c_int) is_none;
  Fld "weights" nod_Weights set_nod_Weights (c_slice 0 (c_f64 F)) is_nil
].
Definition default_Node : Node := (set_nod_Scale DefaultScale (set_nod_Rotation DefaultRotation (set_nod_Matrix DefaultMatrix zero_Node))).
Definition c_Node : codec Node :=
  mkCodec (enc_struct out_Node) (fun _ j => dec_struct fields_Node default_Node j).

(** gltf.go:213-221 *)
Definition fields_Skin : list (field Skin) := [
  Fld "extensions" skn_Extensions set_skn_Extensions (c_ext X) is_nil;
  Fld "extras" skn_Extras set_skn_Extras (c_any F) any_nil;
  Fld "name" skn_Name set_skn_Name c_str str_empty;
  Fld "inverseBindMatrices" skn_InverseBindMatrices set_skn_InverseBindMatrices (c_ptr 0 c_int) is_none;
  Fld "skeleton" skn_Skeleton set_skn_Skeleton (c_ptr 0 c_int) is_none;
  Fld "joints" skn_Joints set_skn_Joints (c_oslice 0 c_int) never
].
Definition c_Skin : codec Skin := c_struct fields_Skin.

(** gltf.go:232-240 *)
Definition fields_Orthographic : list (field Orthographic) := [
  Fld "extensions" ort_Extensions set_ort_Extensions (c_ext X) is_nil;
  Fld "extras" ort_Extras set_ort_Extras (c_any F) any_nil;
  Fld "xmag" ort_Xmag set_ort_Xmag (c_f64 F) never;
  Fld "ymag" ort_Ymag set_ort_Ymag (c_f64 F) never;
  Fld "zfar" ort_Zfar set_ort_Zfar (c_f64 F) never;
  Fld "znear" ort_Znear set_ort_Znear (c_f64 F) never
].
Definition c_Orthographic : codec Orthographic := c_struct fields_Orthographic.

(** gltf.go:242-250 *)
Definition fields_Perspective : list (field Perspective) := [
  Fld "extensions" per_Extensions set_per_Extensions (c_ext X) is_nil;
  Fld "extras" per_Extras set_per_Extras (c_any F) any_nil;
  Fld "aspectRatio" per_AspectRatio set_per_AspectRatio (c_ptr 0 (c_f64 F)) is_none;
  Fld "yfov" per_Yfov set_per_Yfov (c_f64 F) never;
  Fld "zfar" per_Zfar set_per_Zfar (c_ptr 0 (c_f64 F)) is_none;
  Fld "znear" per_Znear set_per_Znear (c_f64 F) never
].
Definition c_Perspective : codec Perspective := c_struct fields_Perspective.

(** gltf.go:223-230 *)
Definition fields_Camera : list (field Camera) := [
  Fld "extensions" cam_Extensions set_cam_Extensions (c_ext X) is_nil;
  Fld "extras" cam_Extras set_cam_Extras (c_any F) any_nil;
  Fld "name" cam_Name set_cam_Name c_str str_empty;
  Fld "orthographic" cam_Orthographic set_cam_Orthographic (c_ptr zero_Orthographic c_Orthographic) is_none;
  Fld "perspective" cam_Perspective set_cam_Perspective (c_ptr zero_Perspective c_Perspective) is_none
].
(** encode.go:305-325: a type member first; no custom decoding *)
Definition enc_Camera (c : Camera) : res json :=
  match cam_Perspective c, cam_Orthographic c with
  | Some _, _ => m <- enc_fields fields_Camera c ;; Ok (JObj (("type", JStr "perspective") :: m))
  | None, Some _ => m <- enc_fields fields_Camera c ;; Ok (JObj (("type", JStr "orthographic") :: m))
  | None, None =>
      Err (ErrMsg "gltf: camera must defined either the perspective or orthographic property")
  end%string.
Definition c_Camera : codec Camera := mkCodec enc_Camera (dec_struct fields_Camera).

(** gltf.go:261-270 *)
Definition fields_Primitive : list (field Primitive) := [
  Fld "extensions" pri_Extensions set_pri_Extensions (c_ext X) is_nil;
  Fld "extras" pri_Extras set_pri_Extras (c_any F) any_nil;
  Fld "attributes" pri_Attributes set_pri_Attributes c_attrs never;
  Fld "indices" pri_Indices set_pri_Indices (c_ptr 0 c_int) is_none;
  Fld "material" pri_Material set_pri_Material (c_ptr 0 c_int) is_none;
  Fld "mode" pri_Mode set_pri_Mode c_mode z_zero;
  Fld "targets" pri_Targets set_pri_Targets (c_slice None c_attrs) is_nil
].
Definition c_Primitive : codec Primitive := c_struct fields_Primitive.

(** gltf.go:252-259 *)
Definition fields_Mesh : list (field Mesh) := [
  Fld "extensions" msh_Extensions set_msh_Extensions (c_ext X) is_nil;
  Fld "extras" msh_Extras set_msh_Extras (c_any F) any_nil;
  Fld "name" msh_Name set_msh_Name c_str str_empty;
  Fld "primitives" msh_Primitives set_msh_Primitives (c_oslice None (c_ptr zero_Primitive c_Primitive)) never;
  Fld "weights" msh_Weights set_msh_Weights (c_slice 0 (c_f64 F)) is_nil
].
Definition c_Mesh : codec Mesh := c_struct fields_Mesh.

(** gltf.go:363-369 *)
Definition fields_TextureInfo : list (field TextureInfo) := [
  Fld "extensions" txi_Extensions set_txi_Extensions (c_ext X) is_nil;
  Fld "extras" txi_Extras set_txi_Extras (c_any F) any_nil;
  Fld "index" txi_Index set_txi_Index c_int never;
  Fld "texCoord" txi_TexCoord set_txi_TexCoord c_int z_zero
].
Definition c_TextureInfo : codec TextureInfo := c_struct fields_TextureInfo.

(** gltf.go:295-302, encode.go:358-381 *)
Definition fields_NormalTexture : list (field NormalTexture) := [
  Fld "extensions" ntx_Extensions set_ntx_Extensions (c_ext X) is_nil;
  Fld "extras" ntx_Extras set_ntx_Extras (c_any F) any_nil;
  Fld "index" ntx_Index set_ntx_Index (c_ptr 0 c_int) is_none;
  Fld "texCoord" ntx_TexCoord set_ntx_TexCoord c_int z_zero;
  Fld "scale" ntx_Scale set_ntx_Scale (c_ptr 0 (c_f64 F)) (opt_default f64_one)
].
Definition default_NormalTexture : NormalTexture := (set_ntx_Scale (Some f64_one) zero_NormalTexture).
Definition c_NormalTexture : codec NormalTexture :=
  mkCodec (enc_struct fields_NormalTexture) (fun _ j => dec_struct fields_NormalTexture default_NormalTexture j).

(** gltf.go:312-319, encode.go:384-407 *)
Definition fields_OcclusionTexture : list (field OcclusionTexture) := [
  Fld "extensions" otx_Extensions set_otx_Extensions (c_ext X) is_nil;
  Fld "extras" otx_Extras set_otx_Extras (c_any F) any_nil;
  Fld "index" otx_Index set_otx_Index (c_ptr 0 c_int) is_none;
  Fld "texCoord" otx_TexCoord set_otx_TexCoord c_int z_zero;
  Fld "strength" otx_Strength set_otx_Strength (c_ptr 0 (c_f64 F)) (opt_default f64_one)
].
Definition default_OcclusionTexture : OcclusionTexture := (set_otx_Strength (Some f64_one) zero_OcclusionTexture).
Definition c_OcclusionTexture : codec OcclusionTexture :=
  mkCodec (enc_struct fields_OcclusionTexture) (fun _ j => dec_struct fields_OcclusionTexture default_OcclusionTexture j).

(** gltf.go:329-338, encode.go:410-438 *)
Definition fields_PBRMetallicRoughness : list (field PBRMetallicRoughness) := [
  Fld "extensions" pbr_Extensions set_pbr_Extensions (c_ext X) is_nil;
  Fld "extras" pbr_Extras set_pbr_Extras (c_any F) any_nil;
  Fld "baseColorFactor" pbr_BaseColorFactor set_pbr_BaseColorFactor (c_ptr (repeat 0 4) (c_array 0 (c_f64 F))) (oarr_default (repeat f64_one 4));
  Fld "baseColorTexture" pbr_BaseColorTexture set_pbr_BaseColorTexture (c_ptr zero_TextureInfo c_TextureInfo) is_none;
  Fld "metallicFactor" pbr_MetallicFactor set_pbr_MetallicFactor (c_ptr 0 (c_f64 F)) (opt_default f64_one);
  Fld "roughnessFactor" pbr_RoughnessFactor set_pbr_RoughnessFactor (c_ptr 0 (c_f64 F)) (opt_default f64_one);
  Fld "metallicRoughnessTexture" pbr_MetallicRoughnessTexture set_pbr_MetallicRoughnessTexture (c_ptr zero_TextureInfo c_TextureInfo) is_none
].
Definition default_PBRMetallicRoughness : PBRMetallicRoughness := (set_pbr_RoughnessFactor (Some f64_one) (set_pbr_MetallicFactor (Some f64_one) (set_pbr_BaseColorFactor (Some (repeat f64_one 4)) zero_PBRMetallicRoughness))).
Definition c_PBRMetallicRoughness : codec PBRMetallicRoughness :=
  mkCodec (enc_struct fields_PBRMetallicRoughness) (fun _ j => dec_struct fields_PBRMetallicRoughness default_PBRMetallicRoughness j).

(** gltf.go:272-285, encode.go:328-355 *)
Definition fields_Material : list (field Material) := [
  Fld "extensions" mat_Extensions set_mat_Extensions (c_ext X) is_nil;
  Fld "extras" mat_Extras set_mat_Extras (c_any F) any_nil;
  Fld "name" mat_Name set_mat_Name c_str str_empty;
  Fld "pbrMetallicRoughness" mat_PBRMetallicRoughness set_mat_PBRMetallicRoughness (c_ptr zero_PBRMetallicRoughness c_PBRMetallicRoughness) is_none;
  Fld "normalTexture" mat_NormalTexture set_mat_NormalTexture (c_ptr zero_NormalTexture c_NormalTexture) is_none;
  Fld "occlusionTexture" mat_OcclusionTexture set_mat_OcclusionTexture (c_ptr zero_OcclusionTexture c_OcclusionTexture) is_none;
  Fld "emissiveTexture" mat_EmissiveTexture set_mat_EmissiveTexture (c_ptr zero_TextureInfo c_TextureInfo) is_none;
  Fld "emissiveFactor" mat_EmissiveFactor set_mat_EmissiveFactor (c_array 0 (c_f64 F)) (arr_default (repeat 0 3) (repeat 0 3));
  Fld "alphaMode" mat_AlphaMode set_mat_AlphaMode c_alpha z_zero;
  Fld "alphaCutoff" mat_AlphaCutoff set_mat_AlphaCutoff (c_ptr 0 (c_f64 F)) (opt_default f64_half);
  Fld "doubleSided" mat_DoubleSided set_mat_DoubleSided c_bool negb
].
Definition out_Material : list (field Material) := [
  Fld "emissiveFactor" mat_EmissiveFactor set_mat_EmissiveFactor (c_array 0 (c_f64 F)) (arr_default (repeat 0 3) (repeat 0 3));
  Fld "alphaCutoff" mat_AlphaCutoff set_mat_AlphaCutoff (c_ptr 0 (c_f64 F)) (opt_default f64_half);
  Fld "extensions" mat_Extensions set_mat_Extensions (c_ext X) is_nil;
  Fld "extras" mat_Extras set_mat_Extras (c_any F) any_nil;
  Fld "name" mat_Name set_mat_Name c_str str_empty;
  Fld "pbrMetallicRoughness" mat_PBRMetallicRoughness set_mat_PBRMetallicRoughness (c_ptr zero_PBRMetallicRoughness c_PBRMetallicRoughness) is_none;
  Fld "normalTexture" mat_NormalTexture set_mat_NormalTexture (c_ptr zero_NormalTexture c_NormalTexture) is_none;
  Fld "occlusionTexture" mat_OcclusionTexture set_mat_OcclusionTexture (c_ptr zero_OcclusionTexture c_OcclusionTexture) is_none;
  Fld "emissiveTexture" mat_EmissiveTexture set_mat_EmissiveTexture (c_ptr zero_TextureInfo c_TextureInfo) is_none;
  Fld "alphaMode" mat_AlphaMode set_mat_AlphaMode c_alpha z_zero;
  Fld "doubleSided" mat_DoubleSided set_mat_DoubleSided c_bool negb
].
Definition default_Material : Material := (set_mat_AlphaCutoff (Some f64_half) zero_Material).
Definition c_Material : codec Material :=
  mkCodec (enc_struct out_Material) (fun _ j => dec_struct fields_Material default_Material j).

(** gltf.go:371-378 *)
Definition fields_Texture : list (field Texture) := [
  Fld "extensions" txt_Extensions set_txt_Extensions (c_ext X) is_nil;
  Fld "extras" txt_Extras set_txt_Extras (c_any F) any_nil;
  Fld "name" txt_Name set_txt_Name c_str str_empty;
  Fld "sampler" txt_Sampler set_txt_Sampler (c_ptr 0 c_int) is_none;
  Fld "source" txt_Source set_txt_Source (c_ptr 0 c_int) is_none
].
Definition c_Texture : codec Texture := c_struct fields_Texture.

(** gltf.go:380-389 *)
Definition fields_Sampler : list (field Sampler) := [
  Fld "extensions" smp_Extensions set_smp_Extensions (c_ext X) is_nil;
  Fld "extras" smp_Extras set_smp_Extras (c_any F) any_nil;
  Fld "name" smp_Name set_smp_Name c_str str_empty;
  Fld "magFilter" smp_MagFilter set_smp_MagFilter c_mag z_zero;
  Fld "minFilter" smp_MinFilter set_smp_MinFilter c_minf z_zero;
  Fld "wrapS" smp_WrapS set_smp_WrapS c_wrap z_zero;
  Fld "wrapT" smp_WrapT set_smp_WrapT c_wrap z_zero
].
Definition c_Sampler : codec Sampler := c_struct fields_Sampler.

(** gltf.go:391-400 *)
Definition fields_Image : list (field Image) := [
  Fld "extensions" img_Extensions set_img_Extensions (c_ext X) is_nil;
  Fld "extras" img_Extras set_img_Extras (c_any F) any_nil;
  Fld "name" img_Name set_img_Name c_str str_empty;
  Fld "uri" img_URI set_img_URI c_str str_empty;
  Fld "mimeType" img_MimeType set_img_MimeType c_str str_empty;
  Fld "bufferView" img_BufferView set_img_BufferView (c_ptr 0 c_int) is_none
].
Definition c_Image : codec Image := c_struct fields_Image.

(** gltf.go:433-440 *)
Definition fields_AnimationSampler : list (field AnimationSampler) := [
  Fld "extensions" ans_Extensions set_ans_Extensions (c_ext X) is_nil;
  Fld "extras" ans_Extras set_ans_Extras (c_any F) any_nil;
  Fld "input" ans_Input set_ans_Input c_int never;
  Fld "interpolation" ans_Interpolation set_ans_Interpolation c_interp z_zero;
  Fld "output" ans_Output set_ans_Output c_int never
].
Definition c_AnimationSampler : codec AnimationSampler := c_struct fields_AnimationSampler.

(** gltf.go:450-460 *)
Definition fields_AnimationChannelTarget : list (field AnimationChannelTarget) := [
  Fld "extensions" act_Extensions set_act_Extensions (c_ext X) is_nil;
  Fld "extras" act_Extras set_act_Extras (c_any F) any_nil;
  Fld "node" act_Node set_act_Node (c_ptr 0 c_int) is_none;
  Fld "path" act_Path set_act_Path c_trs never
].
Definition c_AnimationChannelTarget : codec AnimationChannelTarget := c_struct fields_AnimationChannelTarget.

(** gltf.go:442-448 *)
Definition fields_AnimationChannel : list (field AnimationChannel) := [
  Fld "extensions" anc_Extensions set_anc_Extensions (c_ext X) is_nil;
  Fld "extras" anc_Extras set_anc_Extras (c_any F) any_nil;
  Fld "sampler" anc_Sampler set_anc_Sampler c_int never;
  Fld "target" anc_Target set_anc_Target c_AnimationChannelTarget never
].
Definition c_AnimationChannel : codec AnimationChannel := c_struct fields_AnimationChannel.

(** gltf.go:424-431 *)
Definition fields_Animation : list (field Animation) := [
  Fld "extensions" ani_Extensions set_ani_Extensions (c_ext X) is_nil;
  Fld "extras" ani_Extras set_ani_Extras (c_any F) any_nil;
  Fld "name" ani_Name set_ani_Name c_str str_empty;
  Fld "channels" ani_Channels set_ani_Channels (c_oslice None (c_ptr zero_AnimationChannel c_AnimationChannel)) never;
  Fld "samplers" ani_Samplers set_ani_Samplers (c_oslice None (c_ptr zero_AnimationSampler c_AnimationSampler)) never
].
Definition c_Animation : codec Animation := c_struct fields_Animation.

(** gltf.go:31-52 *)
Definition fields_Document : list (field Document) := [
  Fld "extensions" doc_Extensions set_doc_Extensions (c_ext X) is_nil;
  Fld "extras" doc_Extras set_doc_Extras (c_any F) any_nil;
  Fld "extensionsUsed" doc_ExtensionsUsed set_doc_ExtensionsUsed (c_slice ""%string c_str) is_nil;
  Fld "extensionsRequired" doc_ExtensionsRequired set_doc_ExtensionsRequired (c_slice ""%string c_str) is_nil;
  Fld "accessors" doc_Accessors set_doc_Accessors (c_slice None (c_ptr zero_Accessor c_Accessor)) is_nil;
  Fld "animations" doc_Animations set_doc_Animations (c_slice None (c_ptr zero_Animation c_Animation)) is_nil;
  Fld "asset" doc_Asset set_doc_Asset c_Asset never;
  Fld "buffers" doc_Buffers set_doc_Buffers (c_slice None (c_ptr zero_Buffer c_Buffer)) is_nil;
  Fld "bufferViews" doc_BufferViews set_doc_BufferViews (c_slice None (c_ptr zero_BufferView c_BufferView)) is_nil;
  Fld "cameras" doc_Cameras set_doc_Cameras (c_slice None (c_ptr zero_Camera c_Camera)) is_nil;
  Fld "images" doc_Images set_doc_Images (c_slice None (c_ptr zero_Image c_Image)) is_nil;
  Fld "materials" doc_Materials set_doc_Materials (c_slice None (c_ptr zero_Material c_Material)) is_nil;
  Fld "meshes" doc_Meshes set_doc_Meshes (c_slice None (c_ptr zero_Mesh c_Mesh)) is_nil;
  Fld "nodes" doc_Nodes set_doc_Nodes (c_slice None (c_ptr zero_Node c_Node)) is_nil;
  Fld "samplers" doc_Samplers set_doc_Samplers (c_slice None (c_ptr zero_Sampler c_Sampler)) is_nil;
  Fld "scene" doc_Scene set_doc_Scene (c_ptr 0 c_int) is_none;
  Fld "scenes" doc_Scenes set_doc_Scenes (c_slice None (c_ptr zero_Scene c_Scene)) is_nil;
  Fld "skins" doc_Skins set_doc_Skins (c_slice None (c_ptr zero_Skin c_Skin)) is_nil;
  Fld "textures" doc_Textures set_doc_Textures (c_slice None (c_ptr zero_Texture c_Texture)) is_nil
].
Definition out_Document : list (field Document) := [
  Fld "buffers" doc_Buffers set_doc_Buffers (c_slice None (c_ptr zero_Buffer c_Buffer)) is_nil;
  Fld "extensions" doc_Extensions set_doc_Extensions (c_ext X) is_nil;
  Fld "extras" doc_Extras set_doc_Extras (c_any F) any_nil;
  Fld "extensionsUsed" doc_ExtensionsUsed set_doc_ExtensionsUsed (c_slice ""%string c_str) is_nil;
  Fld "extensionsRequired" doc_ExtensionsRequired set_doc_ExtensionsRequired (c_slice ""%string c_str) is_nil;
  Fld "accessors" doc_Accessors set_doc_Accessors (c_slice None (c_ptr zero_Accessor c_Accessor)) is_nil;
  Fld "animations" doc_Animations set_doc_Animations (c_slice None (c_ptr zero_Animation c_Animation)) is_nil;
  Fld "asset" doc_Asset set_doc_Asset c_Asset never;
  Fld "bufferViews" doc_BufferViews set_doc_BufferViews (c_slice None (c_ptr zero_BufferView c_BufferView)) is_nil;
  Fld "cameras" doc_Cameras set_doc_Cameras (c_slice None (c_ptr zero_Camera c_Camera)) is_nil;
  Fld "images" doc_Images set_doc_Images (c_slice None (c_ptr zero_Image c_Image)) is_nil;
  Fld "materials" doc_Materials set_doc_Materials (c_slice None (c_ptr zero_Material c_Material)) is_nil;
  Fld "meshes" doc_Meshes set_doc_Meshes (c_slice None (c_ptr zero_Mesh c_Mesh)) is_nil;
  Fld "nodes" doc_Nodes set_doc_Nodes (c_slice None (c_ptr zero_Node c_Node)) is_nil;
  Fld "samplers" doc_Samplers set_doc_Samplers (c_slice None (c_ptr zero_Sampler c_Sampler)) is_nil;
  Fld "scene" doc_Scene set_doc_Scene (c_ptr 0 c_int) is_none;
  Fld "scenes" doc_Scenes set_doc_Scenes (c_slice None (c_ptr zero_Scene c_Scene)) is_nil;
  Fld "skins" doc_Skins set_doc_Skins (c_slice None (c_ptr zero_Skin c_Skin)) is_nil;
  Fld "textures" doc_Textures set_doc_Textures (c_slice None (c_ptr zero_Texture c_Texture)) is_nil
].
Definition c_Document : codec Document :=
  mkCodec (enc_struct out_Document) (fun old j => dec_struct fields_Document old j).
End Params.
