(** What a glTF JSON text says: the relation between a document and the JSON
    tree it stands for, written down from the glTF 2.0 specification: the
    member each property has, the kind of value, the enumerations, and the
    defaults of the specification for the members that are absent. *)
From Verif Require Import Base Types Doc SpecText SpecString JsonText Codec SpecJson SpecSchema.

Definition meaning (A : Type) : Type := A -> json -> Prop.

(** The string literal [raw] stands for the text [s]. *)
Definition says (raw s : string) : Prop := exists rs, denotes (str_bytes raw) rs /\ str_bytes s = flat_map utf8 rs.
(** The last member of that name, and that there is none. *)
Definition member (k : string) (ms : list (string * json)) (v : json) : Prop :=
  exists a raw b, ms = a ++ (raw, v) :: b /\ says raw k /\ Forall (fun p => ~ says (fst p) k) b.
Definition no_member (k : string) (ms : list (string * json)) : Prop := Forall (fun p => ~ says (fst p) k) ms.

Definition m_str : meaning string := fun s j => exists raw, j = JStr raw /\ says raw s.
Definition m_bool : meaning bool := fun b j => j = JBool b.
Definition m_int : meaning Z := fun n j => exists lit, j = JNum lit /\ decimal lit n.
Definition m_some {A} (r : meaning A) : meaning (option A) := fun o j => exists a, o = Some a /\ r a j.
Definition m_list {A} (r : meaning A) : meaning (list A) := fun l j => exists js, j = JArr js /\ Forall2 r l js.
Definition m_code {A} (tbl : list (A * Z)) : meaning A := fun a j => exists n, In (a, n) tbl /\ m_int n j.
Definition m_word {A} (tbl : list (A * string)) : meaning A := fun a j => exists s, In (a, s) tbl /\ m_str s j.
(** A map with string keys, kept in the order of the keys. *)
Definition dict_of {A} (r : string -> meaning A) (m : list (string * A)) (ms : list (string * json)) : Prop :=
  sorted_keys m /\ (forall k a, In (k, a) m -> exists v, member k ms v /\ r k a v) /\
  (forall k, ~ In k (map fst m) -> no_member k ms).
Definition m_dict {A} (r : string -> meaning A) : meaning (list (string * A)) := fun m j => exists ms, j = JObj ms /\ dict_of r m ms.

(** A property: its name, the field, what the member says, and what the field
    is when there is no such member. *)
Inductive property (T : Type) : Type :=
| Prp {A : Type} (name : string) (get : T -> A) (r : meaning A) (absent : A -> Prop).
Arguments Prp {T A} name get r absent.
Definition property_holds {T} (x : T) (ms : list (string * json)) (e : property T) : Prop :=
  match e with
  | Prp name get r absent => (exists v, member name ms v /\ r (get x) v) \/ (no_member name ms /\ absent (get x))
  end.
Definition m_obj {T} (es : list (property T)) : meaning T := fun x j => exists ms, j = JObj ms /\ Forall (property_holds x ms) es.
Definition needed {A} (_ : A) : Prop := False.

(** ** Constants of the specification *)
Definition m_componentType := m_code [(CByte, 5120); (CUbyte, 5121); (CShort, 5122); (CUshort, 5123); (CUint, 5125); (CFloat, 5126)].
Definition m_accessorType := m_word [(AScalar, "SCALAR"); (AVec2, "VEC2"); (AVec3, "VEC3"); (AVec4, "VEC4"); (AMat2, "MAT2"); (AMat3, "MAT3"); (AMat4, "MAT4")]%string.
(** The Go constants: const.go:153-160 *)
Definition m_target := m_code [(34962, 34962); (34963, 34963)].
(** const.go:165-181: PrimitiveTriangles, Points, Lines, LineLoop, LineStrip, TriangleStrip, TriangleFan *)
Definition TRIANGLES := 0. Definition POINTS := 1. Definition LINES := 2. Definition LINE_LOOP := 3. Definition LINE_STRIP := 4.
Definition TRIANGLE_STRIP := 5. Definition TRIANGLE_FAN := 6.
Definition m_mode := m_code [(POINTS, 0); (LINES, 1); (LINE_LOOP, 2); (LINE_STRIP, 3); (TRIANGLES, 4); (TRIANGLE_STRIP, 5); (TRIANGLE_FAN, 6)].
(** const.go:209-220: AlphaOpaque, AlphaMask, AlphaBlend *)
Definition m_alphaMode := m_word [(0, "OPAQUE"); (1, "MASK"); (2, "BLEND")]%string.
(** const.go:243-253: MagUndefined, MagLinear, MagNearest *)
Definition m_magFilter := m_code [(2, 9728); (1, 9729)].
(** const.go:274-291: MinUndefined, MinLinear, MinNearestMipMapLinear, MinNearest, MinNearestMipMapNearest,
    MinLinearMipMapNearest, MinLinearMipMapLinear; 9984 NEAREST_MIPMAP_NEAREST, 9985 LINEAR_MIPMAP_NEAREST,
    9986 NEAREST_MIPMAP_LINEAR, 9987 LINEAR_MIPMAP_LINEAR *)
Definition m_minFilter := m_code [(3, 9728); (1, 9729); (4, 9984); (5, 9985); (2, 9986); (6, 9987)].
(** const.go:317-327: WrapRepeat, WrapClampToEdge, WrapMirroredRepeat *)
Definition m_wrap := m_code [(1, 33071); (2, 33648); (0, 10497)].
(** const.go:348-358: InterpolationLinear, Step, CubicSpline *)
Definition m_interpolation := m_word [(0, "LINEAR"); (1, "STEP"); (2, "CUBICSPLINE")]%string.
(** const.go:380-393: TRSTranslation, Rotation, Scale, Weights *)
Definition m_path := m_word [(0, "translation"); (1, "rotation"); (2, "scale"); (3, "weights")]%string.

Definition one : Z := 0x3FF0000000000000.      (* 1.0 *)
Definition half : Z := 0x3FE0000000000000.     (* 0.5 *)
Definition is_zero (n : Z) : Prop := n = 0.
Definition nothing {A} (o : option A) : Prop := o = None.
Definition empty_list {A} (l : list A) : Prop := l = [].
Definition no_text (s : string) : Prop := s = ""%string.

Section Params.
Context (F : float_lib) (X : ext_lib).
Definition m_num : meaning Z := fun x j => exists lit, j = JNum lit /\ parse64 F lit = Some x.
Inductive m_any : meaning any :=
| ma_null : m_any VNull JNull
| ma_bool b : m_any (VBool b) (JBool b)
| ma_num x lit : parse64 F lit = Some x -> m_any (VNum x) (JNum lit)
| ma_str s raw : says raw s -> m_any (VStr s) (JStr raw)
| ma_arr l js : Forall2 m_any l js -> m_any (VArr l) (JArr js)
| ma_obj m ms : sorted_keys m -> (forall k a, In (k, a) m -> exists v, member k ms v /\ m_any a v) ->
    (forall k, ~ In k (map fst m) -> no_member k ms) -> m_any (VObj m) (JObj ms).
(** The registered decoder makes the value of an extension; without one, or
    when it fails, the value is the JSON. *)
Definition m_extv (k : string) : meaning extv := fun e j =>
  match registry X k with
  | Some f => (exists v, f j = Ok v /\ e = EVal v) \/ (exists err, f j = Err err /\ e = ERaw j)
  | None => e = ERaw j
  end.

Local Open Scope string_scope.
Definition extensible {T} (ext : T -> Extensions) (extras : T -> any) : list (property T) :=
  [Prp "extensions" ext (m_dict m_extv) empty_list; Prp "extras" extras m_any (fun v => v = VNull)].
Definition m_attributes : meaning (option (list (string * Z))) := m_some (m_dict (fun _ => m_int)).
Definition m_all {A} (r : meaning A) : meaning (list (option A)) := m_list (m_some r).

Definition m_asset : meaning Asset := m_obj
  ([Prp "version" ast_Version m_str needed; Prp "minVersion" ast_MinVersion m_str no_text;
    Prp "copyright" ast_Copyright m_str no_text; Prp "generator" ast_Generator m_str no_text] ++ extensible ast_Extensions ast_Extras)%list.
Definition m_sparse_values : meaning SparseValues := m_obj
  ([Prp "bufferView" spv_BufferView m_int needed; Prp "byteOffset" spv_ByteOffset m_int is_zero] ++ extensible spv_Extensions spv_Extras)%list.
Definition m_sparse_indices : meaning SparseIndices := m_obj
  ([Prp "bufferView" spi_BufferView m_int needed; Prp "byteOffset" spi_ByteOffset m_int is_zero;
    Prp "componentType" spi_ComponentType m_componentType needed] ++ extensible spi_Extensions spi_Extras)%list.
Definition m_sparse : meaning Sparse := m_obj
  ([Prp "count" spa_Count m_int needed; Prp "indices" spa_Indices m_sparse_indices needed;
    Prp "values" spa_Values m_sparse_values needed] ++ extensible spa_Extensions spa_Extras)%list.
Definition m_accessor : meaning Accessor := m_obj
  ([Prp "name" acr_Name m_str no_text; Prp "bufferView" acr_BufferView (m_some m_int) nothing;
    Prp "byteOffset" acr_ByteOffset m_int is_zero; Prp "componentType" acr_ComponentType m_componentType needed;
    Prp "normalized" acr_Normalized m_bool (fun b => b = false); Prp "count" acr_Count m_int needed;
    Prp "type" acr_Type m_accessorType needed; Prp "max" acr_Max (m_list m_num) empty_list;
    Prp "min" acr_Min (m_list m_num) empty_list; Prp "sparse" acr_Sparse (m_some m_sparse) nothing]
   ++ extensible acr_Extensions acr_Extras)%list.
Definition m_buffer : meaning Buffer := m_obj
  ([Prp "name" buf_Name m_str no_text; Prp "uri" buf_URI m_str no_text; Prp "byteLength" buf_ByteLength m_int needed]
   ++ extensible buf_Extensions buf_Extras)%list.
Definition m_bufferView : meaning BufferView := m_obj
  ([Prp "name" bvw_Name m_str no_text; Prp "buffer" bvw_Buffer m_int needed; Prp "byteOffset" bvw_ByteOffset m_int is_zero;
    Prp "byteLength" bvw_ByteLength m_int needed; Prp "byteStride" bvw_ByteStride m_int is_zero;
    Prp "target" bvw_Target m_target is_zero] ++ extensible bvw_Extensions bvw_Extras)%list.
Definition m_scene : meaning Scene := m_obj
  ([Prp "name" scn_Name m_str no_text; Prp "nodes" scn_Nodes (m_list m_int) empty_list] ++ extensible scn_Extensions scn_Extras)%list.
Definition m_node : meaning Node := m_obj
  ([Prp "name" nod_Name m_str no_text; Prp "camera" nod_Camera (m_some m_int) nothing;
    Prp "children" nod_Children (m_list m_int) empty_list; Prp "skin" nod_Skin (m_some m_int) nothing;
    Prp "matrix" nod_Matrix (m_list m_num) (fun l => l = [one; 0; 0; 0; 0; one; 0; 0; 0; 0; one; 0; 0; 0; 0; one]%Z);
    Prp "mesh" nod_Mesh (m_some m_int) nothing; Prp "rotation" nod_Rotation (m_list m_num) (fun l => l = [0; 0; 0; one]%Z);
    Prp "scale" nod_Scale (m_list m_num) (fun l => l = [one; one; one]);
    Prp "translation" nod_Translation (m_list m_num) (fun l => l = [0; 0; 0]%Z);
    Prp "weights" nod_Weights (m_list m_num) empty_list] ++ extensible nod_Extensions nod_Extras)%list.
Definition m_skin : meaning Skin := m_obj
  ([Prp "name" skn_Name m_str no_text; Prp "inverseBindMatrices" skn_InverseBindMatrices (m_some m_int) nothing;
    Prp "skeleton" skn_Skeleton (m_some m_int) nothing; Prp "joints" skn_Joints (m_some (m_list m_int)) needed]
   ++ extensible skn_Extensions skn_Extras)%list.
Definition m_orthographic : meaning Orthographic := m_obj
  ([Prp "xmag" ort_Xmag m_num needed; Prp "ymag" ort_Ymag m_num needed; Prp "zfar" ort_Zfar m_num needed;
    Prp "znear" ort_Znear m_num needed] ++ extensible ort_Extensions ort_Extras)%list.
Definition m_perspective : meaning Perspective := m_obj
  ([Prp "aspectRatio" per_AspectRatio (m_some m_num) nothing; Prp "yfov" per_Yfov m_num needed;
    Prp "zfar" per_Zfar (m_some m_num) nothing; Prp "znear" per_Znear m_num needed] ++ extensible per_Extensions per_Extras)%list.
Definition m_camera : meaning Camera := m_obj
  ([Prp "name" cam_Name m_str no_text; Prp "orthographic" cam_Orthographic (m_some m_orthographic) nothing;
    Prp "perspective" cam_Perspective (m_some m_perspective) nothing] ++ extensible cam_Extensions cam_Extras)%list.
Definition m_primitive : meaning Primitive := m_obj
  ([Prp "attributes" pri_Attributes m_attributes needed; Prp "indices" pri_Indices (m_some m_int) nothing;
    Prp "material" pri_Material (m_some m_int) nothing; Prp "mode" pri_Mode m_mode (fun m => m = TRIANGLES);
    Prp "targets" pri_Targets (m_list m_attributes) empty_list] ++ extensible pri_Extensions pri_Extras)%list.
Definition m_mesh : meaning Mesh := m_obj
  ([Prp "name" msh_Name m_str no_text; Prp "primitives" msh_Primitives (m_some (m_all m_primitive)) needed;
    Prp "weights" msh_Weights (m_list m_num) empty_list] ++ extensible msh_Extensions msh_Extras)%list.
Definition m_textureInfo : meaning TextureInfo := m_obj
  ([Prp "index" txi_Index m_int needed; Prp "texCoord" txi_TexCoord m_int is_zero] ++ extensible txi_Extensions txi_Extras)%list.
Definition m_normalTexture : meaning NormalTexture := m_obj
  ([Prp "index" ntx_Index (m_some m_int) needed; Prp "texCoord" ntx_TexCoord m_int is_zero;
    Prp "scale" ntx_Scale (m_some m_num) (fun o => o = Some one)] ++ extensible ntx_Extensions ntx_Extras)%list.
Definition m_occlusionTexture : meaning OcclusionTexture := m_obj
  ([Prp "index" otx_Index (m_some m_int) needed; Prp "texCoord" otx_TexCoord m_int is_zero;
    Prp "strength" otx_Strength (m_some m_num) (fun o => o = Some one)] ++ extensible otx_Extensions otx_Extras)%list.
Definition m_pbr : meaning PBRMetallicRoughness := m_obj
  ([Prp "baseColorFactor" pbr_BaseColorFactor (m_some (m_list m_num)) (fun o => o = Some [one; one; one; one]);
    Prp "baseColorTexture" pbr_BaseColorTexture (m_some m_textureInfo) nothing;
    Prp "metallicFactor" pbr_MetallicFactor (m_some m_num) (fun o => o = Some one);
    Prp "roughnessFactor" pbr_RoughnessFactor (m_some m_num) (fun o => o = Some one);
    Prp "metallicRoughnessTexture" pbr_MetallicRoughnessTexture (m_some m_textureInfo) nothing]
   ++ extensible pbr_Extensions pbr_Extras)%list.
Definition m_material : meaning Material := m_obj
  ([Prp "name" mat_Name m_str no_text; Prp "pbrMetallicRoughness" mat_PBRMetallicRoughness (m_some m_pbr) nothing;
    Prp "normalTexture" mat_NormalTexture (m_some m_normalTexture) nothing;
    Prp "occlusionTexture" mat_OcclusionTexture (m_some m_occlusionTexture) nothing;
    Prp "emissiveTexture" mat_EmissiveTexture (m_some m_textureInfo) nothing;
    Prp "emissiveFactor" mat_EmissiveFactor (m_list m_num) (fun l => l = [0; 0; 0]%Z);
    Prp "alphaMode" mat_AlphaMode m_alphaMode (fun m => m = 0%Z (* OPAQUE *));
    Prp "alphaCutoff" mat_AlphaCutoff (m_some m_num) (fun o => o = Some half);
    Prp "doubleSided" mat_DoubleSided m_bool (fun b => b = false)] ++ extensible mat_Extensions mat_Extras)%list.
Definition m_texture : meaning Texture := m_obj
  ([Prp "name" txt_Name m_str no_text; Prp "sampler" txt_Sampler (m_some m_int) nothing;
    Prp "source" txt_Source (m_some m_int) nothing] ++ extensible txt_Extensions txt_Extras)%list.
Definition m_sampler : meaning Sampler := m_obj
  ([Prp "name" smp_Name m_str no_text; Prp "magFilter" smp_MagFilter m_magFilter is_zero; Prp "minFilter" smp_MinFilter m_minFilter is_zero;
    Prp "wrapS" smp_WrapS m_wrap (fun w => w = 0%Z (* REPEAT *)); Prp "wrapT" smp_WrapT m_wrap (fun w => w = 0%Z)]
   ++ extensible smp_Extensions smp_Extras)%list.
Definition m_image : meaning Image := m_obj
  ([Prp "name" img_Name m_str no_text; Prp "uri" img_URI m_str no_text; Prp "mimeType" img_MimeType m_str no_text;
    Prp "bufferView" img_BufferView (m_some m_int) nothing] ++ extensible img_Extensions img_Extras)%list.
Definition m_animationSampler : meaning AnimationSampler := m_obj
  ([Prp "input" ans_Input m_int needed; Prp "interpolation" ans_Interpolation m_interpolation (fun i => i = 0%Z (* LINEAR *));
    Prp "output" ans_Output m_int needed] ++ extensible ans_Extensions ans_Extras)%list.
Definition m_animationTarget : meaning AnimationChannelTarget := m_obj
  ([Prp "node" act_Node (m_some m_int) nothing; Prp "path" act_Path m_path needed] ++ extensible act_Extensions act_Extras)%list.
Definition m_animationChannel : meaning AnimationChannel := m_obj
  ([Prp "sampler" anc_Sampler m_int needed; Prp "target" anc_Target m_animationTarget needed] ++ extensible anc_Extensions anc_Extras)%list.
Definition m_animation : meaning Animation := m_obj
  ([Prp "name" ani_Name m_str no_text; Prp "channels" ani_Channels (m_some (m_all m_animationChannel)) needed;
    Prp "samplers" ani_Samplers (m_some (m_all m_animationSampler)) needed] ++ extensible ani_Extensions ani_Extras)%list.
Definition m_gltf : meaning Document := m_obj
  ([Prp "asset" doc_Asset m_asset needed; Prp "extensionsUsed" doc_ExtensionsUsed (m_list m_str) empty_list;
    Prp "extensionsRequired" doc_ExtensionsRequired (m_list m_str) empty_list;
    Prp "accessors" doc_Accessors (m_all m_accessor) empty_list; Prp "animations" doc_Animations (m_all m_animation) empty_list;
    Prp "buffers" doc_Buffers (m_all m_buffer) empty_list; Prp "bufferViews" doc_BufferViews (m_all m_bufferView) empty_list;
    Prp "cameras" doc_Cameras (m_all m_camera) empty_list; Prp "images" doc_Images (m_all m_image) empty_list;
    Prp "materials" doc_Materials (m_all m_material) empty_list; Prp "meshes" doc_Meshes (m_all m_mesh) empty_list;
    Prp "nodes" doc_Nodes (m_all m_node) empty_list; Prp "samplers" doc_Samplers (m_all m_sampler) empty_list;
    Prp "scene" doc_Scene (m_some m_int) nothing; Prp "scenes" doc_Scenes (m_all m_scene) empty_list;
    Prp "skins" doc_Skins (m_all m_skin) empty_list; Prp "textures" doc_Textures (m_all m_texture) empty_list]
   ++ extensible doc_Extensions doc_Extras)%list.
End Params.
