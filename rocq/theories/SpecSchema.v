(** The JSON schema of glTF 2.0 (Khronos specification, appendix A), written
    down from the specification and not from the Go structs: names, kinds,
    required members, enumerations, lower bounds of integers and of item
    counts.  Left out: ranges of floating-point values, uniqueness of array
    items, string patterns, oneOf/not constraints between members, and
    multiples and upper bounds of byteStride. *)
From Verif Require Import Base Types Doc SpecText JsonText Codec SpecJson.

Inductive schema : Type :=
| SRaw                                  (* anything *)
| SFree                                 (* application data *)
| SBool | SNum | SStr
| SInt (lo : Z)                         (* an integer, at least lo *)
| SEnumZ (l : list Z)
| SEnum (l : list string)
| SList (lo : nat) (s : schema)         (* an array of at least lo items *)
| STuple (k : nat) (s : schema)         (* an array of k items *)
| SDict (lo : nat) (s : schema)         (* an object with at least lo members *)
| SObj (required optional : list (string * schema)).

(** An integer literal and its value: no fraction, no exponent; -0 is not
    counted as one. *)
Definition decimal (lit : string) (n : Z) : Prop :=
  exists ds, ds <> [] /\ Forall (fun d => 0 <= d < 10) ds /\
    let v := fold_left (fun a d => 10 * a + d) ds 0 in
    let t := map (fun d => z2b (48 + d)) ds in
    (str_bytes lit = t /\ n = v) \/ (str_bytes lit = "-"%char :: t /\ n = - v /\ n <> 0).

Section Conforms.
(** [num_ok]: the number literals admitted; [extra names k]: member [k] may be
    added to an object whose schema has the members [names]. *)
Context (num_ok : string -> Prop) (extra : list string -> string -> Prop).

Inductive free : json -> Prop :=
| fr_null : free JNull
| fr_bool b : free (JBool b)
| fr_num s : num_ok s -> free (JNum s)
| fr_str s : free (JStr s)
| fr_arr l : Forall free l -> free (JArr l)
| fr_obj m : Forall (fun p => free (snd p)) m -> free (JObj m).

Inductive conforms : schema -> json -> Prop :=
| cf_raw j : conforms SRaw j
| cf_free j : free j -> conforms SFree j
| cf_bool b : conforms SBool (JBool b)
| cf_num s : num_ok s -> conforms SNum (JNum s)
| cf_str s : conforms SStr (JStr s)
| cf_int lo s n : decimal s n -> lo <= n -> in_i64 n -> conforms (SInt lo) (JNum s)
| cf_enumz l s n : decimal s n -> In n l -> conforms (SEnumZ l) (JNum s)
| cf_enum l s v : unquote_str s = Some v -> In v l -> conforms (SEnum l) (JStr s)
| cf_list lo s l : (lo <= List.length l)%nat -> Forall (conforms s) l -> conforms (SList lo s) (JArr l)
| cf_tuple k s l : List.length l = k -> Forall (conforms s) l -> conforms (STuple k s) (JArr l)
| cf_dict lo s m : (lo <= List.length m)%nat -> Forall (fun p => conforms s (snd p)) m -> conforms (SDict lo s) (JObj m)
| cf_obj req opts m :
    NoDup (map (fun p => unquote_str (fst p)) m) ->
    Forall (fun r => exists p, In p m /\ unquote_str (fst p) = Some (fst r)) req ->
    Forall (fun p => exists k, unquote_str (fst p) = Some k /\
      ((exists s, In (k, s) (req ++ opts) /\ conforms s (snd p)) \/ extra (map fst (req ++ opts)) k)) m ->
    conforms (SObj req opts) (JObj m).
End Conforms.

(** ** glTF 2.0 *)
Local Open Scope string_scope.
Notation "k '=>>' s" := (k, s) (at level 60, only parsing).

Definition s_id : schema := SInt 0.
Definition s_property : list (string * schema) := ["extensions" =>> SDict 0 SRaw; "extras" =>> SFree].
Definition s_named : list (string * schema) := ("name" =>> SStr) :: s_property.

Definition s_asset := SObj ["version" =>> SStr]
  (["copyright" =>> SStr; "generator" =>> SStr; "minVersion" =>> SStr] ++ s_property)%list.
Definition s_sparse_values := SObj ["bufferView" =>> s_id] (("byteOffset" =>> SInt 0) :: s_property).
Definition s_sparse_indices := SObj ["bufferView" =>> s_id; "componentType" =>> SEnumZ [5121; 5123; 5125]%Z]
  (("byteOffset" =>> SInt 0) :: s_property).
Definition s_sparse := SObj ["count" =>> SInt 1; "indices" =>> s_sparse_indices; "values" =>> s_sparse_values] s_property.
Definition s_accessor := SObj
  ["componentType" =>> SEnumZ [5120; 5121; 5122; 5123; 5125; 5126]%Z; "count" =>> SInt 1;
   "type" =>> SEnum ["SCALAR"; "VEC2"; "VEC3"; "VEC4"; "MAT2"; "MAT3"; "MAT4"]]
  (["bufferView" =>> s_id; "byteOffset" =>> SInt 0; "normalized" =>> SBool;
    "max" =>> SList 1 SNum; "min" =>> SList 1 SNum; "sparse" =>> s_sparse] ++ s_named)%list.
Definition s_buffer := SObj ["byteLength" =>> SInt 1] (("uri" =>> SStr) :: s_named).
Definition s_bufferView := SObj ["buffer" =>> s_id; "byteLength" =>> SInt 1]
  (["byteOffset" =>> SInt 0; "byteStride" =>> SInt 4; "target" =>> SEnumZ [34962; 34963]%Z] ++ s_named)%list.
Definition s_scene := SObj [] (("nodes" =>> SList 1 s_id) :: s_named).
Definition s_node := SObj []
  (["camera" =>> s_id; "children" =>> SList 1 s_id; "skin" =>> s_id; "matrix" =>> STuple 16 SNum; "mesh" =>> s_id;
    "rotation" =>> STuple 4 SNum; "scale" =>> STuple 3 SNum; "translation" =>> STuple 3 SNum;
    "weights" =>> SList 1 SNum] ++ s_named)%list.
Definition s_skin := SObj ["joints" =>> SList 1 s_id]
  (["inverseBindMatrices" =>> s_id; "skeleton" =>> s_id] ++ s_named)%list.
Definition s_orthographic := SObj ["xmag" =>> SNum; "ymag" =>> SNum; "zfar" =>> SNum; "znear" =>> SNum] s_property.
Definition s_perspective := SObj ["yfov" =>> SNum; "znear" =>> SNum]
  (["aspectRatio" =>> SNum; "zfar" =>> SNum] ++ s_property)%list.
Definition s_camera := SObj ["type" =>> SEnum ["perspective"; "orthographic"]]
  (["orthographic" =>> s_orthographic; "perspective" =>> s_perspective] ++ s_named)%list.
Definition s_primitive := SObj ["attributes" =>> SDict 1 s_id]
  (["indices" =>> s_id; "material" =>> s_id; "mode" =>> SEnumZ [0; 1; 2; 3; 4; 5; 6]%Z;
    "targets" =>> SList 1 (SDict 1 s_id)] ++ s_property)%list.
Definition s_mesh := SObj ["primitives" =>> SList 1 s_primitive] (("weights" =>> SList 1 SNum) :: s_named).
Definition s_textureInfo := SObj ["index" =>> s_id] (("texCoord" =>> SInt 0) :: s_property).
Definition s_normalTexture := SObj ["index" =>> s_id] (["texCoord" =>> SInt 0; "scale" =>> SNum] ++ s_property)%list.
Definition s_occlusionTexture := SObj ["index" =>> s_id] (["texCoord" =>> SInt 0; "strength" =>> SNum] ++ s_property)%list.
Definition s_pbr := SObj []
  (["baseColorFactor" =>> STuple 4 SNum; "baseColorTexture" =>> s_textureInfo; "metallicFactor" =>> SNum;
    "roughnessFactor" =>> SNum; "metallicRoughnessTexture" =>> s_textureInfo] ++ s_property)%list.
Definition s_material := SObj []
  (["pbrMetallicRoughness" =>> s_pbr; "normalTexture" =>> s_normalTexture; "occlusionTexture" =>> s_occlusionTexture;
    "emissiveTexture" =>> s_textureInfo; "emissiveFactor" =>> STuple 3 SNum;
    "alphaMode" =>> SEnum ["OPAQUE"; "MASK"; "BLEND"]; "alphaCutoff" =>> SNum; "doubleSided" =>> SBool] ++ s_named)%list.
Definition s_texture := SObj [] (["sampler" =>> s_id; "source" =>> s_id] ++ s_named)%list.
Definition s_sampler := SObj []
  (["magFilter" =>> SEnumZ [9728; 9729]%Z; "minFilter" =>> SEnumZ [9728; 9729; 9984; 9985; 9986; 9987]%Z;
    "wrapS" =>> SEnumZ [33071; 33648; 10497]%Z; "wrapT" =>> SEnumZ [33071; 33648; 10497]%Z] ++ s_named)%list.
Definition s_image := SObj [] (["uri" =>> SStr; "mimeType" =>> SStr; "bufferView" =>> s_id] ++ s_named)%list.
Definition s_animationSampler := SObj ["input" =>> s_id; "output" =>> s_id]
  (("interpolation" =>> SEnum ["LINEAR"; "STEP"; "CUBICSPLINE"]) :: s_property).
Definition s_animationTarget := SObj ["path" =>> SEnum ["translation"; "rotation"; "scale"; "weights"]]
  (("node" =>> s_id) :: s_property).
Definition s_animationChannel := SObj ["sampler" =>> s_id; "target" =>> s_animationTarget] s_property.
Definition s_animation := SObj ["channels" =>> SList 1 s_animationChannel; "samplers" =>> SList 1 s_animationSampler] s_named.
Definition s_gltf := SObj ["asset" =>> s_asset]
  (["extensionsUsed" =>> SList 1 SStr; "extensionsRequired" =>> SList 1 SStr; "accessors" =>> SList 1 s_accessor;
    "animations" =>> SList 1 s_animation; "buffers" =>> SList 1 s_buffer; "bufferViews" =>> SList 1 s_bufferView;
    "cameras" =>> SList 1 s_camera; "images" =>> SList 1 s_image; "materials" =>> SList 1 s_material;
    "meshes" =>> SList 1 s_mesh; "nodes" =>> SList 1 s_node; "samplers" =>> SList 1 s_sampler; "scene" =>> s_id;
    "scenes" =>> SList 1 s_scene; "skins" =>> SList 1 s_skin; "textures" =>> SList 1 s_texture] ++ s_property)%list.

(** ** Documents with the values the schema asks for *)
Local Open Scope Z_scope.
Definition index (i : Z) : Prop := 0 <= i.
Definition present {A} (P : A -> Prop) (o : option A) : Prop := match o with Some a => P a | None => False end.
Definition filled_attrs (o : option (list (string * Z))) : Prop :=
  present (fun m => m <> [] /\ Forall (fun p => index (snd p)) m) o.
Definition r_sparse (s : Sparse) : Prop :=
  1 <= spa_Count s /\ index (spi_BufferView (spa_Indices s)) /\ 0 <= spi_ByteOffset (spa_Indices s) /\
  In (spi_ComponentType (spa_Indices s)) [CUbyte; CUshort; CUint] /\
  index (spv_BufferView (spa_Values s)) /\ 0 <= spv_ByteOffset (spa_Values s).
Definition r_accessor (a : Accessor) : Prop :=
  opt index (acr_BufferView a) /\ 0 <= acr_ByteOffset a /\ 1 <= acr_Count a /\ opt r_sparse (acr_Sparse a).
Definition r_buffer (b : Buffer) : Prop := 1 <= buf_ByteLength b.
Definition r_bufferView (b : BufferView) : Prop :=
  index (bvw_Buffer b) /\ 0 <= bvw_ByteOffset b /\ 1 <= bvw_ByteLength b /\
  (bvw_ByteStride b = 0 \/ 4 <= bvw_ByteStride b) /\ In (bvw_Target b) [0; 34962; 34963].
Definition r_scene (s : Scene) : Prop := Forall index (scn_Nodes s).
Definition r_node (x : Node) : Prop :=
  opt index (nod_Camera x) /\ Forall index (nod_Children x) /\ opt index (nod_Skin x) /\ opt index (nod_Mesh x).
Definition r_skin (s : Skin) : Prop :=
  opt index (skn_InverseBindMatrices s) /\ opt index (skn_Skeleton s) /\
  present (fun l => l <> [] /\ Forall index l) (skn_Joints s).
Definition r_primitive (p : Primitive) : Prop :=
  filled_attrs (pri_Attributes p) /\ opt index (pri_Indices p) /\ opt index (pri_Material p) /\
  Forall filled_attrs (pri_Targets p).
Definition r_mesh (m : Mesh) : Prop :=
  present (fun l => l <> [] /\ Forall (present r_primitive) l) (msh_Primitives m).
Definition r_textureInfo (t : TextureInfo) : Prop := index (txi_Index t) /\ 0 <= txi_TexCoord t.
Definition r_normalTexture (t : NormalTexture) : Prop := present index (ntx_Index t) /\ 0 <= ntx_TexCoord t.
Definition r_occlusionTexture (t : OcclusionTexture) : Prop := present index (otx_Index t) /\ 0 <= otx_TexCoord t.
Definition r_pbr (p : PBRMetallicRoughness) : Prop :=
  opt r_textureInfo (pbr_BaseColorTexture p) /\ opt r_textureInfo (pbr_MetallicRoughnessTexture p).
Definition r_material (m : Material) : Prop :=
  opt r_pbr (mat_PBRMetallicRoughness m) /\ opt r_normalTexture (mat_NormalTexture m) /\
  opt r_occlusionTexture (mat_OcclusionTexture m) /\ opt r_textureInfo (mat_EmissiveTexture m).
Definition r_texture (t : Texture) : Prop := opt index (txt_Sampler t) /\ opt index (txt_Source t).
Definition r_image (i : Image) : Prop := opt index (img_BufferView i).
Definition r_animationSampler (s : AnimationSampler) : Prop := index (ans_Input s) /\ index (ans_Output s).
Definition r_animationChannel (c : AnimationChannel) : Prop :=
  index (anc_Sampler c) /\ opt index (act_Node (anc_Target c)).
Definition r_animation (a : Animation) : Prop :=
  present (fun l => l <> [] /\ Forall (present r_animationChannel) l) (ani_Channels a) /\
  present (fun l => l <> [] /\ Forall (present r_animationSampler) l) (ani_Samplers a).
(** Every element of the lists is there, indices are not negative, counts and
    lengths are positive, required arrays are not empty. *)
Definition ready (d : Document) : Prop :=
  Forall (present r_accessor) (doc_Accessors d) /\ Forall (present r_animation) (doc_Animations d) /\
  Forall (present r_buffer) (doc_Buffers d) /\ Forall (present r_bufferView) (doc_BufferViews d) /\
  Forall (present (fun _ => True)) (doc_Cameras d) /\ Forall (present r_image) (doc_Images d) /\
  Forall (present r_material) (doc_Materials d) /\ Forall (present r_mesh) (doc_Meshes d) /\
  Forall (present r_node) (doc_Nodes d) /\ Forall (present (fun _ => True)) (doc_Samplers d) /\
  opt index (doc_Scene d) /\ Forall (present r_scene) (doc_Scenes d) /\ Forall (present r_skin) (doc_Skins d) /\
  Forall (present r_texture) (doc_Textures d).
