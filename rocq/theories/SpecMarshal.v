(** Specification of the written document, of decoded optional values, of
    extension objects, and the glTF names of the enumerations. *)
From Verif Require Import Base Types Doc F64 SpecText JsonText Codec SpecJson SpecJsonDoc SpecData.

(** ** Buffers are embedded *)
(** A buffer with data and without a URI carries its data in the URI, except
    the first one of a binary file. *)
Definition embedded_buffer (asBinary : bool) (i : nat) (b : Buffer) : Buffer :=
  match buf_Data b, buf_URI b with
  | _ :: _, EmptyString =>
      if asBinary && (i =? 0)%nat then b
      else mkBuffer (buf_Extensions b) (buf_Extras b) (buf_Name b)
             (data_uri "application/octet-stream" (buf_Data b)) (buf_ByteLength b) (buf_Data b)
  | _, _ => b
  end.
Definition embedded_buffers (asBinary : bool) (l : list (option Buffer)) : list (option Buffer) :=
  map (fun p => option_map (embedded_buffer asBinary (fst p)) (snd p)) (combine (seq 0 (List.length l)) l).
Definition embedded (asBinary : bool) (d : Document) : Document :=
  mkDocument (doc_Extensions d) (doc_Extras d) (doc_ExtensionsUsed d) (doc_ExtensionsRequired d)
    (doc_Accessors d) (doc_Animations d) (doc_Asset d) (embedded_buffers asBinary (doc_Buffers d))
    (doc_BufferViews d) (doc_Cameras d) (doc_Images d) (doc_Materials d) (doc_Meshes d) (doc_Nodes d)
    (doc_Samplers d) (doc_Scene d) (doc_Scenes d) (doc_Skins d) (doc_Textures d).

(** ** Optional values *)
Inductive no_null : json -> Prop :=
| nn_bool b : no_null (JBool b)
| nn_num s : no_null (JNum s)
| nn_str s : no_null (JStr s)
| nn_arr l : Forall no_null l -> no_null (JArr l)
| nn_obj m : Forall (fun p => no_null (snd p)) m -> no_null (JObj m).

Definition filled_pbr (p : PBRMetallicRoughness) : Prop :=
  pbr_BaseColorFactor p <> None /\ pbr_MetallicFactor p <> None /\ pbr_RoughnessFactor p <> None.
Definition filled_material (m : Material) : Prop :=
  mat_AlphaCutoff m <> None /\
  opt filled_pbr (mat_PBRMetallicRoughness m) /\
  opt (fun t => ntx_Scale t <> None) (mat_NormalTexture m) /\
  opt (fun t => otx_Strength t <> None) (mat_OcclusionTexture m).
Definition filled (d : Document) : Prop := Forall (opt filled_material) (doc_Materials d).

(** ** Extension objects *)
(** [j] is the value of the last member called [k]. *)
Definition last_member (m : list (string * json)) (k : string) (j : json) : Prop :=
  exists m1 raw m2, m = m1 ++ (raw, j) :: m2 /\ unquote_str raw = Some k /\
    Forall (fun p => unquote_str (fst p) <> Some k) m2.
Definition absent (m : list (string * json)) (k : string) : Prop :=
  Forall (fun p => unquote_str (fst p) <> Some k) m.
Definition payload (reg : option (json -> res any)) (j : json) : extv :=
  match reg with
  | None => ERaw j
  | Some factory => match factory j with Ok v => EVal v | _ => ERaw j end
  end.

(** ** Enumerations: the values of the Go constants and their glTF 2.0 forms *)
Definition num (s : string) : json := JNum s.
Definition str (s : string) : json := JStr s.
Definition gltf_component_types : list (ComponentType * json) :=
  [(CByte, num "5120"); (CUbyte, num "5121"); (CShort, num "5122"); (CUshort, num "5123");
   (CUint, num "5125"); (CFloat, num "5126")].
Definition gltf_accessor_types : list (AccessorType * json) :=
  [(AScalar, str "SCALAR"); (AVec2, str "VEC2"); (AVec3, str "VEC3"); (AVec4, str "VEC4");
   (AMat2, str "MAT2"); (AMat3, str "MAT3"); (AMat4, str "MAT4")].
(** Constants in declaration order: Triangles, Points, Lines, LineLoop,
    LineStrip, TriangleStrip, TriangleFan. *)
Definition gltf_modes : list (Z * json) :=
  [(0, num "4"); (1, num "0"); (2, num "1"); (3, num "2"); (4, num "3"); (5, num "5"); (6, num "6")].
(** Opaque, Mask, Blend *)
Definition gltf_alpha_modes : list (Z * json) := [(0, str "OPAQUE"); (1, str "MASK"); (2, str "BLEND")].
(** Undefined, Linear, Nearest *)
Definition gltf_mag_filters : list (Z * json) := [(0, num "0"); (1, num "9729"); (2, num "9728")].
(** Undefined, Linear, NearestMipMapLinear, Nearest, NearestMipMapNearest,
    LinearMipMapNearest, LinearMipMapLinear *)
Definition gltf_min_filters : list (Z * json) :=
  [(0, num "0"); (1, num "9729"); (2, num "9986"); (3, num "9728"); (4, num "9984"); (5, num "9985"); (6, num "9987")].
(** Repeat, ClampToEdge, MirroredRepeat *)
Definition gltf_wraps : list (Z * json) := [(0, num "10497"); (1, num "33071"); (2, num "33648")].
(** Linear, Step, CubicSpline *)
Definition gltf_interpolations : list (Z * json) := [(0, str "LINEAR"); (1, str "STEP"); (2, str "CUBICSPLINE")].
(** Translation, Rotation, Scale, Weights *)
Definition gltf_paths : list (Z * json) :=
  [(0, str "translation"); (1, str "rotation"); (2, str "scale"); (3, str "weights")].
