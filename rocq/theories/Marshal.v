(** Encoder.marshalJSONDoc, the JSON part of Decoder.Decode, the OrDefault
    methods. *)
From Verif Require Import Base Types Doc F64 Base64 JsonText Codec DocCodec.

Section Marshal.
Context (F : float_lib) (X : ext_lib).

(** encode.go:208-227, one turn of the loop; a nil buffer is dereferenced. *)
Definition custom_buffer (asBinary : bool) (i : nat) (ob : option Buffer) : res (option Buffer) :=
  match ob with
  | None => Panic
  | Some b =>
      if (i =? 0)%nat && asBinary && str_empty (buf_URI b) then Ok (Some b)
      else if negb (is_nil (buf_Data b)) && str_empty (buf_URI b) && negb (buf_IsEmbeddedResource b) then
        Ok (Some (buf_EmbeddedResource
          (mkBuffer (buf_Extensions b) (buf_Extras b) (buf_Name b) "" (buf_ByteLength b) (buf_Data b))))
      else Ok (Some b)
  end.
Fixpoint custom_buffers (asBinary : bool) (i : nat) (l : list (option Buffer)) : res (list (option Buffer)) :=
  match l with
  | [] => Ok []
  | b :: l' =>
      b' <- custom_buffer asBinary i b ;;
      r <- custom_buffers asBinary (S i) l' ;;
      Ok (b' :: r)
  end.

(** encode.go:197-232; the encoder writes to temporary structs, never to [doc] *)
Definition marshal_tree (asBinary : bool) (doc : Document) : res json :=
  bs <- custom_buffers asBinary 0 (doc_Buffers doc) ;;
  enc (c_Document F X) (set_doc_Buffers bs doc).
Definition marshalJSONDoc (asBinary : bool) (prefix indent : bytes) (doc : Document) : res bytes :=
  j <- marshal_tree asBinary doc ;;
  Ok (if negb (is_nil prefix) || negb (is_nil indent) then print_indent prefix indent j
      else print_compact j).

(** json.NewDecoder(r).Decode(&doc) on the whole stream (decoder.go:95-114):
    the value that comes first, stored into [old], and what is left. *)
Definition json_decode {A} (c : codec A) (old : A) (text : bytes) : res (A * bytes) :=
  match scan start text with
  | Done v rest => y <- dec c old v ;; Ok (y, rest)
  | More cf =>
      match at_eof cf with
      | Some v => y <- dec c old v ;; Ok (y, [])
      | None => Err (ErrMsg "unexpected EOF")
      end
  | Syntax => Err (ErrMsg "invalid character")
  end.
End Marshal.

(** gltf.go:184-211 *)
Definition MatrixOrDefault (n : Node) : list Z :=
  if arr_eq (nod_Matrix n) (repeat 0 16) then DefaultMatrix else nod_Matrix n.
Definition RotationOrDefault (n : Node) : list Z :=
  if arr_eq (nod_Rotation n) (repeat 0 4) then DefaultRotation else nod_Rotation n.
Definition ScaleOrDefault (n : Node) : list Z :=
  if arr_eq (nod_Scale n) (repeat 0 3) then DefaultScale else nod_Scale n.
Definition TranslationOrDefault (n : Node) : list Z := nod_Translation n.
(** gltf.go:287-293 *)
Definition AlphaCutoffOrDefault (m : Material) : Z :=
  match mat_AlphaCutoff m with None => f64_half | Some v => v end.
(** gltf.go:304-310 *)
Definition NormalScaleOrDefault (t : NormalTexture) : Z :=
  match ntx_Scale t with None => f64_one | Some v => v end.
(** gltf.go:321-327 *)
Definition StrengthOrDefault (t : OcclusionTexture) : Z :=
  match otx_Strength t with None => f64_one | Some v => v end.
(** gltf.go:340-361 *)
Definition MetallicFactorOrDefault (p : PBRMetallicRoughness) : Z :=
  match pbr_MetallicFactor p with None => f64_one | Some v => v end.
Definition RoughnessFactorOrDefault (p : PBRMetallicRoughness) : Z :=
  match pbr_RoughnessFactor p with None => f64_one | Some v => v end.
Definition BaseColorFactorOrDefault (p : PBRMetallicRoughness) : list Z :=
  match pbr_BaseColorFactor p with None => repeat f64_one 4 | Some v => v end.
