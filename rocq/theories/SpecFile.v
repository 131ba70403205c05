(** Specification of GLB files (glTF 2.0, section 4.4), of what a stored
    document reads back as, and of which documents can be stored. *)
From Verif Require Import Base Types Doc F64 SpecText SpecPath JsonText Codec SpecJson SpecJsonDoc SpecData SpecMarshal.

(** A 32-bit little-endian word. *)
Definition word (n : Z) : bytes := [z2b n; z2b (n / 256); z2b (n / 65536); z2b (n / 16777216)].

(** A chunk: its padded length, its kind, the data and the padding. *)
Definition glb_chunk (kind : bytes) (pad : byte) (data chunk : bytes) : Prop :=
  exists k, (k < 4)%nat /\ (zlen data + Z.of_nat k) mod 4 = 0 /\
    chunk = word (zlen data + Z.of_nat k) ++ kind ++ data ++ repeat pad k.
Definition kind_json : bytes := str_bytes "JSON".
Definition kind_bin : bytes := str_bytes "BIN" ++ [z2b 0].

(** A file with a JSON chunk and possibly a BIN chunk. *)
Definition glb_file (json : bytes) (bin : option bytes) (out : bytes) : Prop :=
  exists jc bc,
    glb_chunk kind_json (z2b 32) json jc /\
    match bin with Some data => glb_chunk kind_bin (z2b 0) data bc | None => bc = [] end /\
    out = str_bytes "glTF" ++ word 2 ++ word (zlen out) ++ jc ++ bc /\
    zlen out < 2 ^ 32.

Definition up4 (n : Z) : Z := (n + 3) / 4 * 4.

(** ** Reading back *)
(** The buffer [b] of index [i]: its data is there again; a URI that was given
    is replaced by [clean]. *)
Definition octet_prefix : string := "data:application/octet-stream;base64".
Definition restored_buffer (X : ext_lib) (clean : string -> string) (asBinary : bool) (i : nat) (b : Buffer) : Buffer :=
  let e := embedded_buffer asBinary i b in
  mkBuffer (norm_ext X (buf_Extensions b)) (buf_Extras b) (buf_Name b)
    (if String.prefix octet_prefix (buf_URI e) then buf_URI e else clean (buf_URI e))
    (buf_ByteLength b) (buf_Data b).
Definition restored_image (clean : string -> string) (im : Image) : Image :=
  mkImage (img_Extensions im) (img_Extras im) (img_Name im)
    (if String.prefix "data:image/png;base64" (img_URI im) || String.prefix "data:image/jpeg;base64" (img_URI im)
     then img_URI im else clean (img_URI im))
    (img_MimeType im) (img_BufferView im).
Definition restored_buffers (X : ext_lib) (clean : string -> string) (asBinary : bool) (l : list (option Buffer)) : list (option Buffer) :=
  map (fun p => option_map (restored_buffer X clean asBinary (fst p)) (snd p)) (combine (seq 0 (List.length l)) l).
Definition restored (X : ext_lib) (clean : string -> string) (asBinary : bool) (d : Document) : Document :=
  let n := norm_Document X d in
  mkDocument (doc_Extensions n) (doc_Extras n) (doc_ExtensionsUsed n) (doc_ExtensionsRequired n)
    (doc_Accessors n) (doc_Animations n) (doc_Asset n) (restored_buffers X clean asBinary (doc_Buffers d))
    (doc_BufferViews n) (doc_Cameras n) (map (option_map (restored_image clean)) (doc_Images n))
    (doc_Materials n) (doc_Meshes n) (doc_Nodes n)
    (doc_Samplers n) (doc_Scene n) (doc_Scenes n) (doc_Skins n) (doc_Textures n).

(** Path URIs without anything that could be rewritten: relative, confined,
    no dot elements, and no character with a meaning in URIs. *)
Definition plain_char (b : byte) : Prop := 32 < b2z b < 127 /\ ~ In b (z2b 92 :: str_bytes "%:?#").
Definition plain_name (p : bytes) : Prop :=
  Forall plain_char p /\
  exists elems, elems <> [] /\ p = joined elems /\
    Forall (fun e => e <> [] /\ ~ In "/"%char e /\ e <> str_bytes "." /\ e <> str_bytes "..") elems.

(** Buffers whose data can be stored: in the file, embedded, or in a file of
    its own. *)
Definition plain_uri (u : string) : Prop := exists p, plain_name p /\ u = bytes_str p.
Definition plain_buffer (o : option Buffer) : Prop :=
  match o with
  | Some b => buf_ByteLength b = zlen (buf_Data b) /\ buf_Data b <> [] /\
      (buf_URI b = ""%string \/ buf_URI b = data_uri "application/octet-stream" (buf_Data b) \/ plain_uri (buf_URI b))
  | None => False
  end.
Definition plain_image (o : option Image) : Prop :=
  match o with
  | Some im => img_URI im = ""%string \/ plain_uri (img_URI im) \/
      String.prefix "data:image/png;base64" (img_URI im) = true \/ String.prefix "data:image/jpeg;base64" (img_URI im) = true
  | None => False
  end.
(** The files for the buffers, in order. *)
Definition is_file (b : Buffer) : bool :=
  negb (String.eqb (buf_URI b) "") && negb (String.prefix octet_prefix (buf_URI b)).
Definition buffer_files (l : list (option Buffer)) : list (bytes * bytes) :=
  flat_map (fun o => match o with Some b => if is_file b then [(str_bytes (buf_URI b), buf_Data b)] else [] | None => [] end) l.
(** The buffer of the binary chunk. *)
Definition glb_buffer (d : Document) : option Buffer :=
  match doc_Buffers d with Some b :: _ => if String.eqb (buf_URI b) "" then Some b else None | _ => None end.
(** The size of the binary file. *)
Definition glb_size (text : bytes) (d : Document) : Z :=
  20 + up4 (zlen text) + match glb_buffer d with Some b => 8 + up4 (zlen (buf_Data b)) | None => 0 end.
