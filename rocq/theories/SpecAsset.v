(** Specification of glTF assets whatever made them (glTF 2.0, sections 2.7,
    3.6.1 and 4.4): where the bytes of the buffers are, and which file or
    address a URI stands for. *)
From Verif Require Import Base Types Doc SpecText SpecPath SpecData SpecFile SpecUrl.

(** ** Relative references *)
(** A percent-encoded byte has two hexadecimal digits (RFC 3986, 2.1). *)
Definition hex_value (c : byte) (x : nat) : Prop :=
  nth_error (str_bytes "0123456789abcdef") x = Some c \/ nth_error (str_bytes "0123456789ABCDEF") x = Some c.
(** What may stand in a path for itself; more than RFC 3986 has, since
    exporters leave spaces and other languages as they are. *)
Definition ref_char (c : byte) : Prop := 32 <= b2z c /\ b2z c <> 127 /\ ~ In c (z2b 92 :: str_bytes "%?#/").
(** [spells u n]: the text [u] stands for the name [n]. *)
Inductive spells : bytes -> bytes -> Prop :=
| sp_nil : spells [] []
| sp_char c u n : ref_char c -> spells u n -> spells (c :: u) (c :: n)
| sp_pct h g x y u n : hex_value h x -> hex_value g y -> spells u n ->
    spells ("%"%char :: h :: g :: u) (z2b (16 * Z.of_nat x + Z.of_nat y) :: n).
(** A relative reference (4.2, path-noscheme) without query and fragment, and
    the path of the file: one element for each segment. *)
Definition file_element (n : bytes) : Prop := n <> [] /\ n <> str_bytes "." /\ n <> str_bytes ".." /\ ~ In "/"%char n.
Definition relative (uri name : bytes) : Prop :=
  exists u n segs, spells u n /\ file_element n /\ ~ In ":"%char u /\
    Forall (fun p => spells (fst p) (snd p) /\ file_element (snd p)) segs /\
    (uri = joined (u :: map fst segs) \/ uri = str_bytes "./" ++ joined (u :: map fst segs)) /\
    name = joined (n :: map snd segs).

(** ** Containers *)
(** The JSON text, alone or in a GLB: the JSON chunk is padded with up to three
    spaces, a BIN chunk may follow, and other chunks after that. *)
Inductive container_of (json : bytes) : option bytes -> bytes -> Prop :=
| co_text before after : ws before -> container_of json None (before ++ json ++ after)
| co_glb k bin more out :
    (k < 4)%nat -> (zlen json + Z.of_nat k) mod 4 = 0 -> zlen out < 2 ^ 32 ->
    out = str_bytes "glTF" ++ word 2 ++ word (zlen out) ++
          word (zlen json + Z.of_nat k) ++ kind_json ++ json ++ repeat (z2b 32) k ++
          match bin with Some chunk => word (zlen chunk) ++ kind_bin ++ chunk ++ more | None => more end ->
    container_of json bin out.

(** ** Buffers *)
(** Where the data of a buffer is, which files have to be opened for it, and
    the URI it goes by: at the front of the BIN chunk, in the URI itself, in a
    file, or somewhere else that the file system knows. *)
Inductive resource (files : bytes -> bytes * option error) (bin : option bytes) : nat -> Buffer -> list bytes -> string -> bytes -> Prop :=
| rs_chunk b data rest : buf_URI b = ""%string -> bin = Some (data ++ rest) -> resource files bin 0 b [] "" data
| rs_inline i b data : buf_URI b = data_uri "application/octet-stream" data -> resource files bin i b [] (buf_URI b) data
| rs_file i b name data rest : relative (str_bytes (buf_URI b)) name -> String.prefix octet_prefix (bytes_str name) = false ->
    files name = (data ++ rest, None) -> resource files bin i b [name] (bytes_str name) data
| rs_far i b data rest : absolute_uri (str_bytes (buf_URI b)) -> no_dot_segment (str_bytes (buf_URI b)) ->
    String.prefix octet_prefix (buf_URI b) = false ->
    files (str_bytes (buf_URI b)) = (data ++ rest, None) -> resource files bin i b [str_bytes (buf_URI b)] (buf_URI b) data.
(** All buffers from the [i]-th on: the names and the buffers with their data. *)
Inductive resources (files : bytes -> bytes * option error) (bin : option bytes) : nat -> list (option Buffer) -> list bytes -> list (option Buffer) -> Prop :=
| rl_nil i : resources files bin i [] [] []
| rl_cons i b l names uri data ns l' :
    resource files bin i b names uri data -> zlen data = buf_ByteLength b -> resources files bin (S i) l ns l' ->
    resources files bin i (Some b :: l) (names ++ ns)
      (Some (mkBuffer (buf_Extensions b) (buf_Extras b) (buf_Name b) uri (buf_ByteLength b) data) :: l').

(** ** Images *)
(** The URI in the file and the one in the document. *)
Inductive address : string -> string -> Prop :=
| ad_none : address "" ""
| ad_inline u : String.prefix "data:image/png;base64" u = true \/ String.prefix "data:image/jpeg;base64" u = true -> address u u
| ad_file u name : relative (str_bytes u) name -> address u (bytes_str name)
| ad_far u : absolute_uri (str_bytes u) -> no_dot_segment (str_bytes u) -> address u u.
Definition addressed (a b : option Image) : Prop :=
  exists x u, a = Some x /\
    b = Some (mkImage (img_Extensions x) (img_Extras x) (img_Name x) u (img_MimeType x) (img_BufferView x)) /\
    forall w, address (img_URI x) w -> u = w.
(** The document with the given buffers and images in place of its own. *)
Definition with_contents (d : Document) (bufs : list (option Buffer)) (ims : list (option Image)) : Document :=
  mkDocument (doc_Extensions d) (doc_Extras d) (doc_ExtensionsUsed d) (doc_ExtensionsRequired d)
    (doc_Accessors d) (doc_Animations d) (doc_Asset d) bufs (doc_BufferViews d) (doc_Cameras d) ims
    (doc_Materials d) (doc_Meshes d) (doc_Nodes d) (doc_Samplers d) (doc_Scene d) (doc_Scenes d) (doc_Skins d) (doc_Textures d).

(** ** Documents to be stored *)
(** Every buffer has its bytes, none is empty, and each is told where to go: into
    the file itself, or into a file of its own.  [files]: these files. *)
Definition located (uri : string) (name : bytes) : Prop :=
  relative (str_bytes uri) name /\ String.prefix octet_prefix (bytes_str name) = false \/
  absolute_uri (str_bytes uri) /\ no_dot_segment (str_bytes uri) /\ String.prefix octet_prefix uri = false /\ name = str_bytes uri.
Inductive places : list (option Buffer) -> list (bytes * bytes) -> Prop :=
| pl_nil : places [] []
| pl_inside b l files : buf_ByteLength b = zlen (buf_Data b) -> buf_Data b <> [] ->
    buf_URI b = ""%string \/ buf_URI b = data_uri "application/octet-stream" (buf_Data b) ->
    places l files -> places (Some b :: l) files
| pl_file b l name files : buf_ByteLength b = zlen (buf_Data b) -> buf_Data b <> [] -> located (buf_URI b) name ->
    places l files -> places (Some b :: l) ((name, buf_Data b) :: files).
(** The BIN chunk of a GLB holds the first buffer, and is at most three bytes
    longer (3.6.1.2 and 4.4.3.3). *)
Definition chunk_fits (bin : option bytes) (bufs : list (option Buffer)) : Prop :=
  forall chunk, bin = Some chunk -> exists b l, bufs = Some b :: l /\ buf_URI b = ""%string /\
    buf_ByteLength b <= zlen chunk < buf_ByteLength b + 4 /\ zlen chunk mod 4 = 0.
