(** Specification of what a written file brings back, of any document a Go
    program can hold. *)
From Verif Require Import Base Types Doc Codec SpecFile SpecMarshal SpecKeep SpecKeepDoc.

(** A buffer comes back with its data.  Its URI is the one that was written, a
    data URI if it had none and is not the buffer of the binary chunk. *)
Definition back_buffer (X : ext_lib) (rep : string -> string) (asBinary : bool) (i : nat) (b : Buffer) : Buffer :=
  mkBuffer (kept_ext X rep (buf_Extensions b)) (kept_any rep (buf_Extras b)) (rep (buf_Name b))
    (buf_URI (embedded_buffer asBinary i b)) (buf_ByteLength b) (buf_Data b).
Definition back_buffers (X : ext_lib) (rep : string -> string) (asBinary : bool) (l : list (option Buffer)) : list (option Buffer) :=
  map (fun p => option_map (back_buffer X rep asBinary (fst p)) (snd p)) (combine (seq 0 (List.length l)) l).
(** The rest of the document is what JSON keeps (SpecKeepDoc). *)
Definition back (X : ext_lib) (rep : string -> string) (asBinary : bool) (d : Document) : Document :=
  let k := kept_Document X rep d in
  mkDocument (doc_Extensions k) (doc_Extras k) (doc_ExtensionsUsed k) (doc_ExtensionsRequired k)
    (doc_Accessors k) (doc_Animations k) (doc_Asset k) (back_buffers X rep asBinary (doc_Buffers d))
    (doc_BufferViews k) (doc_Cameras k) (doc_Images k) (doc_Materials k) (doc_Meshes k) (doc_Nodes k)
    (doc_Samplers k) (doc_Scene k) (doc_Scenes k) (doc_Skins k) (doc_Textures k).
(** The same with the URIs of images cleaned, except data URIs of PNG and JPEG
    images. *)
Definition back_images (clean : string -> string) (X : ext_lib) (rep : string -> string) (asBinary : bool) (d : Document) : Document :=
  set_doc_Images (map (option_map (restored_image clean)) (doc_Images (back X rep asBinary d))) (back X rep asBinary d).
