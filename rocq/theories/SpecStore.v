(** Which documents can be written, and which files are made: the conditions
    on the document, on the writer and on the file system. *)
From Verif Require Import Base Types Doc SpecText SpecPath SpecData SpecFile File.

(** What becomes of the calls of a writer is given by a list: [Some _] for one
    that fails.  The [k]-th call does not fail. *)
Definition call_fine (script : list (option (Z * error))) (k : nat) : Prop := forall p, nth_error script k <> Some (Some p).
(** The contents of the first buffer go into the BIN chunk. *)
Definition with_chunk (d : Document) : Prop := exists b l, doc_Buffers d = Some b :: l /\ buf_URI b = ""%string.
(** The calls whose failure is noticed: the only one for the text; for a GLB
    the first one, and the sixth one when there is a BIN chunk. *)
Definition calls_fine (glb : bool) (d : Document) (script : list (option (Z * error))) : Prop :=
  call_fine script 0 /\ (glb = true -> with_chunk d -> call_fine script 5).

Section Store.
(** [scheme]: whether a URI has a scheme; [name]: the name of the file for a
    URI, if it gets one. *)
Context (scheme : bytes -> Prop) (name : bytes -> option bytes).
(** The contents do not go into the text or the GLB. *)
Definition apart (b : Buffer) : Prop := buf_Data b <> [] /\ buf_URI b <> ""%string /\ String.prefix octet_prefix (buf_URI b) = false.
Definition acceptable (b : Buffer) : Prop := scheme (str_bytes (buf_URI b)) \/ local_path (str_bytes (buf_URI b)).
(** [stored l s files]: all the buffers of [l] can be stored, [files] being
    the names and contents of the files made; [s]: what becomes of the files
    to come, if there is a file system. *)
Inductive stored : list (option Buffer) -> option (list file_outcome) -> list (bytes * bytes) -> Prop :=
| sr_nil s : stored [] s []
| sr_within b l s files : ~ apart b -> stored l s files -> stored (Some b :: l) s files
| sr_nowhere b l files : apart b -> acceptable b -> stored l None files -> stored (Some b :: l) None files
| sr_unnamed b l s files : apart b -> acceptable b -> name (str_bytes (buf_URI b)) = None -> stored l s files -> stored (Some b :: l) s files
| sr_more b l n files : apart b -> acceptable b -> name (str_bytes (buf_URI b)) = Some n -> stored l (Some []) files ->
    stored (Some b :: l) (Some []) ((n, buf_Data b) :: files)
| sr_file b l n s files : apart b -> acceptable b -> name (str_bytes (buf_URI b)) = Some n -> stored l (Some s) files ->
    stored (Some b :: l) (Some (Creates None None :: s)) ((n, buf_Data b) :: files).
End Store.
