(** Which buffers of a file can be read, and which make the reader crash: the
    conditions on the length, on the URI and on what is stored there. *)
From Verif Require Import Base Types Doc SpecText SpecPath SpecData SpecFile.

Section Load.
(** [clean]: what a URI is replaced with; [scheme]: whether a URI has a scheme;
    [inline]: the data in a data URI; [files]: the file system, if any; [left]:
    in a GLB, the bytes after the JSON. *)
Context (clean : string -> string) (scheme : bytes -> Prop) (inline : string -> bytes -> Prop)
  (files : option (bytes -> bytes * option error)) (left : option bytes).

Definition address (b : Buffer) : string := if String.prefix octet_prefix (buf_URI b) then buf_URI b else clean (buf_URI b).
(** The URI stands for a file or for something else outside of the asset. *)
Definition outside (u : string) : Prop :=
  u <> ""%string /\ String.prefix octet_prefix u = false /\ (scheme (str_bytes u) \/ local_path (str_bytes u)).
(** A BIN chunk comes next, and the lowest 32 bits of the length of the buffer
    are not above the length of the chunk. *)
Definition chunk_next (b : Buffer) (content : bytes) : Prop :=
  exists n, left = Some (word n ++ kind_bin ++ content) /\ 0 <= n < 2 ^ 32 /\ buf_ByteLength b mod 2 ^ 32 <= n.

(** [loads k b data]: the [k]-th buffer gets its data. *)
Inductive loads : nat -> Buffer -> bytes -> Prop :=
| ld_chunk b data more : address b = ""%string -> chunk_next b (data ++ more) ->
    zlen data = buf_ByteLength b -> 0 < buf_ByteLength b <= 2 ^ 48 -> loads 0 b data
| ld_inline k b data : String.prefix octet_prefix (address b) = true -> inline (address b) data ->
    buf_ByteLength b <> 0 -> loads k b data
| ld_left k b : files = None -> outside (address b) -> buf_ByteLength b <> 0 -> loads k b (buf_Data b)
| ld_file k b rf file : files = Some rf -> outside (address b) -> 0 < buf_ByteLength b ->
    rf (str_bytes (address b)) = (file, None) -> loads k b (firstn (Z.to_nat (buf_ByteLength b)) file).
(** [crashes k b]: reading it makes the program crash. *)
Inductive crashes : nat -> Buffer -> Prop :=
| cr_chunk b content : address b = ""%string -> chunk_next b content ->
    buf_ByteLength b < 0 \/ 2 ^ 48 < buf_ByteLength b -> crashes 0 b
| cr_file k b rf : files = Some rf -> outside (address b) -> buf_ByteLength b < 0 -> crashes k b.

(** The buffers from the [k]-th on, and what they become. *)
Inductive all_load : nat -> list (option Buffer) -> list (option Buffer) -> Prop :=
| al_nil k : all_load k [] []
| al_cons k b data l l' : loads k b data -> all_load (S k) l l' ->
    all_load k (Some b :: l) (Some (mkBuffer (buf_Extensions b) (buf_Extras b) (buf_Name b) (address b) (buf_ByteLength b) data) :: l').
Definition one_crashes (l : list (option Buffer)) : Prop :=
  exists before b after before', l = before ++ Some b :: after /\ all_load 0 before before' /\ crashes (List.length before) b.
End Load.
