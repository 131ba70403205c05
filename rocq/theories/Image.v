(** Model of the source of WriteImage (modeler/write.go:172-191): the type
    switch on the io.Reader and io.ReadAll of Go 1.20. *)
From Verif Require Import Base Types Doc Binary ModelerWrite Stream.

(** The argument [r io.Reader]: the nil interface, a *bytes.Buffer (maybe a
    nil pointer) with its unread bytes, or any other reader. *)
Inductive image_source : Type :=
| SrcNil
| SrcBuffer (unread : option bytes)
| SrcReader (r : reader).

(** io.go, ReadAll: reads into the free part of a slice that starts with
    capacity 512 and that append grows when it is full.  [spare] is the
    capacity that append adds beyond the one byte it needs, by the length of
    the slice.  Each read takes a byte or a piece from the reader, which bounds
    the loop. *)
Fixpoint read_all (spare : Z -> Z) (fuel : nat) (b : bytes) (cap : Z) (r : reader) : bytes * option error * reader :=
  match fuel with
  | O => (b, Some ErrUnexpectedEOF, r)
  | S fuel' =>
      let '(d, e, r) := rd_read (cap - zlen b) r in
      let b := b ++ d in
      match e with
      | Some ErrEOF => (b, None, r)
      | Some e => (b, Some e, r)
      | None =>
          let cap := if zlen b =? cap then cap + 1 + Z.max 0 (spare cap) else cap in
          read_all spare fuel' b cap r
      end
  end.
Definition ReadAll (spare : Z -> Z) (r : reader) : bytes * option error * reader :=
  read_all spare (S (List.length (rd_pieces r) + List.length (List.concat (rd_pieces r)))) [] 512 r.

(** write.go:173-184: the data, and the source after the call.  Bytes of
    a bytes.Buffer does not consume what it returns. *)
Definition image_data (spare : Z -> Z) (s : image_source) : res bytes * image_source :=
  match s with
  | SrcNil => (Panic, s)
  | SrcBuffer None => (Panic, s)
  | SrcBuffer (Some b) => (Ok b, s)
  | SrcReader r =>
      let '(b, e, r) := ReadAll spare r in
      (match e with Some e => Err e | None => Ok b end, SrcReader r)
  end.

(** write.go:172-191 *)
Definition WriteImageFrom (spare : Z -> Z) (doc : Document) (name mimeType : string) (s : image_source)
  : res (Document * res Z) * image_source :=
  let '(r, s) := image_data spare s in (WriteImage doc name mimeType r, s).
