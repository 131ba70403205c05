(** What the source of an image holds, and what it means that a document has
    an image in its buffers. *)
From Verif Require Import Base Types Doc Stream Image.

(** All the bytes a reader hands out before its final error; io.EOF is the
    regular end. *)
Definition source_bytes (s : image_source) : option (res bytes) :=
  match s with
  | SrcNil | SrcBuffer None => None
  | SrcBuffer (Some b) => Some (Ok b)
  | SrcReader r => Some (match rd_err r with ErrEOF => Ok (List.concat (rd_pieces r)) | e => Err e end)
  end.

(** Image [im] of [d] lies in the buffers and its bytes are [data]. *)
Definition image_bytes (d : Document) (im : Image) (data : bytes) : Prop :=
  exists i v k b, img_BufferView im = Some (Z.of_nat i) /\
  nth_error (doc_BufferViews d) i = Some (Some v) /\
  bvw_Buffer v = Z.of_nat k /\ nth_error (doc_Buffers d) k = Some (Some b) /\
  bvw_ByteLength v = zlen data /\ bvw_ByteStride v = 0 /\ bvw_Target v = 0 /\
  exists before after, buf_Data b = before ++ data ++ after /\ zlen before = bvw_ByteOffset v.
