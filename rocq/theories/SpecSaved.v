(** Vocabulary for documents that are written with the modeler and then saved. *)
From Verif Require Import Base Types Binary Doc F64 SpecText SpecData SpecJson SpecFile ModelerWrite.

(** A float32 that is a number. *)
Definition number32 (x : Z) : Prop := 0 <= x < 2 ^ 32 /\ f32_finite x = true.
(** Positions are numbers, names are UTF-8, targets are uint16. *)
Definition plain_op (op : wop) : Prop :=
  match op with
  | OpPosition data => Forall (Forall number32) data
  | OpPrimitiveAttributes attrs =>
      forall a s, In a attrs -> attr_Name a = "POSITION"%string -> attr_Data a = Some s -> Forall (Forall number32) (els s)
  | OpImage name mime _ => utf8_str name /\ utf8_str mime
  | OpAccessor t _ | OpBufferView t _ => 0 <= t < 65536
  | _ => True
  end.

(** Lengths and strides are Go ints. *)
Definition go_sized (d : Document) : Prop :=
  zlen (doc_Accessors d) < 2 ^ 63 /\ zlen (doc_BufferViews d) < 2 ^ 63 /\
  zlen (doc_Buffers d) < 2 ^ 63 /\ zlen (doc_Images d) < 2 ^ 63 /\
  Forall (opt (fun v => bvw_ByteStride v < 2 ^ 63)) (doc_BufferViews d).

(** The last buffer is one that may be appended to: its URI does not carry the
    data; and there is data in it. *)
Definition appendable (d : Document) : Prop :=
  forall pre b, doc_Buffers d = pre ++ [Some b] -> buf_URI b = ""%string \/ plain_uri (buf_URI b).
Definition has_data (d : Document) : Prop :=
  forall pre b, doc_Buffers d = pre ++ [Some b] -> buf_Data b <> [].
