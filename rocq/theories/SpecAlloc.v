(** Specification of the memory that reading asks for, in terms of the machine
    of Memory.v: what the heap has gained. *)
From Verif Require Import Base Types Binary Doc SpecLayout SpecDoc Memory SpecMemory.

Definition heap_bytes (h : list bytes) : Z := fold_right (fun c n => zlen c + n) 0 h.

(** A []T of [count] elements. *)
Definition elements (count : Z) (size : nat) : Z := Z.max 0 count * Z.of_nat size.

(** The elements of the accessor; for a sparse one also its indices, once as
    they are stored and once as uint32, its values, and the pooled buffers of
    100 uint32 and of 1024 bytes. *)
Definition accessor_room (acr : Accessor) : Z :=
  elements (acr_Count acr) (mem_size (acr_ComponentType acr) (acr_Type acr)) +
  match acr_Sparse acr with
  | None => 0
  | Some sp =>
      elements (spa_Count sp) (mem_size (spi_ComponentType (spa_Indices sp)) AScalar) + elements (spa_Count sp) 4 +
      elements (spa_Count sp) (mem_size (acr_ComponentType acr) (acr_Type acr)) + 400 + 2 * 1024
  end.
(** A typed reader: also a pooled buffer and the result. *)
Definition call_room (k : call) : Z :=
  match k with
  | CallAccessor acr _ _ => accessor_room acr
  | CallIndices acr _ _ => accessor_room acr + 1024 + elements (acr_Count acr) 4
  | CallTyped r acr _ _ => accessor_room acr + 1024 + elements (acr_Count acr) (comp_count r * comp_width r)
  end.
Definition total {A} (f : A -> Z) (l : list A) : Z := fold_right (fun x n => f x + n) 0 l.

(** All the data of a document. *)
Definition doc_bytes (doc : Document) : Z :=
  total (fun o => match o with Some b => zlen (buf_Data b) | None => 0 end) (doc_Buffers doc).

(** The strides of the schema of glTF, and counts of less than 2^48. *)
Definition strides_valid (doc : Document) : Prop :=
  Forall (fun o => match o with Some v => 0 <= bvw_ByteStride v <= 252 | None => True end) (doc_BufferViews doc).
Definition counts_valid (acr : Accessor) : Prop :=
  acr_Count acr < 2 ^ 48 /\ match acr_Sparse acr with Some sp => spa_Count sp < 2 ^ 48 | None => True end.
Definition call_accessor (k : call) : Accessor :=
  match k with CallAccessor acr _ _ | CallIndices acr _ _ | CallTyped _ acr _ _ => acr end.
