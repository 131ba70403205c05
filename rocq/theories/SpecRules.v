(** The rules of glTF for the buffer views and accessors that are written
    (glTF 2.0, 3.6.2.4 and 5.1, 5.11; section numbers of the specification). *)
From Verif Require Import Base Types Binary SpecLayout Doc SpecDoc ModelerWrite SpecAppend SpecAdded.

Definition view_rules (v : BufferView) : Prop :=
  0 <= bvw_Buffer v /\ 0 <= bvw_ByteOffset v /\ 1 <= bvw_ByteLength v /\
  (bvw_ByteStride v = 0 \/ 4 <= bvw_ByteStride v <= 252 /\ (4 | bvw_ByteStride v)) /\
  In (bvw_Target v) [0; 34962; 34963].
(** The bytes an element takes up: the last column is not padded. *)
Definition tight_bytes (c : ComponentType) (t : AccessorType) : nat :=
  match t with AScalar => comp_bytes c | _ => (columns t - 1) * column_stride c t + rows t * comp_bytes c end.
(** Offsets and strides are multiples of the size of a component, and the last
    element ends in the view.  Without a stride the elements are packed. *)
Definition accessor_rules (v : BufferView) (a : Accessor) : Prop :=
  let c := Z.of_nat (comp_bytes (acr_ComponentType a)) in
  let n := Z.of_nat (tight_bytes (acr_ComponentType a) (acr_Type a)) in
  let distance := if bvw_ByteStride v =? 0 then n else bvw_ByteStride v in
  1 <= acr_Count a /\ 0 <= acr_ByteOffset a /\ (c | acr_ByteOffset a) /\ (c | bvw_ByteOffset v + acr_ByteOffset a) /\ (c | bvw_ByteStride v) /\
  acr_ByteOffset a + (acr_Count a - 1) * distance + n <= bvw_ByteLength v.

(** The data for which a call follows the rules. *)
Definition some_data (data : list slice) : Prop := exists s, hd_error data = Some s /\ els s <> [].
Definition row_fits (data : list slice) : Prop :=
  (List.length data <= 1)%nat \/ (Z.of_nat (sum_sizes data) <= 252 /\ (4 | Z.of_nat (sum_sizes data))).
Definition rows_aligned (data : list slice) : Prop :=
  forall before s after c t, data = before ++ s :: after -> kind_ct (sk s) = Some (c, t) -> (Z.of_nat (comp_bytes c) | Z.of_nat (sum_sizes before)).
Definition lawful (op : wop) : Prop :=
  In (op_target op) [0; 34962; 34963] /\ some_data (op_slices op) /\ row_fits (op_slices op) /\ (op_entries op <> [] -> rows_aligned (op_slices op)).

(** Bytes that a call can add to the buffer. *)
Definition op_cost (op : wop) : Z := 3 + total_bytes (op_slices op).
Fixpoint cost (ops : list wop) : Z := match ops with [] => 0 | op :: r => op_cost op + cost r end.
