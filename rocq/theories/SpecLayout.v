(** Specification of the glTF binary layout, independent of the offset tables
    of the code: glTF 2.0, section 3.6.2.4 "Data alignment".

    An element is a matrix of [rows] x [columns] components (vectors have one
    column, scalars one row).  Columns are stored one after the other, each
    column starting at a multiple of 4 bytes; inside a column the rows are
    consecutive; components are little-endian. *)
From Verif Require Import Base Types Binary.
Local Open Scope nat_scope.

Definition comp_bytes (c : ComponentType) : nat :=
  match c with
  | CByte | CUbyte => 1 | CShort | CUshort => 2 | CUint | CFloat => 4 | CTOther _ => 0
  end.

Definition rows (t : AccessorType) : nat :=
  match t with
  | AScalar => 1 | AVec2 | AMat2 => 2 | AVec3 | AMat3 => 3 | AVec4 | AMat4 => 4
  | ATOther _ => 0
  end.

Definition columns (t : AccessorType) : nat :=
  match t with
  | AScalar | AVec2 | AVec3 | AVec4 => 1
  | AMat2 => 2 | AMat3 => 3 | AMat4 => 4 | ATOther _ => 0
  end.

Definition align4 (n : nat) : nat := (n + 3) / 4 * 4.

(** Distance between the starts of two columns. *)
Definition column_stride (c : ComponentType) (t : AccessorType) : nat :=
  align4 (rows t * comp_bytes c).

(** Where component (row r, column k) starts inside the element. *)
Definition component_offset (c : ComponentType) (t : AccessorType) (r k : nat) : nat :=
  k * column_stride c t + r * comp_bytes c.

(** Space reserved for an element by the library: scalars are packed, vectors
    and matrix columns are padded to 4 bytes. *)
Definition element_size (c : ComponentType) (t : AccessorType) : nat :=
  match t with
  | AScalar => comp_bytes c
  | _ => columns t * column_stride c t
  end.

(** Well-formed element: the right number of components, each in range. *)
Definition wf_elem (c : ComponentType) (t : AccessorType) (v : elem) : Prop :=
  List.length v = rows t * columns t /\
  Forall (fun x => 0 <= x < 256 ^ Z.of_nat (comp_bytes c))%Z v.

(** Component type and accessor type of a supported slice type. *)
Definition kind_ct (k : skind) : option (ComponentType * AccessorType) :=
  match k with
  | SK c t => if ct_valid c && at_valid t then Some (c, t) else None
  | SRGBA => Some (CUbyte, AVec4)
  | SRGBA64 => Some (CUshort, AVec4)
  | _ => None
  end.

Definition wf_slice (s : slice) : Prop :=
  exists c t, kind_ct (sk s) = Some (c, t) /\ Forall (wf_elem c t) (els s).

(** Byte j of an element: which component (flat, row-major index as in the Go
    array) and which of its bytes; None for padding. *)
Definition byte_role (c : ComponentType) (t : AccessorType) (j : nat) : option (nat * nat) :=
  let k := j / column_stride c t in
  let r := (j mod column_stride c t) / comp_bytes c in
  if (k <? columns t) && (r <? rows t)
  then Some (r * columns t + k, (j mod column_stride c t) mod comp_bytes c)
  else None.

(** The byte stored at offset j of element v; None for padding. *)
Definition encoded_byte (c : ComponentType) (t : AccessorType) (v : elem) (j : nat) : option byte :=
  match byte_role c t j with
  | Some (f, k) => Some (z2b (nth f v 0 / 256 ^ Z.of_nat k)%Z)
  | None => None
  end.

(** Element v is stored at byte position pos of b. *)
Definition stored_at (c : ComponentType) (t : AccessorType) (b : bytes) (pos : nat) (v : elem) : Prop :=
  forall j y, encoded_byte c t v j = Some y -> nth_error b (pos + j) = Some y.

(** The full effect of storing elements vs every [stride] bytes into b:
    [b'] has the same length and each byte is either a component byte of the
    element it belongs to or unchanged. *)
Definition stored_all (c : ComponentType) (t : AccessorType)
    (b b' : bytes) (stride : nat) (vs : list elem) : Prop :=
  List.length b' = List.length b /\
  forall p, p < List.length b ->
    nth_error b' p =
    match nth_error vs (p / stride) with
    | Some v =>
        match encoded_byte c t v (p mod stride) with
        | Some y => Some y
        | None => nth_error b p
        end
    | None => nth_error b p
    end.

(** Bytes needed for n elements every [stride] bytes. *)
Definition needed (c : ComponentType) (t : AccessorType) (stride n : nat) : nat :=
  match n with O => O | S m => stride * m + element_size c t end.

(** Stride in effect: 0 means packed. *)
Definition eff_stride (c : ComponentType) (t : AccessorType) (stride : nat) : nat :=
  if stride =? 0 then element_size c t else stride.

(** The byte extent of n elements is representable as a Go int. *)
Definition fits (c : ComponentType) (t : AccessorType) (e n : nat) : Prop :=
  (Z.of_nat (e * n) < 2 ^ 63)%Z /\ (Z.of_nat e < 2 ^ 63)%Z /\
  (Z.of_nat (needed c t e n) < 2 ^ 63)%Z.

(** Guard describing where binary.Read/Write honour the stride: the []int8
    case of Read never does, the []uint8 case only for stride 0 and 1. *)
Definition reads_strided (k : skind) (stride : nat) : Prop :=
  k <> SK CByte AScalar /\ (k = SK CUbyte AScalar -> stride <= 1).

(** Size of a Go value of the element type (no padding). *)
Definition mem_size (c : ComponentType) (t : AccessorType) : nat :=
  comp_bytes c * (rows t * columns t).

(** Element i seen through a reuse buffer: the bytes at its position when the
    buffer reaches that far, else zero. *)
Definition buffer_elem (c : ComponentType) (t : AccessorType) (buf : bytes) (i : nat) : elem :=
  if (i + 1) * mem_size c t <=? List.length buf
  then map (fun f => le_val (sub buf (i * mem_size c t + f * comp_bytes c) (comp_bytes c)))
           (seq 0 (rows t * columns t))
  else repeat 0%Z (rows t * columns t).
