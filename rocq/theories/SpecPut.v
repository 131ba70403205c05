(** What binary.Read and binary.Write do for any stride, also a negative one
    and one less than the size of an element: when they report a short buffer,
    when they crash, and the bytes or elements after a success. *)
From Verif Require Import Base Types Binary SpecLayout.

(** From one element to the next, and from the start of the first one to the
    end of the last one of [n]. *)
Definition pace (c : ComponentType) (t : AccessorType) (s : Z) : Z := if s =? 0 then Z.of_nat (element_size c t) else s.
Definition reach (c : ComponentType) (t : AccessorType) (s n : Z) : Z := (n - 1) * pace c t s + Z.of_nat (element_size c t).
(** The second element would start before the first one. *)
Definition backwards (c : ComponentType) (t : AccessorType) (s n : Z) : Prop := pace c t s < 0 /\ 2 <= n.

(** Element [i] of [vs] has the component byte [y] for position [p], the
    elements being [step] bytes from each other. *)
Definition covers (c : ComponentType) (t : AccessorType) (step : nat) (vs : list elem) (p i : nat) (y : byte) : Prop :=
  exists v j, nth_error vs i = Some v /\ encoded_byte c t v j = Some y /\ p = (step * i + j)%nat.
(** The elements are put one after the other: each byte is the one of the last
    element that has a byte for it; bytes without any are not changed. *)
Definition put_in_turn (c : ComponentType) (t : AccessorType) (step : nat) (vs : list elem) (b b' : bytes) : Prop :=
  List.length b' = List.length b /\
  forall p, (p < List.length b)%nat ->
    (exists i y, covers c t step vs p i y /\ (forall i' y', covers c t step vs p i' y' -> (i' <= i)%nat) /\ nth_error b' p = Some y) \/
    (forall i y, ~ covers c t step vs p i y) /\ nth_error b' p = nth_error b p.

(** A []uint8 is put without gaps whatever the stride. *)
Definition put_pace (k : skind) (c : ComponentType) (t : AccessorType) (s : Z) : nat :=
  match k with SK CUbyte AScalar => 1 | _ => Z.to_nat (pace c t s) end.
Definition byte_slice (k : skind) : Prop := k = SK CUbyte AScalar.
Definition int8_slice (k : skind) : Prop := k = SK CByte AScalar.

(** Element [i] of what is read: a []uint8 and a []int8 are taken from
    consecutive bytes, as far as there are; the rest keeps its old value. *)
Definition got (k : skind) (c : ComponentType) (t : AccessorType) (s : Z) (b : bytes) (old : list elem) (i : nat) (e : elem) : Prop :=
  (byte_slice k \/ int8_slice k) /\ Z.of_nat i < zlen b /\ wf_elem c t e /\ stored_at c t b i e \/
  (byte_slice k \/ int8_slice k) /\ zlen b <= Z.of_nat i /\ nth_error old i = Some e \/
  ~ (byte_slice k \/ int8_slice k) /\ wf_elem c t e /\ stored_at c t b (Z.to_nat (pace c t s * Z.of_nat i)) e.
