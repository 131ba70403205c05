(** Interleaved slices: which element of which slice has its first byte where
    the second byte of a []uint8, stored one after the other, comes to lie. *)
From Verif Require Import Base Types Binary SpecLayout.

(** The next slice of the same row; after the last slice, the first one of the
    next row. *)
Definition follows (data : list slice) (k k' r : nat) : Prop :=
  (k' = S k /\ r = 0 /\ k' < List.length data)%nat \/
  (S k = List.length data /\ k' = 0 /\ r = 1)%nat.
