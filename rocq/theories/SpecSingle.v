(** When a single slice is stored as glTF says, whatever its elements: they need
    no padding, or they are vertices and the view has a stride, or there is one. *)
From Verif Require Import Base Types Binary SpecLayout SpecAccessor.

Definition stored_plainly (target : Z) (c : ComponentType) (t : AccessorType) (n : nat) : Prop :=
  packed_size c t = element_size c t \/ target = 34962 \/ n = 1%nat.
