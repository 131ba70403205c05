(** The calls of package modeler that a program is to make: data of the types
    the call takes, of one length, numbers and UTF-8, laid out as glTF says. *)
From Verif Require Import Base Types Binary SpecLayout Doc SpecDoc SpecAccessor ModelerWrite SpecAppend SpecAdded SpecRules SpecSaved.

Definition well_shaped (op : wop) : Prop :=
  match op with
  | OpPrimitiveAttributes l => forall a s, In a l -> attr_Data a = Some s -> typed s
  | OpImage _ _ _ => True
  | _ => Forall typed (op_slices op)
  end.
Definition proper (op : wop) : Prop := accepted op /\ op_type op /\ well_shaped op /\ lawful op /\ plain_op op.
(** There is memory for the bytes. *)
Definition fits_memory (ops : list wop) : Prop := cost ops <= 2 ^ 48.
(** The calls whose data is stored as the accessors say: a single slice is of
    vertices, or of elements without padding; of several slices none is a []uint8,
    and matrices start at multiples of 4. *)
Definition faithful (op : wop) : Prop :=
  match op_slices op with
  | [s] => forall c t, kind_ct (sk s) = Some (c, t) -> packed_size c t = element_size c t \/ op_target op = 34962
  | l => Forall (fun s => sk s <> SK CUbyte AScalar) l /\
      forall before s after c t, l = before ++ s :: after -> kind_ct (sk s) = Some (c, t) -> columns t <> 1%nat -> (4 | Z.of_nat (sum_sizes before))
  end.
