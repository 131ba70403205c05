(** What concurrent users of the registry may observe. *)
From Verif Require Import Base Registry.

Section Spec.
Context {fac : Type}.
Notation event := (event fac).

(** Thread [t] called [c] at time [i] and got [r] at time [j]. *)
Definition call_or_return (t : nat) (e : event) : Prop :=
  match e with Inv u _ | Ret u _ _ => u = t | _ => False end.
Definition completed (tr : list event) (t : nat) (c : call fac) (r : option fac) (i j : nat) : Prop :=
  (i < j)%nat /\ nth_error tr i = Some (Inv t c) /\ nth_error tr j = Some (Ret t c r) /\
  forall n e, (i < n < j)%nat -> nth_error tr n = Some e -> ~ call_or_return t e.

(** A registration of [k] that started after time [j'] and ended before [i]. *)
Definition registered_between (tr : list event) (k : string) (j' i : nat) : Prop :=
  exists t g r i2 j2, completed tr t (Reg k g) r i2 j2 /\ (j' < i2)%nat /\ (j2 < i)%nat.

(** A thread is touching the map. *)
Definition writing (s : state fac) (t : nat) : Prop := exists k f, pcs s t = Writing k f.
Definition reading (s : state fac) (t : nat) : Prop := exists k, pcs s t = HoldR k.
Definition event_thread (e : event) : nat :=
  match e with Inv t _ | Ret t _ _ | Store t _ _ | Fetch t _ _ | Silent t => t end.
End Spec.
