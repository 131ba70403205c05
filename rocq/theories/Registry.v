(** The extension registry under concurrency: extMu, extensions,
    RegisterExtension and queryExtension (gltf.go:467-486).

    Any number of goroutines, named by natural numbers, call the two functions
    in any order and in any interleaving of the steps below.  sync.RWMutex is
    its specification: Lock waits until nobody holds it, RLock until no writer
    does.  Writing the map takes two steps; a lookup that runs in between may
    give anything, as Go leaves it undefined. *)
From Verif Require Import Base.

Section Registry.
Context {fac : Type}.   (* func([]byte) (any, error) *)

Inductive call : Type :=
| Reg (k : string) (f : fac)      (* RegisterExtension(k, f) *)
| Qry (k : string).               (* queryExtension(k) *)

Inductive pc : Type :=
| Idle
| WantW (k : string) (f : fac)                 (* gltf.go:476, before extMu.Lock() *)
| HoldW (k : string) (f : fac)                 (* gltf.go:478, before extensions[key] = f *)
| Writing (k : string) (f : fac)               (* in the middle of the assignment *)
| Wrote (k : string) (f : fac)                 (* gltf.go:477, before the deferred Unlock *)
| WantR (k : string)                           (* gltf.go:482, before RLock *)
| HoldR (k : string)                           (* gltf.go:483, before the lookup *)
| ReadR (k : string) (r : option fac)          (* gltf.go:484, before RUnlock *)
| Done (c : call) (r : option fac).            (* gltf.go:479, 485: before returning *)

(** What happens: calls, returns and the two accesses of the map. *)
Inductive event : Type :=
| Inv (t : nat) (c : call)
| Ret (t : nat) (c : call) (r : option fac)
| Store (t : nat) (k : string) (f : fac)
| Fetch (t : nat) (k : string) (r : option fac)
| Silent (t : nat).

Record state : Type := mkState {
  pcs : nat -> pc;
  writer : bool;                         (* extMu is locked *)
  readers : nat;                         (* number of RLocks *)
  table : string -> option fac;          (* extensions *)
  dirty : bool                           (* a map assignment is in progress *)
}.
Definition initial : state := mkState (fun _ => Idle) false 0 (fun _ => None) false.

Definition goto (t : nat) (p : pc) (s : state) : nat -> pc :=
  fun u => if Nat.eqb u t then p else pcs s u.
Definition assign (k : string) (f : fac) (m : string -> option fac) : string -> option fac :=
  fun k' => if String.eqb k' k then Some f else m k'.

Inductive step : state -> event -> state -> Prop :=
| s_invR s t k f : pcs s t = Idle ->
    step s (Inv t (Reg k f)) (mkState (goto t (WantW k f) s) (writer s) (readers s) (table s) (dirty s))
| s_invQ s t k : pcs s t = Idle ->
    step s (Inv t (Qry k)) (mkState (goto t (WantR k) s) (writer s) (readers s) (table s) (dirty s))
(* extMu.Lock() *)
| s_lock s t k f : pcs s t = WantW k f -> writer s = false -> readers s = 0%nat ->
    step s (Silent t) (mkState (goto t (HoldW k f) s) true (readers s) (table s) (dirty s))
(* extensions[key] = f *)
| s_begin s t k f : pcs s t = HoldW k f ->
    step s (Silent t) (mkState (goto t (Writing k f) s) (writer s) (readers s) (table s) true)
| s_end s t k f : pcs s t = Writing k f ->
    step s (Store t k f) (mkState (goto t (Wrote k f) s) (writer s) (readers s) (assign k f (table s)) false)
(* extMu.Unlock() *)
| s_unlock s t k f : pcs s t = Wrote k f ->
    step s (Silent t) (mkState (goto t (Done (Reg k f) None) s) false (readers s) (table s) (dirty s))
(* extMu.RLock() *)
| s_rlock s t k : pcs s t = WantR k -> writer s = false ->
    step s (Silent t) (mkState (goto t (HoldR k) s) (writer s) (S (readers s)) (table s) (dirty s))
(* ext, ok := extensions[key] *)
| s_read s t k r : pcs s t = HoldR k -> dirty s = true \/ r = table s k ->
    step s (Fetch t k r) (mkState (goto t (ReadR k r) s) (writer s) (readers s) (table s) (dirty s))
(* extMu.RUnlock() *)
| s_runlock s t k r : pcs s t = ReadR k r ->
    step s (Silent t) (mkState (goto t (Done (Qry k) r) s) (writer s) (pred (readers s)) (table s) (dirty s))
| s_ret s t c r : pcs s t = Done c r ->
    step s (Ret t c r) (mkState (goto t Idle s) (writer s) (readers s) (table s) (dirty s)).

(** All executions from the empty registry, with their history. *)
Inductive run : list event -> state -> Prop :=
| run_nil : run [] initial
| run_step tr s e s' : run tr s -> step s e s' -> run (tr ++ [e]) s'.
End Registry.
Arguments call : clear implicits.
Arguments pc : clear implicits.
Arguments event : clear implicits.
Arguments state : clear implicits.
