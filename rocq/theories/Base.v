(** Common ground of the model: bytes, Go results, fixed width integers,
    little-endian stores, slices as lists. *)
From Coq Require Export ZArith NArith List Ascii String Bool Lia.
From Coq Require Import ZifyBool ZifyNat ZifyN.
Export ListNotations.
Global Open Scope Z_scope.
Global Open Scope list_scope.

Ltac Zify.zify_post_hook ::= Z.div_mod_to_equations.

(** ** Go results.  [Panic] is a run-time panic (slice bounds, nil
    dereference, explicit panic); [Err] is a returned non-nil error.  The
    payload of errors is only a tag used for readability. *)
Inductive error : Type :=
| ErrShortBuffer            (* io.ErrShortBuffer *)
| ErrEOF                    (* io.EOF *)
| ErrUnexpectedEOF          (* io.ErrUnexpectedEOF *)
| ErrMsg (m : string).      (* any other error *)

Inductive res (A : Type) : Type :=
| Ok (a : A)
| Err (e : error)
| Panic.
Arguments Ok {A} a.
Arguments Err {A} e.
Arguments Panic {A}.

Definition bind {A B} (m : res A) (f : A -> res B) : res B :=
  match m with Ok a => f a | Err e => Err e | Panic => Panic end.

Declare Scope res_scope.
Delimit Scope res_scope with res.
Notation "x <- m ;; k" := (bind m (fun x => k))
  (at level 61, m at next level, right associativity) : res_scope.
Notation "' p <- m ;; k" := (bind m (fun p => k))
  (at level 61, p pattern, m at next level, right associativity) : res_scope.
Global Open Scope res_scope.

Definition is_ok {A} (r : res A) : bool := match r with Ok _ => true | _ => false end.
Definition is_panic {A} (r : res A) : bool := match r with Panic => true | _ => false end.

Fixpoint mapM {A B} (f : A -> res B) (l : list A) : res (list B) :=
  match l with
  | [] => Ok []
  | a :: l' => b <- f a ;; bs <- mapM f l' ;; Ok (b :: bs)
  end.

(** Dereference of a possibly nil pointer. *)
Definition deref {A} (p : option A) : res A :=
  match p with Some a => Ok a | None => Panic end.

(** ** Bytes.  Go [byte] is [ascii]. *)
Notation byte := ascii (only parsing).
Notation bytes := (list ascii) (only parsing).

Definition b2z (b : byte) : Z := Z.of_N (N_of_ascii b).
(** Go conversion uint8(x): truncation to 8 bits. *)
Definition z2b (z : Z) : byte := ascii_of_N (Z.to_N (z mod 256)).
Definition byte0 : byte := Eval compute in z2b 0.

(** Lengths as Go ints. *)
Definition zlen {A} (l : list A) : Z := Z.of_nat (List.length l).

(** Wrap-around of Go's 64-bit int arithmetic, and unsigned truncations. *)
Definition i64 (z : Z) : Z := (z + 2 ^ 63) mod 2 ^ 64 - 2 ^ 63.
Definition u32 (z : Z) : Z := z mod 2 ^ 32.
Definition in_i64 (z : Z) : Prop := - 2 ^ 63 <= z < 2 ^ 63.

(** Little-endian encoding of the low [8*w] bits and decoding. *)
Fixpoint le_bytes (w : nat) (v : Z) : bytes :=
  match w with
  | O => []
  | S w' => z2b v :: le_bytes w' (v / 256)
  end.

Fixpoint le_val (bs : bytes) : Z :=
  match bs with
  | [] => 0
  | b :: bs' => b2z b + 256 * le_val bs'
  end.

(** Sub-list and in-place overwrite (positions as nat). *)
Definition sub {A} (l : list A) (off n : nat) : list A := firstn n (skipn off l).
Definition overwrite {A} (l : list A) (off : nat) (new : list A) : list A :=
  firstn off l ++ new ++ skipn (off + List.length new) l.

(** Go slicing expressions with bound checks. *)
Definition slice_from {A} (l : list A) (lo : Z) : res (list A) :=
  if (0 <=? lo) && (lo <=? zlen l) then Ok (skipn (Z.to_nat lo) l) else Panic.
Definition slice_range {A} (l : list A) (lo hi : Z) : res (list A) :=
  if (0 <=? lo) && (lo <=? hi) && (hi <=? zlen l)
  then Ok (firstn (Z.to_nat (hi - lo)) (skipn (Z.to_nat lo) l)) else Panic.

(** Go indexing expression with bound check. *)
Definition index {A} (l : list A) (i : Z) : res A :=
  if (0 <=? i) && (i <? zlen l)
  then match nth_error l (Z.to_nat i) with Some a => Ok a | None => Panic end
  else Panic.

(** Assignment l[i] = a for a valid index. *)
Fixpoint set_nth {A} (n : nat) (a : A) (l : list A) : list A :=
  match l, n with
  | [], _ => []
  | _ :: l', O => a :: l'
  | x :: l', S n' => x :: set_nth n' a l'
  end.

Definition set_index {A} (l : list A) (i : Z) (a : A) : res (list A) :=
  if (0 <=? i) && (i <? zlen l) then Ok (set_nth (Z.to_nat i) a l) else Panic.

Definition zeros (n : nat) : bytes := repeat byte0 n.

(** Strings as byte lists. *)
Definition str_bytes (s : string) : bytes := list_ascii_of_string s.
Definition bytes_str (b : bytes) : string := string_of_list_ascii b.
