(** Specification of confined paths and of URIs with a scheme (RFC 3986). *)
From Verif Require Import Base.

(** A path is its elements separated by slashes. *)
Fixpoint joined (elems : list bytes) : bytes :=
  match elems with
  | [] => []
  | [e] => e
  | e :: rest => e ++ "/"%char :: joined rest
  end.

(** Following the elements from a directory at depth [d] below the base:
    empty and "." elements stay, ".." goes up, others go down.  [None] when
    the walk leaves the base directory. *)
Fixpoint walk (d : nat) (elems : list bytes) : option nat :=
  match elems with
  | [] => Some d
  | e :: rest =>
      if list_eq_dec Ascii.ascii_dec e [] then walk d rest
      else if list_eq_dec Ascii.ascii_dec e (str_bytes ".") then walk d rest
      else if list_eq_dec Ascii.ascii_dec e (str_bytes "..") then
        match d with O => None | S d' => walk d' rest end
      else walk (S d) rest
  end.

(** Read relative to the base directory, the path never leaves it. *)
Definition confined (p : bytes) : Prop :=
  exists elems, Forall (fun e => ~ In "/"%char e) elems /\ p = joined elems /\
    walk 0 elems <> None.

Definition local_path (p : bytes) : Prop :=
  p <> [] /\ (forall q, p <> "/"%char :: q) /\ confined p.

Definition letter (b : byte) : Prop := 97 <= b2z b <= 122 \/ 65 <= b2z b <= 90.
Definition scheme_char (b : byte) : Prop :=
  letter b \/ 48 <= b2z b <= 57 \/ In b (str_bytes "+-.").

(** The URI begins with a scheme. *)
Definition carries_scheme (p : bytes) : Prop :=
  exists c s rest, p = (c :: s) ++ ":"%char :: rest /\ letter c /\ Forall scheme_char s.
