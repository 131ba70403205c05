(** Specification of encodable values and of what JSON keeps of them:
    base types.  The document types are in SpecJsonDoc (generated). *)
From Verif Require Import Base Types Doc F64 SpecText JsonText Codec.

Definition utf8_str (s : string) : Prop := valid_utf8 (str_bytes s).
Definition float_ok (f : Z) : Prop := 0 <= f < 2 ^ 64 /\ f64_finite f = true.

(** Maps have strictly increasing keys. *)
Inductive sorted_keys {A} : list (string * A) -> Prop :=
| sk_nil : sorted_keys []
| sk_one p : sorted_keys [p]
| sk_cons p q m : String.compare (fst p) (fst q) = Lt -> sorted_keys (q :: m) -> sorted_keys (p :: q :: m).

(** Values of type any nested at most [n] deep. *)
Inductive wf_any : nat -> any -> Prop :=
| wa_null n : wf_any n VNull
| wa_bool n b : wf_any n (VBool b)
| wa_num n f : float_ok f -> wf_any n (VNum f)
| wa_str n s : utf8_str s -> wf_any n (VStr s)
| wa_arr n l : Forall (wf_any n) l -> wf_any (S n) (VArr l)
| wa_obj n m : sorted_keys m -> Forall (fun p => utf8_str (fst p) /\ wf_any n (snd p)) m ->
    wf_any (S n) (VObj m).

(** Maps from strings to Go ints. *)
Definition wf_attrs (m : list (string * Z)) : Prop :=
  sorted_keys m /\ Forall (fun p => utf8_str (fst p) /\ in_i64 (snd p)) m.

Definition opt {A} (P : A -> Prop) (o : option A) : Prop :=
  match o with Some a => P a | None => True end.

(** What remains of an array property: numerically default or all-zero arrays
    become the default. *)
Definition same_numbers (a b : list Z) : bool :=
  (List.length a =? List.length b)%nat && forallb (fun p => f64_eq (fst p) (snd p)) (combine a b).
Definition or_default (dflt zero v : list Z) : list Z :=
  if same_numbers v dflt || same_numbers v zero then dflt else v.

(** ** Extensions *)
Section Ext.
Context (X : ext_lib).
(** A raw payload is any JSON; a typed payload is one its encoder can write. *)
Definition wf_payload (n : nat) (k : string) (j : json) : Prop :=
  wf_json n j /\ forall f, registry X k = Some f -> f (html_json j) <> Panic.
Definition wf_extv (n : nat) (k : string) (e : extv) : Prop :=
  match e with
  | ERaw j => wf_payload n k j
  | EVal v => exists j, ext_enc X k v = Ok j /\ wf_payload n k j
  end.
(** The payload read back: what the factory builds, or the raw JSON. *)
Definition read_payload (k : string) (j : json) : extv :=
  match registry X k with
  | Some f => match f (html_json j) with Ok v => EVal v | _ => ERaw (html_json j) end
  | None => ERaw (html_json j)
  end.
Definition norm_extv (k : string) (e : extv) : extv :=
  match e with
  | ERaw j => read_payload k j
  | EVal v => match ext_enc X k v with Ok j => read_payload k j | _ => e end
  end.
Definition wf_ext (n : nat) (m : Extensions) : Prop :=
  sorted_keys m /\ Forall (fun p => utf8_str (fst p) /\ wf_extv n (fst p) (snd p)) m.
Definition norm_ext (m : Extensions) : Extensions := map (fun p => (fst p, norm_extv (fst p) (snd p))) m.
(** Raw payloads only where decoding keeps them raw, typed payloads written
    the same way again after having been read back. *)
Definition canon_ext (m : Extensions) : Prop :=
  Forall (fun p => match snd p with
                   | ERaw j => forall f, registry X (fst p) = Some f -> exists e, f (html_json j) = Err e
                   | EVal v => forall j f v', ext_enc X (fst p) v = Ok j -> registry X (fst p) = Some f ->
                       f (html_json j) = Ok v' -> ext_enc X (fst p) v' = Ok j
                   end) m.
(** Payloads that no longer change once they have been written and read. *)
Definition settled_ext (m : Extensions) : Prop :=
  sorted_keys m /\ Forall (fun p => norm_extv (fst p) (norm_extv (fst p) (snd p)) = norm_extv (fst p) (snd p)) m.
End Ext.

Definition farray (k : nat) (l : list Z) : Prop := List.length l = k /\ Forall float_ok l.
Definition range (n : Z) (x : Z) : Prop := 0 <= x < n.

(** 1.0 and 0.5; the default transforms. *)
Definition one : Z := 0x3FF0000000000000.
Definition half : Z := 0x3FE0000000000000.
Definition identity_matrix : list Z := [one;0;0;0; 0;one;0;0; 0;0;one;0; 0;0;0;one].
Definition identity_rotation : list Z := [0;0;0;one].
Definition identity_scale : list Z := [one;one;one].

(** A missing value stands for [d]. *)
Definition or_some {A} (d : A) (o : option A) : option A := Some (match o with Some a => a | None => d end).
