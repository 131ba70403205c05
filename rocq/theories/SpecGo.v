(** Specification: the values a Go program can give to the fields of a
    document, and which of them JSON can carry.  Base types; the document
    types are in SpecGoDoc (generated).

    [go_*] only says that a number is one of its Go type, that a raw message
    holds a JSON value, and that the encoder of a registered extension returns
    JSON or an error; it excludes no document.  [savable_*] says which of these
    values have a JSON form at all. *)
From Verif Require Import Base Types Doc F64 SpecText Codec SpecJson.

(** A JSON value whose literals follow the grammar, however deep. *)
Definition lexical (j : json) : Prop := exists n, wf_json n j.

(** A float64, given by its bits; NaN and the infinities included. *)
Definition go_float (f : Z) : Prop := 0 <= f < 2 ^ 64.
Definition finite (f : Z) : Prop := f64_finite f = true.
Definition go_array (k : nat) (l : list Z) : Prop := List.length l = k /\ Forall go_float l.

(** Values of type any, as json.Unmarshal makes them. *)
Inductive go_any : any -> Prop :=
| ga_null : go_any VNull
| ga_bool b : go_any (VBool b)
| ga_num f : go_float f -> go_any (VNum f)
| ga_str s : go_any (VStr s)
| ga_arr l : Forall go_any l -> go_any (VArr l)
| ga_obj m : Forall (fun p => go_any (snd p)) m -> go_any (VObj m).
Inductive savable_any : any -> Prop :=
| sa_null : savable_any VNull
| sa_bool b : savable_any (VBool b)
| sa_num f : finite f -> savable_any (VNum f)
| sa_str s : savable_any (VStr s)
| sa_arr l : Forall savable_any l -> savable_any (VArr l)
| sa_obj m : Forall (fun p => savable_any (snd p)) m -> savable_any (VObj m).

Definition go_attrs (m : list (string * Z)) : Prop := Forall (fun p => in_i64 (snd p)) m.

Section Ext.
Context (X : ext_lib).
Definition go_extv (k : string) (e : extv) : Prop :=
  match e with
  | ERaw j => lexical j
  | EVal v => match ext_enc X k v with Ok j => lexical j | Err _ => True | Panic => False end
  end.
Definition savable_extv (k : string) (e : extv) : Prop :=
  match e with
  | ERaw _ => True
  | EVal v => exists j, ext_enc X k v = Ok j
  end.
Definition go_ext (m : Extensions) : Prop := Forall (fun p => go_extv (fst p) (snd p)) m.
Definition savable_ext (m : Extensions) : Prop := Forall (fun p => savable_extv (fst p) (snd p)) m.
End Ext.

(** How deep arrays and objects are nested. *)
Fixpoint nesting (j : json) : nat :=
  match j with
  | JArr l => S (fold_right (fun v => Nat.max (nesting v)) 0%nat l)
  | JObj m => S (fold_right (fun p => Nat.max (nesting (snd p))) 0%nat m)
  | _ => 0%nat
  end.
