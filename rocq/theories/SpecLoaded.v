(** Specification: what is known of a document that was read from JSON.  Base
    types; the document types are in SpecLoadedDoc (generated). *)
From Verif Require Import Base Types Doc F64 SpecText Codec SpecJson SpecGo.

(** A value of type any with numbers that JSON can carry. *)
Definition loaded_any (v : any) : Prop := go_any v /\ savable_any v.
(** A map of extensions whose values are as [Q] says. *)
Definition loaded_ext (Q : string -> extv -> Prop) (m : Extensions) : Prop :=
  sorted_keys m /\ Forall (fun p => utf8_str (fst p) /\ Q (fst p) (snd p)) m.

(** A value of an extension that was made from some JSON: by the function
    registered for it or, if there is none or it failed, the JSON itself. *)
Definition from_json (X : ext_lib) (k : string) (e : extv) : Prop :=
  exists j, lexical j /\
    match registry X k with
    | Some f => match f j with Ok v => e = EVal v | Err _ => e = ERaw j | Panic => False end
    | None => e = ERaw j
    end.

(** A camera with a projection. *)
Definition has_projection (c : Camera) : Prop := cam_Orthographic c <> None \/ cam_Perspective c <> None.

(** All members of a map of extensions are as [Q] says; the extensions of what
    a pointer refers to. *)
Definition all_ext (Q : string -> extv -> Prop) (m : Extensions) : Prop := Forall (fun p => Q (fst p) (snd p)) m.
Definition of_opt {A} (f : A -> Extensions) (o : option A) : Extensions := match o with Some x => f x | None => [] end.
