(** Specification of what JSON keeps of any value a Go program can hold: base
    types.  The document types are in SpecKeepDoc (generated). *)
From Verif Require Import Base Types Doc F64 SpecText JsonText Codec SpecJson.

(** [rep] replaces each byte that is not UTF-8 by U+FFFD; there is one such
    function. *)
Definition repairs (rep : string -> string) : Prop := forall s, repaired (str_bytes s) (str_bytes (rep s)).

(** Two keys that become the same: the later one in the order of the written
    members stays. *)
Definition has_key {A} (k : string) (m : list (string * A)) : bool := existsb (fun p => String.eqb (fst p) k) m.
Fixpoint put {A} (k : string) (v : A) (m : list (string * A)) : list (string * A) :=
  match m with
  | [] => [(k, v)]
  | p :: m' => match String.compare k (fst p) with Lt => (k, v) :: m | _ => p :: put k v m' end
  end.
Fixpoint collect {A} (m : list (string * A)) : list (string * A) :=
  match m with
  | [] => []
  | (k, v) :: m' => if has_key k m' then collect m' else put k v (collect m')
  end.

(** Values of enumerations that have no glTF form.  A primitive mode becomes
    POINTS (1), because it is written as 0. *)
Definition kept_ct (c : ComponentType) : ComponentType := match c with CTOther _ => CFloat | _ => c end.
Definition kept_mode (m : Z) : Z := if (0 <=? m) && (m <? 7) then m else 1.
Definition kept_enum (n : Z) (m : Z) : Z := if (0 <=? m) && (m <? n) then m else 0.

Section Keep.
Context (X : ext_lib) (rep : string -> string).

Definition kept_attrs (m : list (string * Z)) : list (string * Z) := collect (map (fun p => (rep (fst p), snd p)) m).
Fixpoint kept_any (v : any) : any :=
  match v with
  | VStr s => VStr (rep s)
  | VArr l => VArr (map kept_any l)
  | VObj m => VObj (collect (map (fun p => (rep (fst p), kept_any (snd p))) m))
  | _ => v
  end.

(** The JSON that is written for an extension, and its reading by the decoder
    that is registered under the repaired name. *)
Definition written_payload (k : string) (e : extv) : json :=
  match e with
  | ERaw j => j
  | EVal v => match ext_enc X k v with Ok j => j | _ => JNull end
  end.
Definition kept_ext (m : Extensions) : Extensions :=
  map (fun p => (fst p, read_payload X (fst p) (snd p)))
    (collect (map (fun p => (rep (fst p), written_payload (fst p) (snd p))) m)).
End Keep.

(** The version of an asset. *)
Definition kept_version (rep : string -> string) (s : string) : string := if String.eqb s "" then "2.0" else rep s.

(** The types of all accessors are declared ones. *)
Definition typed (d : Document) : bool :=
  forallb (fun o => match o with Some a => at_valid (acr_Type a) | None => true end) (doc_Accessors d).
