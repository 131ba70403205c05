(** Component and accessor types: const.go:41-117, gltf.go:488-507.

    Go enums are unsigned integers; the six (seven) named values are
    constructors and every other integer is [CTOther n] ([ATOther n]). *)
From Verif Require Import Base.

(** const.go:41-50 *)
Inductive ComponentType : Type :=
| CFloat | CByte | CUbyte | CShort | CUshort | CUint
| CTOther (n : Z).

(** const.go:93-104 *)
Inductive AccessorType : Type :=
| AScalar | AVec2 | AVec3 | AVec4 | AMat2 | AMat3 | AMat4
| ATOther (n : Z).

Definition ct_valid (c : ComponentType) : bool :=
  match c with CTOther _ => false | _ => true end.
Definition at_valid (t : AccessorType) : bool :=
  match t with ATOther _ => false | _ => true end.

(** const.go:53-62, ComponentType.ByteSize; the map lookup of a missing key
    gives 0. *)
Definition ByteSize (c : ComponentType) : Z :=
  match c with
  | CByte => 1 | CUbyte => 1
  | CShort => 2 | CUshort => 2
  | CUint => 4 | CFloat => 4
  | CTOther _ => 0
  end.

(** const.go:107-117, AccessorType.Components *)
Definition Components (t : AccessorType) : Z :=
  match t with
  | AScalar => 1 | AVec2 => 2 | AVec3 => 3 | AVec4 => 4
  | AMat2 => 4 | AMat3 => 9 | AMat4 => 16
  | ATOther _ => 0
  end.

(** gltf.go:492-507, SizeOfElement; the cases of the Go switch in order. *)
Definition SizeOfElement (c : ComponentType) (t : AccessorType) : Z :=
  match t, c with
  | AVec3, CByte | AVec3, CUbyte | AVec2, CByte | AVec2, CUbyte => 4
  | AVec3, CShort | AVec3, CUshort => 8
  | AMat2, CByte | AMat2, CUbyte => 8
  | AMat3, CByte | AMat3, CUbyte => 12
  | AMat3, CShort | AMat3, CUshort => 24
  | _, _ => ByteSize c * Components t
  end.

Definition ct_eqb (a b : ComponentType) : bool :=
  match a, b with
  | CFloat, CFloat | CByte, CByte | CUbyte, CUbyte
  | CShort, CShort | CUshort, CUshort | CUint, CUint => true
  | CTOther n, CTOther m => n =? m
  | _, _ => false
  end.

Definition at_eqb (a b : AccessorType) : bool :=
  match a, b with
  | AScalar, AScalar | AVec2, AVec2 | AVec3, AVec3 | AVec4, AVec4
  | AMat2, AMat2 | AMat3, AMat3 | AMat4, AMat4 => true
  | ATOther n, ATOther m => n =? m
  | _, _ => false
  end.
