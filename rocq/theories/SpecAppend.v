(** When the writers of package modeler crash, when they report an error and
    when they succeed (modeler/write.go:196-237, 305-376). *)
From Verif Require Import Base Types Binary SpecLayout Doc SpecDoc ModelerWrite.

(** The last buffer, which the data is appended to, is nil. *)
Definition last_nil (d : Document) : Prop := exists l, doc_Buffers d = l ++ [None].
(** The bytes it has, none when there is no buffer yet; and with the padding to
    a multiple of four. *)
Definition last_bytes (d : Document) : Z :=
  match rev (doc_Buffers d) with Some b :: _ => zlen (buf_Data b) | _ => 0 end.
Definition last_padded (d : Document) : Z := (last_bytes d + 3) / 4 * 4.

(** Number of bytes of interleaved data. *)
Definition total_bytes (data : list slice) : Z :=
  match data with [] => 0 | s :: _ => zlen (els s) * Z.of_nat (sum_sizes data) end.

Definition agree (data : list slice) : Prop := Forall supported data /\ same_length data.
(** The first slice that is not like the ones before it has another length, or
    is of a type that is not supported. *)
Definition other_length (data : list slice) : Prop :=
  exists first before s after, data = (first :: before) ++ s :: after /\ agree (first :: before) /\ supported s /\ zlen (els s) <> zlen (els first).
Definition other_type (data : list slice) : Prop :=
  exists before s after, data = before ++ s :: after /\ agree before /\ ~ supported s.
(** More than one slice, none of them with an element. *)
Definition several_empty (data : list slice) : Prop :=
  (2 <= List.length data)%nat /\ Forall (fun s => els s = []) data.
(** The memory that slices of the data, or of the buffer, can have. *)
Definition beyond (n : Z) : Prop := 2 ^ 48 < n.

(** Appending slices to the last buffer, after padding it when [aligned]. *)
Definition start (aligned : bool) (d : Document) : Z := if aligned then last_padded d else last_bytes d.
Definition append_crashes (aligned : bool) (d : Document) (data : list slice) : Prop :=
  other_type data \/
  (aligned = true \/ agree data) /\ (last_nil d \/ beyond (start aligned d)) \/
  agree data /\ (beyond (start aligned d + total_bytes data) \/ several_empty data).

(** Elements have the components their type says (Go arrays always do). *)
Definition typed (s : slice) : Prop := forall c t, kind_ct (sk s) = Some (c, t) -> Forall (wf_elem c t) (els s).

(** Attributes: the first that is not fine decides.  Data that is not a slice
    crashes; a type that the attribute's name does not permit is an error. *)
Definition unsliced (a : PrimitiveAttribute) : Prop := exists s, attr_Data a = Some s /\ sk s = SNotSlice.
Definition refused (a : PrimitiveAttribute) : Prop :=
  exists s, attr_Data a = Some s /\ sk s <> SNotSlice /\ els s <> [] /\ ~ attr_permitted (attr_Name a) (sk s).
Definition fine (a : PrimitiveAttribute) : Prop := ~ unsliced a /\ ~ refused a.
Definition first_is (P : PrimitiveAttribute -> Prop) (l : list PrimitiveAttribute) : Prop :=
  exists before a after, l = before ++ a :: after /\ Forall fine before /\ P a.
(** Attributes without data are left out. *)
Definition attr_slices (l : list PrimitiveAttribute) : list slice :=
  flat_map (fun a => match attr_Data a with Some s => match els s with [] => [] | _ => [s] end | None => [] end) l.
Definition attributes_crash (d : Document) (l : list PrimitiveAttribute) : Prop :=
  first_is unsliced l \/ Forall fine l /\ append_crashes true d (attr_slices l).

(** The calls: the types the writers of one attribute accept, the data they
    append, and whether they pad the buffer first. *)
Definition one_of (k : skind) (l : list skind) : Prop := In k l.
Definition op_type (op : wop) : Prop :=
  match op with
  | OpIndices d => one_of (sk d) [SK CUshort AScalar; SK CUint AScalar]
  | OpTextureCoord d => one_of (sk d) [SK CUbyte AVec2; SK CUshort AVec2; SK CFloat AVec2]
  | OpWeights d => one_of (sk d) [SK CUbyte AVec4; SK CUshort AVec4; SK CFloat AVec4]
  | OpJoints d => one_of (sk d) [SK CUbyte AVec4; SK CUshort AVec4]
  | OpColor d => one_of (sk d) [SRGBA; SRGBA64; SK CUbyte AVec3; SK CUbyte AVec4; SK CUshort AVec3; SK CUshort AVec4; SK CFloat AVec3; SK CFloat AVec4]
  | _ => True
  end.
Definition op_slices (op : wop) : list slice :=
  match op with
  | OpIndices d | OpTextureCoord d | OpWeights d | OpJoints d | OpColor d | OpAccessor _ d | OpBufferView _ d => [d]
  | OpNormal d | OpPosition d => [mkSlice (SK CFloat AVec3) d]
  | OpTangent d => [mkSlice (SK CFloat AVec4) d]
  | OpInverseBindMatrices d => [mkSlice (SK CFloat AMat4) d]
  | OpInterleaved l | OpBufferViewInterleaved l => l
  | OpImage _ _ (Ok data) => [mkSlice (SK CUbyte AScalar) (map (fun b => [b2z b]) data)]
  | OpImage _ _ _ => []
  | OpPrimitiveAttributes l => attr_slices l
  end.
Definition op_aligned (op : wop) : bool :=
  match op with OpImage _ _ _ | OpBufferView _ _ | OpBufferViewInterleaved _ => false | _ => true end.
Definition op_crashes (d : Document) (op : wop) : Prop :=
  match op with
  | OpImage _ _ (Err _) => False
  | OpImage _ _ Panic => True
  | OpPrimitiveAttributes l => attributes_crash d l
  | _ => ~ op_type op \/ append_crashes (op_aligned op) d (op_slices op)
  end.
