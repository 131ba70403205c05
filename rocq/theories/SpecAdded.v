(** What the writers of package modeler add to a document
    (modeler/write.go:21-237, 247-376). *)
From Verif Require Import Base Types Binary SpecLayout Doc F64 SpecDoc ModelerWrite SpecAppend.

(** The call is given data it can write, see C98. *)
Definition accepted (op : wop) : Prop :=
  match op with
  | OpImage _ _ (Ok _) => True
  | OpImage _ _ _ => False
  | OpPrimitiveAttributes l => Forall fine l /\ agree (attr_slices l)
  | _ => agree (op_slices op)
  end.

(** The buffer that is appended to, an empty new one when there is none, and the
    buffer after it: zeros up to [from], then the new bytes.  The declared length
    grows by as much, modulo 2^64. *)
Definition last_buffer (d : Document) : Buffer :=
  match rev (doc_Buffers d) with Some b :: _ => b | _ => mkBuffer [] VNull "" "" 0 [] end.
Definition longer (b : Buffer) (from : Z) (new : bytes) : Buffer :=
  mkBuffer (buf_Extensions b) (buf_Extras b) (buf_Name b) (buf_URI b)
    (i64 (buf_ByteLength b + (from + zlen new - zlen (buf_Data b))))
    (buf_Data b ++ repeat byte0 (Z.to_nat (from - zlen (buf_Data b))) ++ new).

(** The bytes from one element to the next: only when there is more than one
    slice, or when vertex attributes are padded. *)
Definition padded (s : slice) : bool :=
  match kind_ct (sk s) with Some (c, t) => negb (comp_bytes c * (rows t * columns t) =? element_size c t)%nat | None => false end.
Definition row_bytes (target : Z) (data : list slice) : Z :=
  match data with
  | [s] => if (target =? 34962) && padded s then Z.of_nat (elem_bytes s) else 0
  | _ => Z.of_nat (sum_sizes data)
  end.
Definition op_target (op : wop) : Z :=
  match op with
  | OpIndices _ => 34963
  | OpAccessor t _ | OpBufferView t _ => t
  | OpImage _ _ _ => 0
  | _ => 34962
  end.
Definition new_view (d : Document) (op : wop) : BufferView :=
  mkBufferView [] VNull (zlen (removelast (doc_Buffers d))) (start (op_aligned op) d) (total_bytes (op_slices op))
    (row_bytes (op_target op) (op_slices op)) (op_target op) "".

(** The slices that get an accessor, whether it is normalized, and whether it has
    bounds.  Of several attributes of the name POSITION the last has them. *)
Record entry : Type := mkEntry { e_slice : slice; e_normalized : bool; e_bounds : bool }.
Definition with_data (a : PrimitiveAttribute) : list (string * slice) :=
  match attr_Data a with Some s => match els s with [] => [] | _ => [(attr_Name a, s)] end | None => [] end.
Definition is_position (p : string * slice) : bool := String.eqb (fst p) "POSITION".
Fixpoint attr_entries (l : list (string * slice)) : list entry :=
  match l with
  | [] => []
  | (name, s) :: r => mkEntry s (normalized_name name && integer_kind (sk s)) (is_position (name, s) && negb (existsb is_position r)) :: attr_entries r
  end.
Definition op_entries (op : wop) : list entry :=
  match op with
  | OpImage _ _ _ | OpBufferView _ _ | OpBufferViewInterleaved _ => []
  | OpTextureCoord s | OpWeights s | OpColor s => [mkEntry s (integer_kind (sk s)) false]
  | OpPosition _ => map (fun s => mkEntry s false true) (op_slices op)
  | OpPrimitiveAttributes l => attr_entries (flat_map with_data l)
  | _ => map (fun s => mkEntry s false false) (op_slices op)
  end.
(** The bounds are the least and greatest of each coordinate. *)
Definition bounds (data : list elem) (mn mx : list Z) : Prop :=
  List.length mn = 3%nat /\ List.length mx = 3%nat /\
  forall j, (j < 3)%nat ->
    (exists v, In v data /\ nth j mn 0 = f64_of_f32 (nth j v 0)) /\
    (exists v, In v data /\ nth j mx 0 = f64_of_f32 (nth j v 0)) /\
    (forall v, In v data -> f64_le (nth j mn 0) (f64_of_f32 (nth j v 0)) = true /\
                            f64_le (f64_of_f32 (nth j v 0)) (nth j mx 0) = true).
Definition describes (view offset : Z) (e : entry) (a : Accessor) : Prop :=
  (exists c t, kind_ct (sk (e_slice e)) = Some (c, t) /\
     a = mkAccessor [] VNull "" (Some view) offset c (e_normalized e) (zlen (els (e_slice e))) t (acr_Max a) (acr_Min a) None) /\
  (e_bounds e = false -> acr_Min a = [] /\ acr_Max a = []) /\
  (e_bounds e = true -> els (e_slice e) <> [] -> Forall (wf_elem CFloat AVec3) (els (e_slice e)) ->
     Forall (Forall (fun x => f32_finite x = true)) (els (e_slice e)) -> bounds (els (e_slice e)) (acr_Min a) (acr_Max a)).
Definition describe (view : Z) (es : list entry) (accs : list Accessor) : Prop :=
  List.length accs = List.length es /\
  forall k e, nth_error es k = Some e -> exists a, nth_error accs k = Some a /\
    describes view (Z.of_nat (sum_sizes (firstn k (map e_slice es)))) e a.

Definition new_images (d : Document) (op : wop) : list (option Image) :=
  match op with OpImage name mime _ => [Some (mkImage [] VNull name "" mime (Some (zlen (doc_BufferViews d))))] | _ => [] end.

(** The document after the call: nothing but these four lists changes. *)
Definition added (d : Document) (op : wop) (new : bytes) (accs : list Accessor) : Document :=
  mkDocument (doc_Extensions d) (doc_Extras d) (doc_ExtensionsUsed d) (doc_ExtensionsRequired d)
    (doc_Accessors d ++ map Some accs) (doc_Animations d) (doc_Asset d)
    (removelast (doc_Buffers d) ++ [Some (longer (last_buffer d) (start (op_aligned op) d) new)])
    (doc_BufferViews d ++ [Some (new_view d op)])
    (doc_Cameras d) (doc_Images d ++ new_images d op) (doc_Materials d) (doc_Meshes d) (doc_Nodes d) (doc_Samplers d)
    (doc_Scene d) (doc_Scenes d) (doc_Skins d) (doc_Textures d).
