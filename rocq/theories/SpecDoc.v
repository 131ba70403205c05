(** Specification vocabulary for documents and the modeler. *)
From Verif Require Import Base Types Binary SpecLayout Doc.

(** Everything of a document except accessors, views, buffers and images. *)
Definition doc_rest (d : Document) : Document :=
  set_doc_Images [] (set_doc_Accessors [] (set_doc_BufferViews [] (set_doc_Buffers [] d))).

(** [b'] is [b] with bytes appended (and a new ByteLength). *)
Definition buffer_extends (b b' : Buffer) : Prop :=
  (exists more, buf_Data b' = buf_Data b ++ more) /\
  buf_Extensions b' = buf_Extensions b /\ buf_Extras b' = buf_Extras b /\
  buf_Name b' = buf_Name b /\ buf_URI b' = buf_URI b.

Definition opt_rel {A} (R : A -> A -> Prop) (x y : option A) : Prop :=
  match x, y with Some a, Some b => R a b | None, None => True | _, _ => False end.

(** [d'] is [d] with things appended: existing accessors, views and images are
    the same, existing buffers keep their bytes, nothing else changes. *)
Definition extends (d d' : Document) : Prop :=
  (exists l, doc_Accessors d' = doc_Accessors d ++ l) /\
  (exists l, doc_BufferViews d' = doc_BufferViews d ++ l) /\
  (exists l, doc_Images d' = doc_Images d ++ l) /\
  (forall i x, nth_error (doc_Buffers d) i = Some x ->
     exists x', nth_error (doc_Buffers d') i = Some x' /\ opt_rel buffer_extends x x') /\
  doc_rest d' = doc_rest d.

(** Structural validity, as required by glTF 2.0 (3.6). *)
Definition valid_buffer (b : Buffer) : Prop := buf_ByteLength b = zlen (buf_Data b).

Definition valid_view (d : Document) (v : BufferView) : Prop :=
  exists k b, bvw_Buffer v = Z.of_nat k /\ nth_error (doc_Buffers d) k = Some (Some b) /\
  0 <= bvw_ByteOffset v /\ 0 <= bvw_ByteLength v /\ 0 <= bvw_ByteStride v /\
  bvw_ByteOffset v + bvw_ByteLength v <= zlen (buf_Data b).

Definition valid_accessor (d : Document) (a : Accessor) : Prop :=
  ct_valid (acr_ComponentType a) = true /\ at_valid (acr_Type a) = true /\
  acr_Sparse a = None /\
  exists k v n, acr_BufferView a = Some (Z.of_nat k) /\
  nth_error (doc_BufferViews d) k = Some (Some v) /\
  acr_Count a = Z.of_nat n /\ 0 <= acr_ByteOffset a /\
  (bvw_ByteStride v = 0 \/
   Z.of_nat (element_size (acr_ComponentType a) (acr_Type a)) <= bvw_ByteStride v) /\
  acr_ByteOffset a +
  Z.of_nat (needed (acr_ComponentType a) (acr_Type a)
     (eff_stride (acr_ComponentType a) (acr_Type a) (Z.to_nat (bvw_ByteStride v))) n)
  <= bvw_ByteLength v.

Definition valid_image (d : Document) (im : Image) : Prop :=
  match img_BufferView im with
  | None => True
  | Some k => 0 <= k < zlen (doc_BufferViews d)
  end.

Definition all_some {A} (P : A -> Prop) (l : list (option A)) : Prop :=
  Forall (fun o => exists a, o = Some a /\ P a) l.

Definition consistent (d : Document) : Prop :=
  all_some valid_buffer (doc_Buffers d) /\
  all_some (valid_view d) (doc_BufferViews d) /\
  all_some (valid_accessor d) (doc_Accessors d) /\
  all_some (valid_image d) (doc_Images d).

(** Two views are disjoint. *)
Definition disjoint_views (v w : BufferView) : Prop :=
  bvw_Buffer v <> bvw_Buffer w \/
  bvw_ByteOffset v + bvw_ByteLength v <= bvw_ByteOffset w \/
  bvw_ByteOffset w + bvw_ByteLength w <= bvw_ByteOffset v.

(** The element kind ReadAccessor reports for data written from a slice:
    color.RGBA reads back as [4]uint8 and color.RGBA64 as [4]uint16. *)
Definition read_kind (k : skind) : skind :=
  match k with
  | SRGBA => SK CUbyte AVec4
  | SRGBA64 => SK CUshort AVec4
  | _ => k
  end.

(** Supported slice, its element size in bytes, and the sum over a list: the
    distance between two consecutive vertices of interleaved data. *)
Definition supported (s : slice) : Prop := exists c t, kind_ct (sk s) = Some (c, t).

Definition elem_bytes (s : slice) : nat :=
  match kind_ct (sk s) with Some (c, t) => element_size c t | None => 0%nat end.

Definition sum_sizes (data : list slice) : nat := list_sum (map elem_bytes data).

Definition same_length (data : list slice) : Prop :=
  forall s s', In s data -> In s' data -> List.length (els s) = List.length (els s').

(** []uint8 and []int8 (scalars): their special cases in package binary do
    not honour strides. *)
Definition byte_scalar (k : skind) : Prop := k = SK CUbyte AScalar \/ k = SK CByte AScalar.

(** Attributes with at least one element. *)
Definition attr_nonempty (d : option slice) : bool :=
  match d with Some s => negb (Nat.eqb (List.length (els s)) 0) | None => false end.

(** Integer data of these attributes is to be flagged normalized. *)
Definition integer_kind (k : skind) : bool :=
  match kind_ct k with Some (CFloat, _) => false | Some _ => true | None => false end.

(** The last buffer exists (or will be created) and can take [n] more bytes. *)
Definition room (d : Document) (n : Z) : Prop :=
  match rev (doc_Buffers d) with
  | [] => n <= max_alloc
  | Some b :: _ => zlen (buf_Data b) + n <= max_alloc
  | None :: _ => False
  end.

(** Same accessors, views, images and other contents; buffers may have grown. *)
Definition only_buffers (d d' : Document) : Prop :=
  extends d d' /\ doc_Accessors d' = doc_Accessors d /\
  doc_BufferViews d' = doc_BufferViews d /\ doc_Images d' = doc_Images d.

(** Go types accepted for the attributes that WritePrimitiveAttributes knows. *)
Definition attr_permitted (name : string) (k : skind) : Prop :=
  let ub_us_f t := k = SK CUbyte t \/ k = SK CUshort t \/ k = SK CFloat t in
  (name = "POSITION"%string -> k = SK CFloat AVec3) /\
  (name = "TEXCOORD_0"%string \/ name = "TEXCOORD_1"%string -> ub_us_f AVec2) /\
  (name = "WEIGHTS_0"%string -> ub_us_f AVec4) /\
  (name = "JOINTS_0"%string -> k = SK CUbyte AVec4 \/ k = SK CUshort AVec4) /\
  (name = "COLOR_0"%string -> ub_us_f AVec3 \/ ub_us_f AVec4 \/ k = SRGBA \/ k = SRGBA64).

(** Names whose integer data the code flags as normalized. *)
Definition normalized_name (name : string) : bool :=
  existsb (String.eqb name) ["TEXCOORD_0"; "TEXCOORD_1"; "WEIGHTS_0"; "COLOR_0"]%string.

(** The [n] elements [vs] are stored in the document, starting [ao] bytes into
    buffer view [i], at the view's stride, inside the view and the buffer.
    []uint8 with a stride above 1 and []int8 not filling the view are left out
    (binary.Read does not honour them). *)
Definition seq_at (d : Document) (i ao : nat) (c : ComponentType) (t : AccessorType)
    (n : nat) (vs : list elem) : Prop :=
  exists v kb b vo vl st,
  nth_error (doc_BufferViews d) i = Some (Some v) /\
  bvw_Buffer v = Z.of_nat kb /\ nth_error (doc_Buffers d) kb = Some (Some b) /\
  bvw_ByteOffset v = Z.of_nat vo /\ bvw_ByteLength v = Z.of_nat vl /\ bvw_ByteStride v = Z.of_nat st /\
  (vo + vl <= List.length (buf_Data b))%nat /\ zlen (buf_Data b) < 2 ^ 63 /\
  (ao <= vl)%nat /\ (st = 0 \/ element_size c t <= st)%nat /\
  (ao + needed c t (eff_stride c t st) n <= vl)%nat /\
  fits c t (eff_stride c t st) n /\
  (reads_strided (SK c t) st \/ (c = CByte /\ t = AScalar /\ (st <= 1)%nat /\ (vl - ao)%nat = n)) /\
  List.length vs = n /\
  forall k v, nth_error vs k = Some v ->
    wf_elem c t v /\ stored_at c t (buf_Data b) (vo + ao + eff_stride c t st * k) v.

(** [res] is [base] with element idx[k] replaced by vals[k], later k winning. *)
Definition overlaid (base : list elem) (idx : list Z) (vals res : list elem) : Prop :=
  List.length res = List.length base /\
  forall p, (p < List.length base)%nat ->
    (exists k, nth_error idx k = Some (Z.of_nat p) /\
       (forall k', (k < k')%nat -> nth_error idx k' <> Some (Z.of_nat p)) /\
       nth_error res p = nth_error vals k) \/
    ((forall k, nth_error idx k <> Some (Z.of_nat p)) /\ nth_error res p = nth_error base p).

(** Allocating [count] elements neither panics nor runs out of memory. *)
Definition countable (c : ComponentType) (t : AccessorType) (count : Z) : Prop :=
  0 <= count /\ count * Z.of_nat (mem_size c t) <= max_alloc.

(** The part of a document reached through buffer view index [i] has no nil
    pointers, no negative fields and no overflowing sums; it may still be out
    of range or too short, which the readers report as an error. *)
Definition view_safe (d : Document) (c : ComponentType) (t : AccessorType) (i off count : Z) : Prop :=
  0 <= i /\
  forall vo, nth_error (doc_BufferViews d) (Z.to_nat i) = Some vo ->
  exists v, vo = Some v /\ 0 <= bvw_Buffer v /\ 0 <= bvw_ByteOffset v /\ 0 <= bvw_ByteLength v /\
    bvw_ByteOffset v + bvw_ByteLength v < 2 ^ 63 /\ 0 <= off <= bvw_ByteLength v /\
    0 <= bvw_ByteStride v /\
    (ct_valid c = true -> at_valid t = true ->
     fits c t (eff_stride c t (Z.to_nat (bvw_ByteStride v))) (Z.to_nat count)) /\
    (c = CByte /\ t = AScalar -> bvw_ByteLength v - off <= count) /\
    forall bo, nth_error (doc_Buffers d) (Z.to_nat (bvw_Buffer v)) = Some bo ->
      exists b, bo = Some b /\ zlen (buf_Data b) < 2 ^ 63.

(** Bytes are copied, not decoded, for []uint8 and []int8; enough of them are
    there when the stride is not negative and the extent does not overflow. *)
Definition stride_ok (d : Document) (c : ComponentType) (t : AccessorType) (i count : Z) : Prop :=
  byte_scalar (SK c t) ->
  forall v, nth_error (doc_BufferViews d) (Z.to_nat i) = Some (Some v) ->
    0 <= bvw_ByteStride v /\ fits c t (eff_stride c t (Z.to_nat (bvw_ByteStride v))) (Z.to_nat count).

(** Accessor formats that glTF 2.0 permits (3.7.2.1, 3.7.3, 3.7.2.4). *)
Definition permitted (cs : list ComponentType) (ts : list AccessorType) (c : ComponentType) (t : AccessorType) : Prop :=
  In c cs /\ In t ts.

(** When a read through a buffer view is independent of memory handed out for
    reuse: []uint8/[]int8 strides are sane, the allocation is possible, and
    the format is not [3][3]uint32. *)
Definition reusable (d : Document) (a : Accessor) : Prop :=
  let c := acr_ComponentType a in let t := acr_Type a in
  ~ (c = CUint /\ t = AMat3) /\
  acr_Count a * Z.of_nat (mem_size c t) <= max_alloc /\
  (exists i, acr_BufferView a = Some i /\ stride_ok d c t i (acr_Count a)) /\
  match acr_Sparse a with
  | None => True
  | Some sp =>
      let ci := spi_ComponentType (spa_Indices sp) in
      spa_Count sp * Z.of_nat (mem_size c t) <= max_alloc /\
      spa_Count sp * Z.of_nat (mem_size ci AScalar) <= max_alloc /\
      stride_ok d ci AScalar (spi_BufferView (spa_Indices sp)) (spa_Count sp) /\
      stride_ok d c t (spv_BufferView (spa_Values sp)) (spa_Count sp)
  end.
