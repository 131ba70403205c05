(** What reading an accessor gives, in terms of the document alone: when it
    crashes, when it succeeds, and with which elements (modeler/read.go:31-107).
    Positions and extents are exact integers; [modest] says when Go's int can
    hold them. *)
From Verif Require Import Base Types Binary SpecLayout Doc SpecDoc.

(** Buffer view [i] is there, and so is the buffer it names. *)
Definition found (d : Document) (i : Z) (v : BufferView) (b : Buffer) : Prop :=
  0 <= i /\ nth_error (doc_BufferViews d) (Z.to_nat i) = Some (Some v) /\
  0 <= bvw_Buffer v /\ nth_error (doc_Buffers d) (Z.to_nat (bvw_Buffer v)) = Some (Some b).

(** The view lies inside the buffer. *)
Definition spans (v : BufferView) (b : Buffer) : Prop :=
  0 <= bvw_ByteOffset v /\ 0 <= bvw_ByteLength v /\
  bvw_ByteOffset v + bvw_ByteLength v <= zlen (buf_Data b).

(** Looking the view up crashes: a negative index, a null entry, or a negative
    offset or length that ends inside the buffer all the same. *)
Definition lookup_crashes (d : Document) (i : Z) : Prop :=
  i < 0 \/
  nth_error (doc_BufferViews d) (Z.to_nat i) = Some None \/
  exists v, nth_error (doc_BufferViews d) (Z.to_nat i) = Some (Some v) /\
    (bvw_Buffer v < 0 \/
     nth_error (doc_Buffers d) (Z.to_nat (bvw_Buffer v)) = Some None \/
     exists b, nth_error (doc_Buffers d) (Z.to_nat (bvw_Buffer v)) = Some (Some b) /\
       bvw_ByteOffset v + bvw_ByteLength v <= zlen (buf_Data b) /\
       (bvw_ByteOffset v < 0 \/ bvw_ByteLength v < 0)).

(** Distance between two elements, and from the first byte of the first to
    the last byte of the last. *)
Definition step (c : ComponentType) (t : AccessorType) (v : BufferView) : Z :=
  if bvw_ByteStride v =? 0 then Z.of_nat (element_size c t) else bvw_ByteStride v.
Definition extent (c : ComponentType) (t : AccessorType) (v : BufferView) (n : Z) : Z :=
  (n - 1) * step c t v + Z.of_nat (element_size c t).

Definition bytes_only (c : ComponentType) (t : AccessorType) : bool :=
  match c, t with CByte, AScalar | CUbyte, AScalar => true | _, _ => false end.

(** Enough bytes are there, but reading them crashes: []int8 with bytes to
    spare, or a second element before the first. *)
Definition decode_crashes (c : ComponentType) (t : AccessorType) (v : BufferView) (n r : Z) : Prop :=
  c = CByte /\ t = AScalar /\ n < r \/
  bytes_only c t = false /\ 2 <= n /\ step c t v < 0.

(** The slice for [n] elements cannot be made on top of [buf]. *)
Definition make_crashes (c : ComponentType) (t : AccessorType) (n : Z) (buf : bytes) : Prop :=
  n < 0 \/ c = CUint /\ t = AMat3 /\ buf <> [].

Definition dense_crashes (d : Document) (c : ComponentType) (t : AccessorType)
    (bv : option Z) (off n : Z) (buf : bytes) : Prop :=
  ct_valid c = true /\ at_valid t = true /\
  (make_crashes c t n buf \/
   exists i, bv = Some i /\
     (lookup_crashes d i \/
      exists v b, found d i v b /\ spans v b /\
        (off < 0 \/ bvw_ByteLength v < off \/
         extent c t v n <= bvw_ByteLength v - off /\ decode_crashes c t v n (bvw_ByteLength v - off)))).

(** Element [k] of the result.  []int8 and []uint8 are taken one byte after
    the other whatever the stride; where the view ends before that (negative
    strides only) the element keeps what the reuse buffer held. *)
Definition element_of (c : ComponentType) (t : AccessorType) (v : BufferView) (b : Buffer)
    (off : Z) (buf : bytes) (k : nat) (e : elem) : Prop :=
  let start := bvw_ByteOffset v + off in
  if bytes_only c t then
    if Z.of_nat k <? bvw_ByteLength v - off
    then wf_elem c t e /\ stored_at c t (buf_Data b) (Z.to_nat (start + Z.of_nat k)) e
    else e = buffer_elem c t buf k
  else wf_elem c t e /\ stored_at c t (buf_Data b) (Z.to_nat (start + step c t v * Z.of_nat k)) e.

(** Reading without substitutions gives exactly [vs]. *)
Definition dense_reads (d : Document) (c : ComponentType) (t : AccessorType)
    (bv : option Z) (off n : Z) (buf : bytes) (vs : list elem) : Prop :=
  ct_valid c = true /\ at_valid t = true /\ ~ make_crashes c t n buf /\ zlen vs = n /\
  match bv with
  | None => forall k e, nth_error vs k = Some e -> e = buffer_elem c t buf k
  | Some i => exists v b, found d i v b /\ spans v b /\ 0 <= off <= bvw_ByteLength v /\
      extent c t v n <= bvw_ByteLength v - off /\ ~ decode_crashes c t v n (bvw_ByteLength v - off) /\
      forall k e, nth_error vs k = Some e -> element_of c t v b off buf k e
  end.

Definition index_component (c : ComponentType) : Prop := c = CUbyte \/ c = CUshort \/ c = CUint.

(** The whole accessor.  [buf] is the caller's buffer, [bufi] and [bufv] the
    pooled ones used for the indices and the substituted values. *)
Definition base_crashes (d : Document) (a : Accessor) (buf : bytes) : Prop :=
  dense_crashes d (acr_ComponentType a) (acr_Type a) (acr_BufferView a) (acr_ByteOffset a) (acr_Count a) buf.
Definition base_reads (d : Document) (a : Accessor) (buf : bytes) : list elem -> Prop :=
  dense_reads d (acr_ComponentType a) (acr_Type a) (acr_BufferView a) (acr_ByteOffset a) (acr_Count a) buf.
Definition indices_crash (d : Document) (sp : Sparse) (bufi : bytes) : Prop :=
  dense_crashes d (spi_ComponentType (spa_Indices sp)) AScalar (Some (spi_BufferView (spa_Indices sp)))
    (spi_ByteOffset (spa_Indices sp)) (spa_Count sp) bufi.
Definition indices_read (d : Document) (sp : Sparse) (bufi : bytes) (idx : list Z) : Prop :=
  dense_reads d (spi_ComponentType (spa_Indices sp)) AScalar (Some (spi_BufferView (spa_Indices sp)))
    (spi_ByteOffset (spa_Indices sp)) (spa_Count sp) bufi (map (fun x => [x]) idx).
Definition values_crash (d : Document) (a : Accessor) (sp : Sparse) (bufv : bytes) : Prop :=
  dense_crashes d (acr_ComponentType a) (acr_Type a) (Some (spv_BufferView (spa_Values sp)))
    (spv_ByteOffset (spa_Values sp)) (spa_Count sp) bufv.
Definition values_read (d : Document) (a : Accessor) (sp : Sparse) (bufv : bytes) : list elem -> Prop :=
  dense_reads d (acr_ComponentType a) (acr_Type a) (Some (spv_BufferView (spa_Values sp)))
    (spv_ByteOffset (spa_Values sp)) (spa_Count sp) bufv.

Definition accessor_crashes (d : Document) (a : Accessor) (buf bufi bufv : bytes) : Prop :=
  base_crashes d a buf \/
  exists base sp, base_reads d a buf base /\ acr_Sparse a = Some sp /\
    index_component (spi_ComponentType (spa_Indices sp)) /\
    (indices_crash d sp bufi \/
     exists idx, indices_read d sp bufi idx /\
       (values_crash d a sp bufv \/
        exists vals x, values_read d a sp bufv vals /\ In x idx /\ acr_Count a <= x)).

Definition accessor_reads (d : Document) (a : Accessor) (buf bufi bufv : bytes) (vs : list elem) : Prop :=
  exists base, base_reads d a buf base /\
  match acr_Sparse a with
  | None => vs = base
  | Some sp => index_component (spi_ComponentType (spa_Indices sp)) /\
      exists idx vals, indices_read d sp bufi idx /\ values_read d a sp bufv vals /\
        Forall (fun x => x < acr_Count a) idx /\ overlaid base idx vals vs
  end.

(** Sizes for which no sum or product leaves Go's int. *)
Definition modest_view (v : BufferView) : Prop :=
  - 2 ^ 62 < bvw_ByteOffset v < 2 ^ 62 /\ - 2 ^ 62 < bvw_ByteLength v < 2 ^ 62 /\
  - 2 ^ 31 < bvw_ByteStride v < 2 ^ 31.
Definition modest (d : Document) (a : Accessor) : Prop :=
  (forall v, In (Some v) (doc_BufferViews d) -> modest_view v) /\
  acr_Count a < 2 ^ 31 /\ forall sp, acr_Sparse a = Some sp -> spa_Count sp < 2 ^ 31.
