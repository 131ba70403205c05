(** What glTF 2.0 says of the data of an accessor (sections 3.6.2.2 to
    3.6.2.4), written without reference to the element sizes of the library
    ([element_size] of SpecLayout): where each component of each element lies,
    which accessors conform, and which elements an accessor has. *)
From Coq Require Import Sorted.
From Verif Require Import Base Types Binary SpecLayout Doc SpecDoc.
Local Open Scope nat_scope.

(** Distance of tightly packed elements.  Only the columns of matrices start
    at multiples of 4; elements of vectors follow each other directly. *)
Definition packed_size (c : ComponentType) (t : AccessorType) : nat :=
  if columns t =? 1 then rows t * comp_bytes c else columns t * column_stride c t.

(** Bytes from the start of an element to the end of its last component. *)
Definition extent (c : ComponentType) (t : AccessorType) : nat :=
  component_offset c t (rows t - 1) (columns t - 1) + comp_bytes c.

(** Distance of the elements: the byteStride of the view; packed without. *)
Definition gltf_stride (c : ComponentType) (t : AccessorType) (st : nat) : nat :=
  if st =? 0 then packed_size c t else st.

(** The element whose bytes start at [pos]: its components, row-major, each
    little-endian. *)
Definition gltf_element (c : ComponentType) (t : AccessorType) (b : bytes) (pos : nat) : elem :=
  map (fun f => le_val (sub b (pos + component_offset c t (f / columns t) (f mod columns t)) (comp_bytes c)))
      (seq 0 (rows t * columns t)).

(** Buffer view [i] conforms as the storage of [n] elements starting [ao] bytes
    into it, and these elements are [vs]:
    - the view lies inside its buffer, whose bytes are present;
    - byteStride is absent, or a multiple of 4 from 4 to 252 that is not less
      than the size of an element;
    - the data starts at a multiple of the component size, counted from the
      start of the view and of the buffer, matrices at multiples of 4;
    - the last component of the last element ends inside the view. *)
Definition gltf_stored (d : Document) (i ao : nat) (c : ComponentType) (t : AccessorType)
    (n : nat) (vs : list elem) : Prop :=
  exists v kb b vo vl st,
  nth_error (doc_BufferViews d) i = Some (Some v) /\
  bvw_Buffer v = Z.of_nat kb /\ nth_error (doc_Buffers d) kb = Some (Some b) /\
  bvw_ByteOffset v = Z.of_nat vo /\ bvw_ByteLength v = Z.of_nat vl /\ bvw_ByteStride v = Z.of_nat st /\
  vo + vl <= List.length (buf_Data b) /\
  (st = 0 \/ packed_size c t <= st /\ 4 <= st <= 252 /\ st mod 4 = 0) /\
  ao mod comp_bytes c = 0 /\ (vo + ao) mod comp_bytes c = 0 /\
  (columns t <> 1 -> ao mod 4 = 0 /\ (vo + ao) mod 4 = 0) /\
  1 <= n /\ ao + gltf_stride c t st * (n - 1) + extent c t <= vl /\
  vs = map (fun k => gltf_element c t (buf_Data b) (vo + ao + gltf_stride c t st * k)) (seq 0 n).

(** The views of sparse indices and values have no target and no stride. *)
Definition unstrided (d : Document) (i : nat) : Prop :=
  forall v, nth_error (doc_BufferViews d) i = Some (Some v) -> bvw_ByteStride v = 0%Z /\ bvw_Target v = 0%Z.

(** The elements before the sparse substitution: those stored in the view, or
    zeros if there is none. *)
Definition gltf_base (d : Document) (a : Accessor) (n : nat) (base : list elem) : Prop :=
  match acr_BufferView a with
  | Some z => exists i ao, z = Z.of_nat i /\ acr_ByteOffset a = Z.of_nat ao /\
      gltf_stored d i ao (acr_ComponentType a) (acr_Type a) n base
  | None => base = repeat (repeat 0%Z (rows (acr_Type a) * columns (acr_Type a))) n
  end.

(** The sparse substitution: indices of an unsigned type, strictly increasing
    and below the count. *)
Definition gltf_sparse (d : Document) (c : ComponentType) (t : AccessorType) (n : nat)
    (base : list elem) (sp : Sparse) (vs : list elem) : Prop :=
  exists ni ii io vi vo idx vals,
  spa_Count sp = Z.of_nat ni /\ ni <= n /\
  (let ci := spi_ComponentType (spa_Indices sp) in ci = CUbyte \/ ci = CUshort \/ ci = CUint) /\
  spi_BufferView (spa_Indices sp) = Z.of_nat ii /\ spi_ByteOffset (spa_Indices sp) = Z.of_nat io /\
  gltf_stored d ii io (spi_ComponentType (spa_Indices sp)) AScalar ni (map (fun x => [x]) idx) /\ unstrided d ii /\
  spv_BufferView (spa_Values sp) = Z.of_nat vi /\ spv_ByteOffset (spa_Values sp) = Z.of_nat vo /\
  gltf_stored d vi vo c t ni vals /\ unstrided d vi /\
  StronglySorted Z.lt idx /\ Forall (fun x => 0 <= x < Z.of_nat n)%Z idx /\
  List.length vs = List.length base /\
  (forall p, p < n -> (forall k, nth_error idx k <> Some (Z.of_nat p)) -> nth_error vs p = nth_error base p) /\
  (forall k x, nth_error idx k = Some x -> nth_error vs (Z.to_nat x) = nth_error vals k).

(** Accessor [a] of [d] conforms and its elements are [vs]. *)
Definition gltf_elements (d : Document) (a : Accessor) (vs : list elem) : Prop :=
  ct_valid (acr_ComponentType a) = true /\ at_valid (acr_Type a) = true /\
  exists n base, acr_Count a = Z.of_nat n /\ 1 <= n /\ gltf_base d a n base /\
  match acr_Sparse a with
  | None => vs = base
  | Some sp => gltf_sparse d (acr_ComponentType a) (acr_Type a) n base sp vs
  end.

(** Elements of vertex attributes start at multiples of 4 in their view. *)
Definition vertex_aligned (d : Document) (a : Accessor) : Prop :=
  exists i ao v st, acr_BufferView a = Some (Z.of_nat i) /\ acr_ByteOffset a = Z.of_nat ao /\
  nth_error (doc_BufferViews d) i = Some (Some v) /\ bvw_ByteStride v = Z.of_nat st /\
  ao mod 4 = 0 /\ gltf_stride (acr_ComponentType a) (acr_Type a) st mod 4 = 0.

(** The layouts for which the library reads view [i] as glTF says: the padding
    of the last element lies inside the view too; elements that the library
    pads have an explicit stride; []uint8 has no stride; []int8 has none and
    fills the view. *)
Definition library_layout (d : Document) (i ao : nat) (c : ComponentType) (t : AccessorType) (n : nat) : Prop :=
  forall v, nth_error (doc_BufferViews d) i = Some (Some v) ->
  let st := Z.to_nat (bvw_ByteStride v) in let vl := Z.to_nat (bvw_ByteLength v) in
  ao + gltf_stride c t st * (n - 1) + element_size c t <= vl /\
  (packed_size c t < element_size c t -> st <> 0) /\
  (c = CUbyte -> t = AScalar -> st = 0) /\
  (c = CByte -> t = AScalar -> st = 0 /\ vl = ao + n).

(** The same for all the data of an accessor, of a document that fits in the
    memory of a machine. *)
Definition library_accessor (d : Document) (a : Accessor) : Prop :=
  (forall b, In (Some b) (doc_Buffers d) -> (zlen (buf_Data b) <= max_alloc)%Z) /\
  let c := acr_ComponentType a in let t := acr_Type a in
  match acr_BufferView a with
  | Some z => library_layout d (Z.to_nat z) (Z.to_nat (acr_ByteOffset a)) c t (Z.to_nat (acr_Count a))
  | None => (acr_Count a * Z.of_nat (mem_size c t) <= max_alloc)%Z
  end /\
  match acr_Sparse a with
  | Some sp => library_layout d (Z.to_nat (spv_BufferView (spa_Values sp))) (Z.to_nat (spv_ByteOffset (spa_Values sp)))
                 c t (Z.to_nat (spa_Count sp))
  | None => True
  end.

(** Data that one call stores in one view: a single slice is stored as glTF
    says if its elements need no padding or the view is one of vertices (it
    then has a stride); several slices if the vertex takes a multiple of 4
    bytes, at most 252, components and matrices are aligned and none of the
    slices is a []uint8. *)
Definition writable (target : Z) (data : list slice) : Prop :=
  match data with
  | [s] => forall c t, kind_ct (sk s) = Some (c, t) -> packed_size c t = element_size c t \/ target = 34962%Z
  | _ => sum_sizes data mod 4 = 0 /\ sum_sizes data <= 252 /\ Forall (fun s => sk s <> SK CUbyte AScalar) data /\
         forall k s c t, nth_error data k = Some s -> kind_ct (sk s) = Some (c, t) ->
         sum_sizes (firstn k data) mod (if columns t =? 1 then comp_bytes c else 4) = 0
  end.

