(** What it means for concurrent reads to be safe, in terms of the machine of
    Memory.v only. *)
From Verif Require Import Base Types Binary Doc ModelerRead Memory.

(** ** Races *)
(** The memory a goroutine is about to access, and whether it writes. *)
Definition next_access {A} (m : prog A) : option (nat * bool) :=
  match m with
  | Load a _ _ _ => Some (a, false)
  | Store a _ _ _ => Some (a, true)
  | _ => None
  end.
(** Two goroutines are about to access the same array, and one of them writes.
    (Go asks only about the same location.) *)
Definition race {A} (st : state A) : Prop :=
  exists i j mi mj a wi wj, i <> j /\ nth_error (st_run st) i = Some mi /\ nth_error (st_run st) j = Some mj /\
    next_access mi = Some (a, wi) /\ next_access mj = Some (a, wj) /\ (wi = true \/ wj = true).
(** A goroutine is about to access a buffer that it has given back. *)
Definition pooled {A} (st : state A) (a : nat) : Prop := exists p s, In s (st_pool st p) /\ ms_arr s = a.
Definition use_after_put {A} (st : state A) : Prop :=
  exists i m a w, nth_error (st_run st) i = Some m /\ next_access m = Some (a, w) /\ pooled st a.
(** A goroutine that has not finished but cannot go on: it would access memory
    outside of an array. *)
Definition stuck {A} (st : state A) : Prop :=
  exists i m, nth_error (st_run st) i = Some m /\ (forall a, m <> Ret a) /\
    forall h' ps' m', ~ step1 (st_heap st, st_pool st, m) (h', ps', m').

(** ** Contents *)
Definition holds (h : list bytes) (s : mslice) (v : bytes) : Prop :=
  List.length v = ms_len s /\ (ms_len s = 0%nat \/ exists c, nth_error h (ms_arr s) = Some c /\ (ms_off s + ms_len s <= List.length c)%nat /\ v = sub c (ms_off s) (ms_len s)).
(** All of the slice up to its capacity is memory. *)
Definition in_memory (h : list bytes) (s : mslice) : Prop :=
  (ms_len s <= ms_cap s)%nat /\ (ms_cap s = 0%nat \/ exists c, nth_error h (ms_arr s) = Some c /\ (ms_off s + ms_cap s <= List.length c)%nat).
Definition to_cap (s : mslice) : mslice := mkMs (ms_arr s) (ms_off s) (ms_cap s) (ms_cap s).
(** A []T in memory, [img] being the bytes of an element. *)
Definition image_of {A} (img : A -> bytes) (vs : list A) : bytes := List.concat (map img vs).

(** ** Calls *)
(** The nine readers with arrays of numbers as elements: components of w bytes,
    n of them. *)
Inductive typed_reader : Type := RNormal | RTangent | RTextureCoord | RWeights | RJoints | RPosition | RColor | RColor64 | RInverseBindMatrices.
Definition comp_width (r : typed_reader) : nat :=
  match r with RColor => 1 | RJoints | RColor64 => 2 | _ => 4 end.
Definition comp_count (r : typed_reader) : nat :=
  match r with RNormal | RPosition => 3 | RTextureCoord => 2 | RInverseBindMatrices => 16 | _ => 4 end.
(** A call with its buffer, and what the buffer contains. *)
Inductive call : Type :=
| CallAccessor (acr : Accessor) (buffer : mslice) (b : bytes)           (* b: up to the capacity *)
| CallIndices (acr : Accessor) (buffer : mslice) (vs : list Z)
| CallTyped (r : typed_reader) (acr : Accessor) (buffer : mslice) (vs : list elem).
Definition call_buffer (k : call) : mslice :=
  match k with CallAccessor _ s _ | CallIndices _ s _ | CallTyped _ _ s _ => s end.

(** The values on which a reader works. *)
Definition typed_value (cv : conversions) (r : typed_reader) :=
  match r with
  | RNormal => ReadNormal
  | RTangent => ReadTangent
  | RTextureCoord => ReadTextureCoord cv
  | RWeights => ReadWeights cv
  | RJoints => ReadJoints
  | RPosition => ReadPosition
  | RColor => ReadColor cv
  | RColor64 => ReadColor64 cv
  | RInverseBindMatrices => ReadInverseBindMatrices
  end.
(** The call as a program. *)
Definition call_prog (cv : conversions) (doc : Document) (ds : list mslice) (k : call) : prog (res mslice) :=
  match k with
  | CallAccessor acr s _ => ReadAccessor_m doc ds acr s
  | CallIndices acr s _ => ReadIndices_m doc ds acr s
  | CallTyped r acr s _ =>
      match r with
      | RNormal => ReadNormal_m doc ds acr s
      | RTangent => ReadTangent_m doc ds acr s
      | RTextureCoord => ReadTextureCoord_m doc ds cv acr s
      | RWeights => ReadWeights_m doc ds cv acr s
      | RJoints => ReadJoints_m doc ds acr s
      | RPosition => ReadPosition_m doc ds acr s
      | RColor => ReadColor_m doc ds cv acr s
      | RColor64 => ReadColor64_m doc ds cv acr s
      | RInverseBindMatrices => ReadInverseBindMatrices_m doc ds acr s
      end
  end.
(** The conversions give numbers of their Go types. *)
Definition comps (n : nat) (max : Z) (v : elem) : Prop := List.length v = n /\ Forall (fun x => 0 <= x < max) v.
Definition conv_ranges (cv : conversions) : Prop :=
  (forall x, 0 <= x < 256 -> 0 <= cv_DenormalizeUbyte cv x < 2 ^ 32) /\
  (forall x, 0 <= x < 65536 -> 0 <= cv_DenormalizeUshort cv x < 2 ^ 32) /\
  (forall e, comps 3 (2 ^ 32) e -> comps 3 256 (cv_NormalizeRGB cv e)) /\
  (forall e, comps 4 (2 ^ 32) e -> comps 4 256 (cv_NormalizeRGBA cv e)) /\
  (forall e, comps 3 (2 ^ 32) e -> comps 3 65536 (cv_NormalizeRGB64 cv e)) /\
  (forall e, comps 4 (2 ^ 32) e -> comps 4 65536 (cv_NormalizeRGBA64 cv e)).

Definition elem_ok (r : typed_reader) (v : elem) : Prop :=
  List.length v = comp_count r /\ Forall (fun x => 0 <= x < 256 ^ Z.of_nat (comp_width r)) v.
Definition u32_range (z : Z) : Prop := 0 <= z < 2 ^ 32.
Definition call_ready (h : list bytes) (k : call) : Prop :=
  in_memory h (call_buffer k) /\
  match k with
  | CallAccessor _ s b => holds h (to_cap s) b
  | CallIndices _ s vs => holds h s (image_of (le_bytes 4) vs) /\ Forall u32_range vs
  | CallTyped r _ s vs => holds h s (image_of (image (comp_width r)) vs) /\ Forall (elem_ok r) vs
  end.

(** The result of a finished call agrees with a result on values. *)
Definition agrees {V} (h : list bytes) (v : res V) (bytes_of : V -> bytes) (r : res mslice) : Prop :=
  match v with
  | Ok x => exists s, r = Ok s /\ holds h s (bytes_of x)
  | Err e => r = Err e
  | Panic => r = Panic
  end.
(** The contents of pooled buffers, which nothing is known about. *)
Definition pools_range (p : pools) : Prop :=
  List.length (p_u32 p) = Z.to_nat 100 /\ Forall u32_range (p_u32 p) /\ List.length (p_idx p) = Z.to_nat 1024 /\ List.length (p_val p) = Z.to_nat 1024.
Definition finished (cv : conversions) (doc : Document) (h : list bytes) (k : call) (r : res mslice) : Prop :=
  exists pool p, List.length pool = Z.to_nat 1024 /\ pools_range p /\
  match k with
  | CallAccessor acr _ b => agrees h (ReadAccessor doc acr b p) (fun sl => image_of (image (Z.to_nat (ByteSize (acr_ComponentType acr)))) (els sl)) r
  | CallIndices acr _ vs => agrees h (ReadIndices doc acr vs pool p) (image_of (le_bytes 4)) r
  | CallTyped rd acr _ vs => agrees h (typed_value cv rd doc acr vs pool p) (image_of (image (comp_width rd))) r
  end.

(** ** The beginning *)
(** Arrays of the document's buffers, and of the callers' buffers. *)
Definition doc_array (ds : list mslice) (a : nat) : Prop := exists s, In s ds /\ ms_len s <> 0%nat /\ ms_arr s = a.
Definition call_array (ks : list call) (a : nat) : Prop := exists k, In k ks /\ ms_cap (call_buffer k) <> 0%nat /\ ms_arr (call_buffer k) = a.
Definition doc_loaded (h : list bytes) (doc : Document) (ds : list mslice) : Prop :=
  Forall2 (fun b s => (ms_len s <= ms_cap s)%nat /\ match b with Some b => holds h s (buf_Data b) | None => ms_len s = 0%nat end) (doc_Buffers doc) ds.
Record ready {A} (doc : Document) (ds : list mslice) (ks : list call) (st : state A) : Prop := mkReady {
  r_doc : doc_loaded (st_heap st) doc ds;
  r_calls : Forall (call_ready (st_heap st)) ks;
  (* the calls' buffers are in different arrays, and not in the document *)
  r_apart : forall i j k1 k2, i <> j -> nth_error ks i = Some k1 -> nth_error ks j = Some k2 ->
    ms_cap (call_buffer k1) <> 0%nat -> ms_cap (call_buffer k2) <> 0%nat -> ms_arr (call_buffer k1) <> ms_arr (call_buffer k2);
  r_apart_doc : forall a, call_array ks a -> ~ doc_array ds a;
  (* the pools hold slices of their size, each once and in no other use *)
  r_pool : forall p s, In s (st_pool st p) -> exists a c, s = pool_slice p a /\ nth_error (st_heap st) a = Some c /\ List.length c = pool_bytes p;
  r_pool_once : NoDup (map ms_arr (st_pool st BufPool ++ st_pool st U32Pool));
  r_pool_apart : forall a, pooled st a -> ~ doc_array ds a /\ ~ call_array ks a
}.
