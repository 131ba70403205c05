(** What it means for a writer to leave memory alone, byte by byte. *)
From Verif Require Import Base Types Binary Doc ModelerWrite Memory SpecMemory WriteMemory.

Definition byte_at (h : list bytes) (a p : nat) : option ascii :=
  match nth_error h a with Some c => nth_error c p | None => None end.
(** Sets of positions in memory: the elements of a slice, and its capacity
    behind the elements. *)
Definition range (s : mslice) (a p : nat) : Prop := a = ms_arr s /\ (ms_off s <= p < ms_off s + ms_len s)%nat.
Definition spare_of (s : mslice) (a p : nat) : Prop := a = ms_arr s /\ (ms_off s + ms_len s <= p < ms_off s + ms_cap s)%nat.
(** The capacity of the last buffer, which is where the writers append. *)
Definition last_spare (ds : list mslice) (a p : nat) : Prop :=
  exists s, nth_error ds (List.length ds - 1) = Some s /\ spare_of s a p.
(** All bytes outside of R are as they were. *)
Definition kept (R : nat -> nat -> Prop) (h h' : list bytes) : Prop :=
  forall a p x, byte_at h a p = Some x -> ~ R a p -> byte_at h' a p = Some x.
Definition disjoint (s : mslice) (R : nat -> nat -> Prop) : Prop := forall a p, range s a p -> ~ R a p.

(** The document without the data of its buffers. *)
Definition strip_buf (b : Buffer) : Buffer := set_buf_Data [] b.
Definition strip (doc : Document) : Document := set_doc_Buffers (map (option_map strip_buf) (doc_Buffers doc)) doc.

(** The data that a call writes. *)
Definition op_sources (op : mop) : list msrc :=
  match op with
  | MIndices d | MTextureCoord d | MWeights d | MJoints d | MColor d | MAccessor _ d | MBufferView _ d => [d]
  | MNormal n s | MPosition n s => [mkSrc (SK CFloat AVec3) n s]
  | MTangent n s => [mkSrc (SK CFloat AVec4) n s]
  | MInverseBindMatrices n s => [mkSrc (SK CFloat AMat4) n s]
  | MImage _ _ (Ok s) => [mkSrc (SK CUbyte AScalar) (ms_len s) s]
  | MImage _ _ _ => []
  | MInterleaved l | MBufferViewInterleaved l => l
  | MPrimitiveAttributes a => List.concat (map (fun x => match ma_data x with Some s => [s] | None => [] end) a)
  end.
(** A source in memory, [count] elements. *)
Definition src_ready (h : list bytes) (R : nat -> nat -> Prop) (s : msrc) : Prop :=
  let '(c, t) := sk_ct (src_kind s) in
  ms_len (src_at s) = (src_count s * Z.to_nat (ByteSize c * Components t))%nat /\
  (exists v, holds h (src_at s) v) /\ disjoint (src_at s) R.
(** The call on values. *)
Definition op_value (h : list bytes) (op : mop) : wop :=
  match op with
  | MIndices d => OpIndices (src_value h d)
  | MNormal n s => OpNormal (els (src_value h (mkSrc (SK CFloat AVec3) n s)))
  | MTangent n s => OpTangent (els (src_value h (mkSrc (SK CFloat AVec4) n s)))
  | MTextureCoord d => OpTextureCoord (src_value h d)
  | MWeights d => OpWeights (src_value h d)
  | MJoints d => OpJoints (src_value h d)
  | MInverseBindMatrices n s => OpInverseBindMatrices (els (src_value h (mkSrc (SK CFloat AMat4) n s)))
  | MPosition n s => OpPosition (els (src_value h (mkSrc (SK CFloat AVec3) n s)))
  | MColor d => OpColor (src_value h d)
  | MImage n m r => OpImage n m (match r with Ok s => Ok (peek h s) | Err e => Err e | Panic => Panic end)
  | MAccessor t d => OpAccessor t (src_value h d)
  | MInterleaved l => OpInterleaved (map (src_value h) l)
  | MPrimitiveAttributes a => OpPrimitiveAttributes (map (attr_value h) a)
  | MBufferView t d => OpBufferView t (src_value h d)
  | MBufferViewInterleaved l => OpBufferViewInterleaved (map (src_value h) l)
  end.

(** A document in memory: the buffers' data may lie anywhere, also in each
    other, but not where the writers append. *)
Record writable (h : list bytes) (doc : Document) (ds : list mslice) : Prop := mkWritable {
  wr_doc : doc_loaded h doc ds;
  wr_mem : Forall (in_memory h) ds;
  wr_spare : Forall (fun s => disjoint s (last_spare ds)) ds
}.
