(** Memory: the functions that read accessors as programs on shared memory,
    run by any number of goroutines.

    The other files model slices by their contents.  Here a slice is a part of
    an array, so it is visible which call writes into whose memory: the
    document's buffers, a caller's buffer, a buffer from a sync.Pool, or memory
    that the call allocates.

    Memory is made of byte arrays; a []T is a part of one, its elements are
    stored as on a little-endian host.  A load or store of a range is one step;
    Go promises less, but only programs without races depend on it, and the
    absence of races is proved. *)
From Verif Require Import Base Types Binary Doc ModelerRead.

(** A slice header; offset, length and capacity in bytes. *)
Record mslice : Type := mkMs { ms_arr : nat; ms_off : nat; ms_len : nat; ms_cap : nat }.
Definition ms_nil : mslice := mkMs 0 0 0 0.

(** The two sync.Pools (read.go:14-19, 109-114) and the bytes of what they
    hold: slices of 1024 bytes and of 100 uint32.  The readers never change the
    slice behind the pointer. *)
Inductive pool : Type := BufPool | U32Pool.
Definition pool_bytes (p : pool) : nat := match p with BufPool => Z.to_nat 1024 | U32Pool => Z.to_nat 400 end.
Definition pool_slice (p : pool) (a : nat) : mslice := mkMs a 0 (pool_bytes p) (pool_bytes p).

(** What a goroutine does next. *)
Inductive prog (A : Type) : Type :=
| Ret (a : A)
| Alloc (n : nat) (k : nat -> prog A)                          (* make: a new array of zeros *)
| Load (a off n : nat) (k : bytes -> prog A)
| Store (a off : nat) (d : bytes) (k : prog A)
| Get (p : pool) (k : mslice -> prog A)
| Put (p : pool) (s : mslice) (k : prog A).
Arguments Ret {A}. Arguments Alloc {A}. Arguments Load {A}. Arguments Store {A}. Arguments Get {A}. Arguments Put {A}.

Fixpoint bindp {A B} (m : prog A) (f : A -> prog B) : prog B :=
  match m with
  | Ret a => f a
  | Alloc n k => Alloc n (fun a => bindp (k a) f)
  | Load a off n k => Load a off n (fun d => bindp (k d) f)
  | Store a off d k => Store a off d (bindp k f)
  | Get p k => Get p (fun s => bindp (k s) f)
  | Put p s k => Put p s (bindp k f)
  end.
(** Sequencing with Go's early returns: errors and panics go to the end. *)
Definition bindr {A B} (m : prog (res A)) (f : A -> prog (res B)) : prog (res B) :=
  bindp m (fun r => match r with Ok a => f a | Err e => Ret (Err e) | Panic => Ret Panic end).
Notation "x <~ m ;; f" := (bindr m (fun x => f)) (at level 61, m at next level, right associativity).
Definition pure {A} (r : res A) : prog (res A) := Ret r.
(** bufPtr := pool.Get(); defer pool.Put(bufPtr); the deferred call also runs
    after a panic. *)
Definition with_pool {A} (p : pool) (body : mslice -> prog (res A)) : prog (res A) :=
  Get p (fun s => bindp (body s) (fun r => Put p s (Ret r))).

(** ** The machine *)
Record state (A : Type) : Type := mkState {
  st_heap : list bytes;             (* the array with index i *)
  st_pool : pool -> list mslice;    (* what the pools hold *)
  st_run : list (prog A)            (* the goroutines *)
}.
Arguments mkState {A}. Arguments st_heap {A}. Arguments st_pool {A}. Arguments st_run {A}.
Definition set_pool (f : pool -> list mslice) (p : pool) (l : list mslice) : pool -> list mslice :=
  fun q => match p, q with BufPool, BufPool | U32Pool, U32Pool => l | _, _ => f q end.

(** One step of a goroutine.  Get returns any slice of the pool, or a new one:
    a pool may lose what it holds at any time (sync.Pool). *)
Inductive step1 {A} : list bytes * (pool -> list mslice) * prog A -> list bytes * (pool -> list mslice) * prog A -> Prop :=
| s_alloc h ps n k : step1 (h, ps, Alloc n k) (h ++ [zeros n], ps, k (List.length h))
| s_load h ps a off n k c : nth_error h a = Some c -> (off + n <= List.length c)%nat ->
    step1 (h, ps, Load a off n k) (h, ps, k (sub c off n))
| s_store h ps a off d k c : nth_error h a = Some c -> (off + List.length d <= List.length c)%nat ->
    step1 (h, ps, Store a off d k) (set_nth a (overwrite c off d) h, ps, k)
| s_get h ps p k l1 s l2 : ps p = l1 ++ s :: l2 ->
    step1 (h, ps, Get p k) (h, set_pool ps p (l1 ++ l2), k s)
| s_new h ps p k : step1 (h, ps, Get p k) (h ++ [zeros (pool_bytes p)], ps, k (pool_slice p (List.length h)))
| s_put h ps p s k : step1 (h, ps, Put p s k) (h, set_pool ps p (s :: ps p), k).

(** Any goroutine may be next. *)
Inductive step {A} : state A -> state A -> Prop :=
| step_at h ps l1 m l2 h' ps' m' : step1 (h, ps, m) (h', ps', m') ->
    step (mkState h ps (l1 ++ m :: l2)) (mkState h' ps' (l1 ++ m' :: l2)).
Inductive steps {A} : state A -> state A -> Prop :=
| steps_refl s : steps s s
| steps_next s s' s'' : step s s' -> steps s' s'' -> steps s s''.

(** ** Slices *)
(** Bytes of an element of the Go type for c and t; these types have no
    padding. *)
Definition esize (c : ComponentType) (t : AccessorType) : nat := Z.to_nat (ByteSize c * Components t).
(** An element as bytes, w bytes for each component, and back. *)
Definition image (w : nat) (v : elem) : bytes := List.concat (map (le_bytes w) v).
Definition elem_of (c : ComponentType) (t : AccessorType) (b : bytes) : elem :=
  mem_elem (ByteSize c) (Z.to_nat (Components t)) b 0.

(** Loads and stores relative to a slice; nothing is touched for no bytes. *)
Definition load_at (s : mslice) (off n : nat) : prog bytes :=
  match n with O => Ret [] | _ => Load (ms_arr s) (ms_off s + off) n Ret end.
Definition store_at {A} (s : mslice) (off : nat) (d : bytes) (k : prog A) : prog A :=
  match d with [] => k | _ => Store (ms_arr s) (ms_off s + off) d k end.

(** s[lo:hi] *)
Definition slice_m (s : mslice) (lo hi : Z) : res mslice :=
  if (0 <=? lo) && (lo <=? hi) && (hi <=? Z.of_nat (ms_cap s))
  then Ok (mkMs (ms_arr s) (ms_off s + Z.to_nat lo) (Z.to_nat (hi - lo)) (ms_cap s - Z.to_nat lo)) else Panic.

(** ** binary/slice.go *)
(** slice.go:157-198 *)
Definition MakeSlice_m (c : ComponentType) (t : AccessorType) (count : Z) : prog (res mslice) :=
  match checkAccessorType c t with
  | Ok _ =>
      if (count <? 0) || (max_alloc <? count * (ByteSize c * Components t)) then Ret Panic
      else let n := (Z.to_nat count * esize c t)%nat in Alloc n (fun a => Ret (Ok (mkMs a 0 n n)))
  | Err e => Ret (Err e)
  | Panic => Ret Panic
  end.
(** slice.go:12-22; the slice made by unsafe.Slice has no spare capacity, so
    append moves to a new array. *)
Definition reslice_m (c : ComponentType) (t : AccessorType) (v : mslice) (length rem : Z) : prog (res mslice) :=
  if length <? 0 then Ret Panic else
  let n := (Z.to_nat length * esize c t)%nat in
  if 0 <? rem then
    if max_alloc <? rem * (ByteSize c * Components t) then Ret Panic else
    let m := (Z.to_nat rem * esize c t)%nat in
    Alloc (n + m) (fun a =>
    bindp (load_at v 0 n) (fun old =>
    store_at (mkMs a 0 n n) 0 old
    (Ret (Ok (mkMs a 0 (n + m) (n + m))))))
  else Ret (Ok (mkMs (ms_arr v) (ms_off v) n n)).
(** slice.go:24-138; v is already extended to its capacity. *)
Definition castSlice_m (c : ComponentType) (t : AccessorType) (count : Z) (v : mslice) : prog (res mslice) :=
  let d := ByteSize c * Components t in
  if d =? 0 then Ret Panic else
  let l := Z.of_nat (ms_len v) / d in
  let rem := if l <? count then count - l else 0 in
  let l := if count <? l then count else l in
  match c, t with
  | CUint, AMat3 => Ret Panic
  | _, _ => if ct_valid c && at_valid t then reslice_m c t v l rem else Ret Panic
  end.
(** slice.go:143-152 *)
Definition MakeSliceBuffer_m (c : ComponentType) (t : AccessorType) (count : Z) (buffer : mslice) : prog (res mslice) :=
  match checkAccessorType c t with
  | Ok _ =>
      let buffer := mkMs (ms_arr buffer) (ms_off buffer) (ms_cap buffer) (ms_cap buffer) in
      match ms_len buffer with
      | O => MakeSlice_m c t count
      | _ => castSlice_m c t count buffer
      end
  | Err e => Ret (Err e)
  | Panic => Ret Panic
  end.

(** ** binary/encode.go:17-218, Read; b is [src], data is [dst] *)
Definition load_m (w : Z) (src : mslice) (off : Z) : prog (res Z) :=
  if (0 <=? off) && (off + w <=? Z.of_nat (ms_len src))
  then bindp (load_at src (Z.to_nat off) (Z.to_nat w)) (fun b => Ret (Ok (le_val b))) else Ret Panic.
Fixpoint mapM_m {A B} (f : A -> prog (res B)) (l : list A) : prog (res (list B)) :=
  match l with
  | [] => Ret (Ok [])
  | a :: l' => b <~ f a ;; bs <~ mapM_m f l' ;; Ret (Ok (b :: bs))
  end.
Definition get_elem_m (c : ComponentType) (t : AccessorType) (src : mslice) (base : Z) : prog (res elem) :=
  if (0 <=? base) && (base <=? Z.of_nat (ms_len src))
  then mapM_m (fun o => load_m (ByteSize c) src (base + o)) (get_offsets c t)
  else Ret Panic.
Fixpoint read_loop_m (c : ComponentType) (t : AccessorType) (src : mslice) (e : Z) (dst : mslice) (i : nat) (n : nat) : prog (res unit) :=
  match n with
  | O => Ret (Ok tt)
  | S n' =>
      v <~ get_elem_m c t src (i64 (e * Z.of_nat i)) ;;
      store_at dst (i * esize c t) (image (Z.to_nat (ByteSize c)) v)
      (read_loop_m c t src e dst (S i) n')
  end.
(** encode.go:42-45: for i, x := range b { data[i] = int8(x) } *)
Fixpoint byte_loop_m (src dst : mslice) (i n : nat) : prog (res unit) :=
  match n with
  | O => Ret (Ok tt)
  | S n' =>
      bindp (load_at src i 1) (fun b =>
      if (i <? ms_len dst)%nat then store_at dst i b (byte_loop_m src dst (S i) n') else Ret Panic)
  end.
(** copy(dst, src) on bytes *)
Definition copy_m (dst src : mslice) : prog (res unit) :=
  bindp (load_at src 0 (Nat.min (ms_len dst) (ms_len src))) (fun b => store_at dst 0 b (Ret (Ok tt))).
Definition Read_m (src : mslice) (byteStride : Z) (c : ComponentType) (t : AccessorType) (dst : mslice) : prog (res unit) :=
  let count := (ms_len dst / esize c t)%nat in
  let n := Z.of_nat count in
  let size := SizeOfElement c t in
  let stride := if byteStride =? 0 then size else byteStride in
  let high := i64 (n * stride) in
  let high := if stride =? size then high else i64 (high - i64 (stride - size)) in
  if Z.of_nat (ms_len src) <? high then Ret (Err ErrShortBuffer) else
  match c, t with
  | CByte, AScalar => byte_loop_m src dst 0 (ms_len src)
  | CUbyte, AScalar =>
      if negb (stride =? 1) then copy_m dst src else read_loop_m c t src stride dst 0 count
  | _, _ => read_loop_m c t src stride dst 0 count
  end.

(** ** modeler/read.go *)
Section Reads.
(** The document; the data of buffer j is the slice [nth j ds]. *)
Context (doc : Document) (ds : list mslice).

(** read.go:96-107 *)
Definition ReadBufferView_m (bv : option BufferView) : res mslice :=
  bv <- deref bv ;;
  if zlen (doc_Buffers doc) <=? bvw_Buffer bv then Err (ErrMsg "buffer index overflows")
  else
    b <- index (doc_Buffers doc) (bvw_Buffer bv) ;;
    _ <- deref b ;;
    buf <- index ds (bvw_Buffer bv) ;;
    let high := i64 (bvw_ByteOffset bv + bvw_ByteLength bv) in
    if Z.of_nat (ms_len buf) <? high then Err ErrShortBuffer
    else slice_m buf (bvw_ByteOffset bv) high.
(** read.go:84-89 *)
Definition readBufferView_m (i : Z) : res mslice :=
  if zlen (doc_BufferViews doc) <=? i then Err (ErrMsg "bufferview index overflows")
  else bv <- index (doc_BufferViews doc) i ;; ReadBufferView_m bv.

(** read.go:32-46 *)
Definition read_dense_m (c : ComponentType) (t : AccessorType) (bufferView : option Z) (byteOffset count : Z) (buffer : mslice) : prog (res mslice) :=
  data <~ MakeSliceBuffer_m c t count buffer ;;
  match bufferView with
  | None => Ret (Ok data)
  | Some i =>
      buf <~ pure (readBufferView_m i) ;;
      bv <~ pure (index (doc_BufferViews doc) i) ;;
      bv <~ pure (deref bv) ;;
      tail <~ pure (if (0 <=? byteOffset) && (byteOffset <=? Z.of_nat (ms_len buf))
                    then slice_m buf byteOffset (Z.of_nat (ms_len buf)) else Panic) ;;
      _ <~ Read_m tail (bvw_ByteStride bv) c t data ;;
      Ret (Ok data)
  end.

(** read.go:116-125 on elements of d bytes; append writes behind the length
    when the capacity allows it, and moves to a new array otherwise (the spare
    capacity of that array is not modelled). *)
Definition makeBufferOf_m (d : nat) (count : Z) (buffer : mslice) : prog (res mslice) :=
  let n := (ms_len buffer / d)%nat in
  if Z.of_nat n <? count then
    let m := (Z.to_nat count * d)%nat in
    if (m <=? ms_cap buffer)%nat then
      store_at buffer (ms_len buffer) (zeros (m - ms_len buffer))
      (Ret (Ok (mkMs (ms_arr buffer) (ms_off buffer) m (ms_cap buffer))))
    else
      Alloc m (fun a =>
      bindp (load_at buffer 0 (ms_len buffer)) (fun old =>
      store_at (mkMs a 0 m m) 0 old
      (Ret (Ok (mkMs a 0 m m)))))
  else if negb (count =? 0) then
    if count <? 0 then Ret Panic
    else Ret (Ok (mkMs (ms_arr buffer) (ms_off buffer) (Z.to_nat count * d) (ms_cap buffer)))
  else Ret (Ok buffer).

(** for i, e := range data { buffer[i] = f(e) }, [img] being how the result
    looks in memory, d bytes. *)
Fixpoint fill_loop_m {A} (c : ComponentType) (t : AccessorType) (d : nat) (img : A -> bytes) (f : elem -> A) (data buffer : mslice) (i n : nat) : prog (res unit) :=
  match n with
  | O => Ret (Ok tt)
  | S n' =>
      bindp (load_at data (i * esize c t) (esize c t)) (fun b =>
      if (i <? ms_len buffer / d)%nat
      then store_at buffer (i * d) (img (f (elem_of c t b))) (fill_loop_m c t d img f data buffer (S i) n')
      else Ret Panic)
  end.
(** copy(buffer, data) where the elements look the same in memory. *)
Definition convert_m {A} (c : ComponentType) (t : AccessorType) (d : nat) (img : A -> bytes) (copies : bool) (conv : option (elem -> A)) (data buffer : mslice) : prog (res unit) :=
  if copies then copy_m buffer data
  else match conv with
       | Some f => fill_loop_m c t d img f data buffer 0 (ms_len data / esize c t)
       | None => Ret (Ok tt)
       end.

(** read.go:132-161 and the readers like it: check, take a buffer from the
    pool, read, convert into the caller's buffer. *)
Definition typed_m {A} (check : ComponentType -> AccessorType -> res unit) (d : nat) (img : A -> bytes)
    (copies : skind -> option (elem -> A)) (convert : skind -> option (elem -> A))
    (reader : mslice -> prog (res mslice)) (c : ComponentType) (t : AccessorType) (count : Z) (buffer : mslice) : prog (res mslice) :=
  match check c t with
  | Ok _ =>
      with_pool BufPool (fun s =>
        data <~ reader s ;;
        buffer <~ makeBufferOf_m d count buffer ;;
        _ <~ convert_m c t d img (match copies (SK c t) with Some _ => true | None => false end) (convert (SK c t)) data buffer ;;
        Ret (Ok buffer))
  | Err e => Ret (Err e)
  | Panic => Ret Panic
  end.

Definition idx_copies (k : skind) : option (elem -> Z) := match k with SK CUint AScalar => Some scalar | _ => None end.
Definition idx_convert (k : skind) : option (elem -> Z) := match k with SK CUbyte AScalar | SK CUshort AScalar => Some scalar | _ => None end.
Definition indices_m := typed_m check_indices 4 (le_bytes 4) idx_copies idx_convert.

(** read.go:77-79 *)
Fixpoint sparse_loop_m (c : ComponentType) (t : AccessorType) (indices values data : mslice) (i n : nat) : prog (res unit) :=
  match n with
  | O => Ret (Ok tt)
  | S n' =>
      if (i <? ms_len indices / 4)%nat then
        bindp (load_at indices (i * 4) 4) (fun kb =>
        if (i <? ms_len values / esize c t)%nat then
          bindp (load_at values (i * esize c t) (esize c t)) (fun v =>
          let k := le_val kb in
          if k <? Z.of_nat (ms_len data / esize c t)
          then store_at data (Z.to_nat k * esize c t) v (sparse_loop_m c t indices values data (S i) n')
          else Ret Panic)
        else Ret Panic)
      else Ret Panic
  end.

(** read.go:31-82; the pooled buffers go back when the function returns. *)
Definition ReadAccessor_m (acr : Accessor) (buffer : mslice) : prog (res mslice) :=
  let c := acr_ComponentType acr in
  let t := acr_Type acr in
  data <~ read_dense_m c t (acr_BufferView acr) (acr_ByteOffset acr) (acr_Count acr) buffer ;;
  match acr_Sparse acr with
  | None => Ret (Ok data)
  | Some sp =>
      let si := spa_Indices sp in
      let sv := spa_Values sp in
      with_pool U32Pool (fun ub =>
        indices <~ indices_m (read_dense_m (spi_ComponentType si) AScalar (Some (spi_BufferView si)) (spi_ByteOffset si) (spa_Count sp))
                     (spi_ComponentType si) AScalar (spa_Count sp) ub ;;
        with_pool BufPool (fun vb =>
          values <~ read_dense_m c t (Some (spv_BufferView sv)) (spv_ByteOffset sv) (spa_Count sp) vb ;;
          _ <~ sparse_loop_m c t indices values data 0 (Z.to_nat (spa_Count sp)) ;;
          Ret (Ok data)))
  end.

(** read.go:132-161 *)
Definition ReadIndices_m (acr : Accessor) (buffer : mslice) : prog (res mslice) :=
  indices_m (ReadAccessor_m acr) (acr_ComponentType acr) (acr_Type acr) (acr_Count acr) buffer.
(** The other readers; the result has components of w bytes, n of them. *)
Definition read_typed_m (w n : nat) (check : ComponentType -> AccessorType -> res unit)
    (convert copies : skind -> option (elem -> elem)) (acr : Accessor) (buffer : mslice) : prog (res mslice) :=
  typed_m check (n * w) (image w) copies convert (ReadAccessor_m acr) (acr_ComponentType acr) (acr_Type acr) (acr_Count acr) buffer.

(** read.go:166-182, 187-203, 325-341, 458-474 *)
Definition ReadNormal_m := read_typed_m 4 3 (check_one CFloat AVec3) no_conv (copies_of CFloat AVec3).
Definition ReadTangent_m := read_typed_m 4 4 (check_one CFloat AVec4) no_conv (copies_of CFloat AVec4).
Definition ReadPosition_m := read_typed_m 4 3 (check_one CFloat AVec3) no_conv (copies_of CFloat AVec3).
Definition ReadInverseBindMatrices_m := read_typed_m 4 16 (check_one CFloat AMat4) no_conv (copies_of CFloat AMat4).
(** read.go:210-243 *)
Definition ReadTextureCoord_m (cv : conversions) :=
  read_typed_m 4 2 (check_ubf (at_eqb AVec2))
    (fun k => match k with
              | SK CUbyte AVec2 => Some (map (cv_DenormalizeUbyte cv))
              | SK CUshort AVec2 => Some (map (cv_DenormalizeUshort cv))
              | _ => None
              end)
    (copies_of CFloat AVec2).
(** read.go:250-285 *)
Definition ReadWeights_m (cv : conversions) :=
  read_typed_m 4 4 (check_ubf (at_eqb AVec4))
    (fun k => match k with
              | SK CUbyte AVec4 => Some (map (cv_DenormalizeUbyte cv))
              | SK CUshort AVec4 => Some (map (cv_DenormalizeUshort cv))
              | _ => None
              end)
    (copies_of CFloat AVec4).
(** read.go:292-320 *)
Definition ReadJoints_m :=
  read_typed_m 2 4
    (fun c t => match c with
                | CUbyte | CUshort => if at_eqb AVec4 t then Ok tt else Err errAccessorType
                | _ => Err errComponentType
                end)
    (fun k => match k with SK CUbyte AVec4 => Some ident | _ => None end)
    (copies_of CUshort AVec4).
(** read.go:348-392 *)
Definition ReadColor_m (cv : conversions) :=
  read_typed_m 1 4 (check_ubf (fun t => at_eqb AVec3 t || at_eqb AVec4 t))
    (fun k => match k with
              | SK CUbyte AVec3 => Some (fun e => e ++ [255])
              | SK CUshort AVec3 => Some (fun e => map (fun x => x mod 256) e ++ [255])
              | SK CUshort AVec4 => Some (map (fun x => x mod 256))
              | SK CFloat AVec3 => Some (fun e => cv_NormalizeRGB cv e ++ [255])
              | SK CFloat AVec4 => Some (cv_NormalizeRGBA cv)
              | _ => None
              end)
    (copies_of CUbyte AVec4).
(** read.go:399-453 *)
Definition ReadColor64_m (cv : conversions) :=
  read_typed_m 2 4 (check_ubf (fun t => at_eqb AVec3 t || at_eqb AVec4 t))
    (fun k => match k with
              | SK CUbyte AVec3 => Some (fun e => map widen8 e ++ [65535])
              | SK CUbyte AVec4 => Some (map widen8)
              | SK CUshort AVec3 => Some (fun e => e ++ [65535])
              | SK CFloat AVec3 => Some (fun e => cv_NormalizeRGB64 cv e ++ [65535])
              | SK CFloat AVec4 => Some (cv_NormalizeRGBA64 cv)
              | _ => None
              end)
    (copies_of CUshort AVec4).
End Reads.
