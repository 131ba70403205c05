(** Model of modeler/read.go.

    Pools.  sync.Pool.Get returns a pointer to a slice of any contents that
    an earlier call left behind (or a fresh one), so every Get is an explicit
    argument of the reader; [pools] collects the three of a sparse read. *)
From Verif Require Import Base Types Binary Doc.

Record pools : Type := mkPools {
  p_u32 : list Z;        (* uint32Pool.Get(), read.go:49 *)
  p_idx : bytes;         (* bufPool.Get() inside ReadIndices, read.go:141 *)
  p_val : bytes          (* bufPool.Get(), read.go:62 *)
}.

(** What New creates: read.go:14-19, 109-114. *)
Definition fresh_u32 : list Z := repeat 0 100.
Definition fresh_buf : bytes := zeros 1024.
Definition fresh_pools : pools := mkPools fresh_u32 fresh_buf fresh_buf.

(** read.go:96-107, ReadBufferView; bv may be a nil pointer. *)
Definition ReadBufferView (doc : Document) (bv : option BufferView) : res bytes :=
  bv <- deref bv ;;
  if zlen (doc_Buffers doc) <=? bvw_Buffer bv then Err (ErrMsg "buffer index overflows")
  else
    b <- index (doc_Buffers doc) (bvw_Buffer bv) ;;
    b <- deref b ;;
    let buf := buf_Data b in
    let high := i64 (bvw_ByteOffset bv + bvw_ByteLength bv) in
    if zlen buf <? high then Err ErrShortBuffer
    else slice_range buf (bvw_ByteOffset bv) high.

(** read.go:84-89 *)
Definition readBufferView (doc : Document) (i : Z) : res bytes :=
  if zlen (doc_BufferViews doc) <=? i then Err (ErrMsg "bufferview index overflows")
  else bv <- index (doc_BufferViews doc) i ;; ReadBufferView doc bv.

(** read.go:32-46: the non-sparse part of ReadAccessor. *)
Definition read_dense (doc : Document) (c : ComponentType) (t : AccessorType)
    (bufferView : option Z) (byteOffset count : Z) (buffer : bytes) : res slice :=
  data <- MakeSliceBuffer c t count buffer ;;
  match bufferView with
  | None => Ok data
  | Some i =>
      buf <- readBufferView doc i ;;
      bv <- index (doc_BufferViews doc) i ;;
      bv <- deref bv ;;
      tail <- slice_from buf byteOffset ;;
      Read tail (bvw_ByteStride bv) data
  end.

(** read.go:116-125, makeBufferOf.  Its callers have already allocated count
    elements, so running out of address space is not modelled here. *)
Definition makeBufferOf {A} (zero : A) (count : Z) (buffer : list A) : res (list A) :=
  if zlen buffer <? count then
    Ok (buffer ++ repeat zero (Z.to_nat (count - zlen buffer)))
  else if negb (count =? 0) then slice_range buffer 0 count
  else Ok buffer.

(** for i, e := range data { buffer[i] = f(e) } *)
Fixpoint fill_loop {A B} (f : A -> B) (i : nat) (data : list A) (buffer : list B) : res (list B) :=
  match data with
  | [] => Ok buffer
  | e :: data' =>
      buffer' <- set_index buffer (Z.of_nat i) (f e) ;;
      fill_loop f (S i) data' buffer'
  end.

(** uint32(e) of a scalar element. *)
Definition scalar (v : elem) : Z := hd 0 v.

(** read.go:147-160: conversion part of ReadIndices. *)
Definition convert_indices (count : Z) (buffer : list Z) (data : slice) : res (list Z) :=
  buffer <- makeBufferOf 0 count buffer ;;
  match sk data with
  | SK CUbyte AScalar => fill_loop scalar 0 (els data) buffer
  | SK CUshort AScalar => fill_loop scalar 0 (els data) buffer
  | SK CUint AScalar => Ok (copy buffer (map scalar (els data)))
  | _ => Ok buffer
  end.

Definition errComponentType : error := ErrMsg "component type not allowed".
Definition errAccessorType : error := ErrMsg "accessor type not allowed".

(** read.go:133-140 *)
Definition check_indices (c : ComponentType) (t : AccessorType) : res unit :=
  match c with
  | CUbyte | CUshort | CUint =>
      match t with AScalar => Ok tt | _ => Err errAccessorType end
  | _ => Err errComponentType
  end.

(** ReadIndices on an accessor without Sparse (the one built at read.go:51-57). *)
Definition read_indices_dense (doc : Document) (c : ComponentType) (t : AccessorType)
    (bufferView : option Z) (byteOffset count : Z) (buffer : list Z) (pool : bytes) : res (list Z) :=
  _ <- check_indices c t ;;
  data <- read_dense doc c t bufferView byteOffset count pool ;;
  convert_indices count buffer data.

(** read.go:77-79: s.Index(indices[i]).Set(vals.Index(i)) for i < n. *)
Fixpoint sparse_loop (i : nat) (n : nat) (indices : list Z) (vals : list elem) (s : list elem)
  : res (list elem) :=
  match n with
  | O => Ok s
  | S n' =>
      k <- index indices (Z.of_nat i) ;;
      v <- index vals (Z.of_nat i) ;;
      s' <- set_index s k v ;;
      sparse_loop (S i) n' indices vals s'
  end.

(** read.go:31-82, ReadAccessor.  The two inner accessors carry no Sparse, so
    the recursion is unfolded. *)
Definition ReadAccessor (doc : Document) (acr : Accessor) (buffer : bytes) (p : pools) : res slice :=
  data <- read_dense doc (acr_ComponentType acr) (acr_Type acr) (acr_BufferView acr)
            (acr_ByteOffset acr) (acr_Count acr) buffer ;;
  match acr_Sparse acr with
  | None => Ok data
  | Some sp =>
      let si := spa_Indices sp in
      let sv := spa_Values sp in
      indices <- read_indices_dense doc (spi_ComponentType si) AScalar
                   (Some (spi_BufferView si)) (spi_ByteOffset si) (spa_Count sp) (p_u32 p) (p_idx p) ;;
      values <- read_dense doc (acr_ComponentType acr) (acr_Type acr)
                   (Some (spv_BufferView sv)) (spv_ByteOffset sv) (spa_Count sp) (p_val p) ;;
      s <- sparse_loop 0 (Z.to_nat (spa_Count sp)) indices (els values) (els data) ;;
      Ok (mkSlice (sk data) s)
  end.

(** read.go:132-161; [pool] is the buffer from bufPool, [p] the pools of the
    inner ReadAccessor. *)
Definition ReadIndices (doc : Document) (acr : Accessor) (buffer : list Z) (pool : bytes) (p : pools)
  : res (list Z) :=
  _ <- check_indices (acr_ComponentType acr) (acr_Type acr) ;;
  data <- ReadAccessor doc acr pool p ;;
  convert_indices (acr_Count acr) buffer data.

(** The shape shared by the other helpers: check the format, read through a
    pooled buffer, convert. *)
Definition read_typed {A} (zero : A) (check : ComponentType -> AccessorType -> res unit)
    (convert : skind -> option (elem -> A)) (copies : skind -> option (elem -> A))
    (doc : Document) (acr : Accessor) (buffer : list A) (pool : bytes) (p : pools) : res (list A) :=
  _ <- check (acr_ComponentType acr) (acr_Type acr) ;;
  data <- ReadAccessor doc acr pool p ;;
  buffer <- makeBufferOf zero (acr_Count acr) buffer ;;
  match copies (sk data) with
  | Some f => Ok (copy buffer (map f (els data)))
  | None =>
      match convert (sk data) with
      | Some f => fill_loop f 0 (els data) buffer
      | None => Ok buffer
      end
  end.

Definition no_conv {A} (k : skind) : option (elem -> A) := None.
Definition ident (v : elem) : elem := v.

(** copy(buffer, data.([]T)): a failed type assertion would panic, but the
    format check makes the dynamic type right. *)
Definition copies_of (c : ComponentType) (t : AccessorType) (k : skind) : option (elem -> elem) :=
  match k with
  | SK c' t' => if ct_eqb c c' && at_eqb t t' then Some ident else None
  | _ => None
  end.

(** read.go:167-172 etc.: exactly one format. *)
Definition check_one (c0 : ComponentType) (t0 : AccessorType) (c : ComponentType) (t : AccessorType) : res unit :=
  if negb (ct_eqb c c0) then Err errComponentType
  else if negb (at_eqb t t0) then Err errAccessorType else Ok tt.

(** read.go:166-182 *)
Definition ReadNormal := read_typed (repeat 0 3) (check_one CFloat AVec3) no_conv (copies_of CFloat AVec3).
(** read.go:187-203 *)
Definition ReadTangent := read_typed (repeat 0 4) (check_one CFloat AVec4) no_conv (copies_of CFloat AVec4).
(** read.go:325-341 *)
Definition ReadPosition := read_typed (repeat 0 3) (check_one CFloat AVec3) no_conv (copies_of CFloat AVec3).
(** read.go:458-474 *)
Definition ReadInverseBindMatrices :=
  read_typed (repeat 0 16) (check_one CFloat AMat4) no_conv (copies_of CFloat AMat4).

(** Conversions of math.go used by the readers, on bit patterns: parameters of
    this file, instantiated by Norm.v. *)
Record conversions : Type := mkConv {
  cv_DenormalizeUbyte : Z -> Z;            (* uint8 -> float32 *)
  cv_DenormalizeUshort : Z -> Z;           (* uint16 -> float32 *)
  cv_NormalizeRGB : elem -> elem;          (* [3]float32 -> [3]uint8 *)
  cv_NormalizeRGBA : elem -> elem;
  cv_NormalizeRGB64 : elem -> elem;
  cv_NormalizeRGBA64 : elem -> elem
}.

Definition check_ubf (t0 : AccessorType -> bool) (c : ComponentType) (t : AccessorType) : res unit :=
  match c with
  | CUbyte | CUshort | CFloat => if t0 t then Ok tt else Err errAccessorType
  | _ => Err errComponentType
  end.

(** read.go:210-243 *)
Definition ReadTextureCoord (cv : conversions) :=
  read_typed (repeat 0 2) (check_ubf (at_eqb AVec2))
    (fun k => match k with
              | SK CUbyte AVec2 => Some (map (cv_DenormalizeUbyte cv))
              | SK CUshort AVec2 => Some (map (cv_DenormalizeUshort cv))
              | _ => None
              end)
    (copies_of CFloat AVec2).

(** read.go:250-285 *)
Definition ReadWeights (cv : conversions) :=
  read_typed (repeat 0 4) (check_ubf (at_eqb AVec4))
    (fun k => match k with
              | SK CUbyte AVec4 => Some (map (cv_DenormalizeUbyte cv))
              | SK CUshort AVec4 => Some (map (cv_DenormalizeUshort cv))
              | _ => None
              end)
    (copies_of CFloat AVec4).

(** read.go:292-320 *)
Definition ReadJoints :=
  read_typed (repeat 0 4)
    (fun c t => match c with
                | CUbyte | CUshort => if at_eqb AVec4 t then Ok tt else Err errAccessorType
                | _ => Err errComponentType
                end)
    (fun k => match k with SK CUbyte AVec4 => Some ident | _ => None end)
    (copies_of CUshort AVec4).

(** read.go:348-392; uint8(e) keeps the low byte. *)
Definition ReadColor (cv : conversions) :=
  read_typed (repeat 0 4) (check_ubf (fun t => at_eqb AVec3 t || at_eqb AVec4 t))
    (fun k => match k with
              | SK CUbyte AVec3 => Some (fun e => e ++ [255])
              | SK CUshort AVec3 => Some (fun e => map (fun x => x mod 256) e ++ [255])
              | SK CUshort AVec4 => Some (map (fun x => x mod 256))
              | SK CFloat AVec3 => Some (fun e => cv_NormalizeRGB cv e ++ [255])
              | SK CFloat AVec4 => Some (cv_NormalizeRGBA cv)
              | _ => None
              end)
    (copies_of CUbyte AVec4).

(** uint16(e) | uint16(e)<<8 *)
Definition widen8 (x : Z) : Z := Z.lor x ((x * 256) mod 65536).

(** read.go:399-453 *)
Definition ReadColor64 (cv : conversions) :=
  read_typed (repeat 0 4) (check_ubf (fun t => at_eqb AVec3 t || at_eqb AVec4 t))
    (fun k => match k with
              | SK CUbyte AVec3 => Some (fun e => map widen8 e ++ [65535])
              | SK CUbyte AVec4 => Some (map widen8)
              | SK CUshort AVec3 => Some (fun e => e ++ [65535])
              | SK CFloat AVec3 => Some (fun e => cv_NormalizeRGB64 cv e ++ [65535])
              | SK CFloat AVec4 => Some (cv_NormalizeRGBA64 cv)
              | _ => None
              end)
    (copies_of CUshort AVec4).

(** ** What a read leaves behind in the pooled buffer: when the slice handed
    out by MakeSliceBuffer shares the buffer's memory, the decoded elements
    are written over its beginning (little-endian host). *)
Definition mem_image (c : ComponentType) (vs : list elem) : bytes :=
  List.concat (map (fun v => List.concat (map (le_bytes (Z.to_nat (ByteSize c))) v)) vs).

Definition pool_after (c : ComponentType) (t : AccessorType) (count : Z) (pool : bytes) (vs : list elem) : bytes :=
  if shares_buffer c t count pool then overwrite pool 0 (mem_image c vs) else pool.

(** Two consecutive typed reads on one goroutine: the second Get returns the
    buffer put back by the first (sync.Pool's private slot). *)
Definition read_then_read {A B}
    (r1 : bytes -> pools -> res A) (acr1 : Accessor) (doc : Document)
    (r2 : bytes -> pools -> res B) : res B :=
  _ <- r1 fresh_buf fresh_pools ;;
  data <- ReadAccessor doc acr1 fresh_buf fresh_pools ;;
  r2 (pool_after (acr_ComponentType acr1) (acr_Type acr1) (acr_Count acr1) fresh_buf (els data))
     fresh_pools.
