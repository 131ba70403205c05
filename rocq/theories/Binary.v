(** Model of package binary (binary/binary.go, unsafe.go, encode.go, slice.go).

    An element of an accessor (uint8, [2]uint8, [3][3]float32, color.RGBA ...)
    is the flat list of its components in Go memory order: v[r][c] of an n x n
    matrix is at position r*n+c.  Components are raw bit patterns: int8, int16
    and float32 are the unsigned integer with the same bits, because
    unsafe.go (11-198) implements Byte, Short and Float by reinterpreting the
    values produced by Ubyte, Ushort and Uint. *)
From Verif Require Import Base Types.

Notation elem := (list Z) (only parsing).

(** ** Dynamic type of the "any" slices accepted by binary.Type
    (slice.go:202-297): []T for the supported T, []color.RGBA, []color.RGBA64,
    any other slice type, or not a slice at all. *)
Inductive skind : Type :=
| SK (c : ComponentType) (t : AccessorType)
| SRGBA
| SRGBA64
| SOtherSlice
| SNotSlice.

Record slice : Type := mkSlice { sk : skind; els : list elem }.

(** slice.go:202-297, Type.  (c, t, count) or panic. *)
Definition TypeOf (s : slice) : res (ComponentType * AccessorType * Z) :=
  match sk s with
  | SK c t => if ct_valid c && at_valid t then Ok (c, t, zlen (els s)) else Panic
  | SRGBA => Ok (CUbyte, AVec4, zlen (els s))
  | SRGBA64 => Ok (CUshort, AVec4, zlen (els s))
  | SOtherSlice => Panic
  | SNotSlice => Panic
  end.

(** ** Component accessors.  [get_offsets c t] lists, in the order of the Go
    composite literal (row by row), the byte offset each component is loaded
    from; [put_offsets c t] lists (byte offset, row, column) in statement order.

    binary/binary.go: ubyteComponent 58-155, ushortComponent 157-258,
    uintComponent 260-362; unsafe.go delegates Byte to Ubyte, Short to Ushort,
    Float to Uint. *)
Definition get_offsets8 (t : AccessorType) : list Z :=
  match t with
  | AScalar => [0]                                   (* binary.go:58 *)
  | AVec2 => [0; 1]                                  (* binary.go:66 *)
  | AVec3 => [0; 1; 2]                               (* binary.go:75 *)
  | AVec4 => [0; 1; 2; 3]                            (* binary.go:85 *)
  | AMat2 => [0; 4;                                  (* binary.go:96 *)
              1; 5]
  | AMat3 => [0; 4; 8;                               (* binary.go:110 *)
              1; 5; 9;
              2; 6; 10]
  | AMat4 => [0; 4; 8; 12;                           (* binary.go:129 *)
              1; 5; 9; 13;
              2; 6; 10; 14;
              3; 7; 11; 15]
  | ATOther _ => []
  end.

Definition put_offsets8 (t : AccessorType) : list (Z * (Z * Z)) :=
  match t with
  | AScalar => [(0,(0,0))]                           (* binary.go:62 *)
  | AVec2 => [(0,(0,0)); (1,(1,0))]                  (* binary.go:70 *)
  | AVec3 => [(0,(0,0)); (1,(1,0)); (2,(2,0))]       (* binary.go:79 *)
  | AVec4 => [(0,(0,0)); (1,(1,0)); (2,(2,0)); (3,(3,0))]   (* binary.go:89 *)
  | AMat2 => [(0,(0,0)); (1,(1,0)); (4,(0,1)); (5,(1,1))]   (* binary.go:103 *)
  | AMat3 => [(0,(0,0)); (1,(1,0)); (2,(2,0));       (* binary.go:118 *)
              (4,(0,1)); (5,(1,1)); (6,(2,1));
              (8,(0,2)); (9,(1,2)); (10,(2,2))]
  | AMat4 => [(0,(0,0)); (1,(1,0)); (2,(2,0)); (3,(3,0));   (* binary.go:138 *)
              (4,(0,1)); (5,(1,1)); (6,(2,1)); (7,(3,1));
              (8,(0,2)); (9,(1,2)); (10,(2,2)); (11,(3,2));
              (12,(0,3)); (13,(1,3)); (14,(2,3)); (15,(3,3))]
  | ATOther _ => []
  end.

Definition get_offsets16 (t : AccessorType) : list Z :=
  match t with
  | AScalar => [0]                                   (* binary.go:161 *)
  | AVec2 => [0; 2]                                  (* binary.go:169 *)
  | AVec3 => [0; 2; 4]                               (* binary.go:178 *)
  | AVec4 => [0; 2; 4; 6]                            (* binary.go:188 *)
  | AMat2 => [0; 4;                                  (* binary.go:199 *)
              2; 6]
  | AMat3 => [0; 8; 16;                              (* binary.go:213 *)
              2; 10; 18;
              4; 12; 20]
  | AMat4 => [0; 8; 16; 24;                          (* binary.go:233 *)
              2; 10; 18; 26;
              4; 12; 20; 28;
              6; 14; 22; 30]
  | ATOther _ => []
  end.

Definition put_offsets16 (t : AccessorType) : list (Z * (Z * Z)) :=
  match t with
  | AScalar => [(0,(0,0))]                           (* binary.go:165 *)
  | AVec2 => [(0,(0,0)); (2,(1,0))]                  (* binary.go:173 *)
  | AVec3 => [(0,(0,0)); (2,(1,0)); (4,(2,0))]       (* binary.go:182 *)
  | AVec4 => [(0,(0,0)); (2,(1,0)); (4,(2,0)); (6,(3,0))]   (* binary.go:192 *)
  | AMat2 => [(0,(0,0)); (2,(1,0)); (4,(0,1)); (6,(1,1))]   (* binary.go:206 *)
  | AMat3 => [(0,(0,0)); (2,(1,0)); (4,(2,0));       (* binary.go:221 *)
              (8,(0,1)); (10,(1,1)); (12,(2,1));
              (16,(0,2)); (18,(1,2)); (20,(2,2))]
  | AMat4 => [(0,(0,0)); (2,(1,0)); (4,(2,0)); (6,(3,0));   (* binary.go:242 *)
              (8,(0,1)); (10,(1,1)); (12,(2,1)); (14,(3,1));
              (16,(0,2)); (18,(1,2)); (20,(2,2)); (22,(3,2));
              (24,(0,3)); (26,(1,3)); (28,(2,3)); (30,(3,3))]
  | ATOther _ => []
  end.

Definition get_offsets32 (t : AccessorType) : list Z :=
  match t with
  | AScalar => [0]                                   (* binary.go:265 *)
  | AVec2 => [0; 4]                                  (* binary.go:273 *)
  | AVec3 => [0; 4; 8]                               (* binary.go:282 *)
  | AVec4 => [0; 4; 8; 12]                           (* binary.go:292 *)
  | AMat2 => [0; 8;                                  (* binary.go:303 *)
              4; 12]
  | AMat3 => [0; 12; 24;                             (* binary.go:317 *)
              4; 16; 28;
              8; 20; 32]
  | AMat4 => [0; 16; 32; 48;                         (* binary.go:337 *)
              4; 20; 36; 52;
              8; 24; 40; 56;
              12; 28; 44; 60]
  | ATOther _ => []
  end.

Definition put_offsets32 (t : AccessorType) : list (Z * (Z * Z)) :=
  match t with
  | AScalar => [(0,(0,0))]                           (* binary.go:269 *)
  | AVec2 => [(0,(0,0)); (4,(1,0))]                  (* binary.go:277 *)
  | AVec3 => [(0,(0,0)); (4,(1,0)); (8,(2,0))]       (* binary.go:286 *)
  | AVec4 => [(0,(0,0)); (4,(1,0)); (8,(2,0)); (12,(3,0))]  (* binary.go:296 *)
  | AMat2 => [(0,(0,0)); (4,(1,0)); (8,(0,1)); (12,(1,1))]  (* binary.go:310 *)
  | AMat3 => [(0,(0,0)); (4,(1,0)); (8,(2,0));       (* binary.go:325 *)
              (12,(0,1)); (16,(1,1)); (20,(2,1));
              (24,(0,2)); (28,(1,2)); (32,(2,2))]
  | AMat4 => [(0,(0,0)); (4,(1,0)); (8,(2,0)); (12,(3,0));  (* binary.go:346 *)
              (16,(0,1)); (20,(1,1)); (24,(2,1)); (28,(3,1));
              (32,(0,2)); (36,(1,2)); (40,(2,2)); (44,(3,2));
              (48,(0,3)); (52,(1,3)); (56,(2,3)); (60,(3,3))]
  | ATOther _ => []
  end.

(** unsafe.go:11-198: Byte = Ubyte, Short = Ushort, Float = Uint on bits. *)
Definition get_offsets (c : ComponentType) (t : AccessorType) : list Z :=
  match c with
  | CUbyte | CByte => get_offsets8 t
  | CUshort | CShort => get_offsets16 t
  | CUint | CFloat => get_offsets32 t
  | CTOther _ => []
  end.

Definition put_offsets (c : ComponentType) (t : AccessorType) : list (Z * (Z * Z)) :=
  match c with
  | CUbyte | CByte => put_offsets8 t
  | CUshort | CShort => put_offsets16 t
  | CUint | CFloat => put_offsets32 t
  | CTOther _ => []
  end.

(** Length of the inner Go array: v[r][c] is at flat position r*cols+c. *)
Definition cols (t : AccessorType) : Z :=
  match t with AMat2 => 2 | AMat3 => 3 | AMat4 => 4 | _ => 1 end.

(** b[off], LittleEndian.Uint16(b[off:]), LittleEndian.Uint32(b[off:]):
    panic unless the w bytes are inside b. *)
Definition load (w : Z) (b : bytes) (off : Z) : res Z :=
  if (0 <=? off) && (off + w <=? zlen b)
  then Ok (le_val (sub b (Z.to_nat off) (Z.to_nat w))) else Panic.

(** b[off] = v, LittleEndian.PutUint16/32(b[off:], v). *)
Definition store (w : Z) (b : bytes) (off : Z) (v : Z) : res bytes :=
  if (0 <=? off) && (off + w <=? zlen b)
  then Ok (overwrite b (Z.to_nat off) (le_bytes (Z.to_nat w) v)) else Panic.

(** Component.Scalar/Vec/Mat applied to b[base:]. *)
Definition get_elem (c : ComponentType) (t : AccessorType) (b : bytes) (base : Z) : res elem :=
  if (0 <=? base) && (base <=? zlen b)
  then mapM (fun o => load (ByteSize c) b (base + o)) (get_offsets c t)
  else Panic.

(** Component.PutScalar/PutVec/PutMat applied to b[base:].  Bytes stored
    before a panic are not observable in the model. *)
Fixpoint put_all (w base ncols : Z) (tbl : list (Z * (Z * Z))) (v : elem) (b : bytes) : res bytes :=
  match tbl with
  | [] => Ok b
  | (o, (r, k)) :: tbl' =>
      x <- index v (r * ncols + k) ;;
      b' <- store w b (base + o) x ;;
      put_all w base ncols tbl' v b'
  end.

Definition put_elem (c : ComponentType) (t : AccessorType) (b : bytes) (base : Z) (v : elem) : res bytes :=
  if (0 <=? base) && (base <=? zlen b)
  then put_all (ByteSize c) base (cols t) (put_offsets c t) v b
  else Panic.

(** Component and accessor type used by the type switches of Read and Write
    (encode.go:33-216, 238-414). *)
Definition sk_ct (k : skind) : ComponentType * AccessorType :=
  match k with
  | SK c t => (c, t)
  | SRGBA => (CUbyte, AVec4)
  | SRGBA64 => (CUshort, AVec4)
  | _ => (CTOther 0, ATOther 0)
  end.

(** for i := range data { data[i] = C.T(b[e*i:]) } *)
Fixpoint read_loop (c : ComponentType) (t : AccessorType) (b : bytes) (e : Z) (i : Z) (n : nat)
  : res (list elem) :=
  match n with
  | O => Ok []
  | S n' =>
      v <- get_elem c t b (i64 (e * i)) ;;
      vs <- read_loop c t b e (i + 1) n' ;;
      Ok (v :: vs)
  end.

(** for i := range data { C.PutT(b[e*i:], data[i]) } *)
Fixpoint write_loop (c : ComponentType) (t : AccessorType) (b : bytes) (e : Z) (i : Z) (vs : list elem)
  : res bytes :=
  match vs with
  | [] => Ok b
  | v :: vs' =>
      b' <- put_elem c t b (i64 (e * i)) v ;;
      write_loop c t b' e (i + 1) vs'
  end.

(** copy(dst, src): the first min(len) elements. *)
Definition copy {A} (dst src : list A) : list A :=
  let n := Nat.min (List.length dst) (List.length src) in
  firstn n src ++ skipn n dst.

(** encode.go:17-218, Read(b, byteStride, data): the new contents of data. *)
Definition Read (b : bytes) (byteStride : Z) (data : slice) : res slice :=
  '(c, t, n) <- TypeOf data ;;
  let size := SizeOfElement c t in
  let stride := if byteStride =? 0 then size else byteStride in
  let e := stride in
  let high := i64 (n * e) in
  let high := if stride =? size then high else i64 (high - i64 (stride - size)) in
  if zlen b <? high then Err ErrShortBuffer else
  match sk data with
  | SK CByte AScalar =>
      (* encode.go:42-45: for i, x := range b { data[i] = int8(x) } *)
      if zlen (els data) <? zlen b then Panic
      else Ok (mkSlice (sk data) (copy (els data) (map (fun x => [b2z x]) b)))
  | SK CUbyte AScalar =>
      (* encode.go:70-77 *)
      if negb (stride =? 1)
      then Ok (mkSlice (sk data) (copy (els data) (map (fun x => [b2z x]) b)))
      else vs <- read_loop c t b e 0 (List.length (els data)) ;; Ok (mkSlice (sk data) vs)
  | _ =>
      vs <- read_loop c t b e 0 (List.length (els data)) ;; Ok (mkSlice (sk data) vs)
  end.

(** encode.go:225-415, Write(b, stride, data): the new contents of b.
    For n = 0 the fallback encoding/binary.Write on an empty fixed-size slice
    writes nothing. *)
Definition Write (b : bytes) (stride : Z) (data : slice) : res bytes :=
  '(c, t, n) <- TypeOf data ;;
  if n =? 0 then Ok b else
  let size := SizeOfElement c t in
  let e := if stride =? 0 then size else stride in
  if zlen b <? i64 (i64 (e * (n - 1)) + size) then Err ErrShortBuffer else
  match sk data with
  | SK CUbyte AScalar =>
      (* encode.go:275-276: copy(b, data) *)
      Ok (copy b (map (fun v => z2b (hd 0 v)) (els data)))
  | _ => write_loop c t b e 0 (els data)
  end.

(** ** slice.go *)

(** Largest allocation the Go runtime attempts (48-bit address space); beyond
    it make panics with "len out of range". *)
Definition max_alloc : Z := 2 ^ 48.

(** slice.go:299-314, checkAccessorType *)
Definition checkAccessorType (c : ComponentType) (t : AccessorType) : res unit :=
  if negb (ct_valid c) then Err (ErrMsg "unsupported component type")
  else if negb (at_valid t) then Err (ErrMsg "unsupported accessor type")
  else Ok tt.

Definition zero_elem (t : AccessorType) : elem := repeat 0 (Z.to_nat (Components t)).

(** slice.go:157-198, MakeSlice *)
Definition MakeSlice (c : ComponentType) (t : AccessorType) (count : Z) : res slice :=
  _ <- checkAccessorType c t ;;
  if (count <? 0) || (max_alloc <? count * (ByteSize c * Components t)) then Panic
  else Ok (mkSlice (SK c t) (repeat (zero_elem t) (Z.to_nat count))).

(** Reinterpretation of raw memory as l Go values of the element type
    (unsafe.Slice on a little-endian machine): components are consecutive. *)
Definition mem_elem (w : Z) (ncomp : nat) (v : bytes) (pos : nat) : elem :=
  map (fun k => le_val (sub v (pos + k * Z.to_nat w) (Z.to_nat w))) (seq 0 ncomp).

Definition mem_elems (c : ComponentType) (t : AccessorType) (v : bytes) (l : nat) : list elem :=
  let sz := Z.to_nat (ByteSize c * Components t) in
  map (fun j => mem_elem (ByteSize c) (Z.to_nat (Components t)) v (j * sz)) (seq 0 l).

(** slice.go:12-22, reslice: length elements on top of v, then rem zeroed
    elements (append reallocates, since cap = length). *)
Definition reslice (c : ComponentType) (t : AccessorType) (v : bytes) (length rem : Z) : res slice :=
  if (length <? 0) then Panic
  else if (max_alloc <? rem * (ByteSize c * Components t)) then Panic
  else Ok (mkSlice (SK c t)
             (mem_elems c t v (Z.to_nat length) ++ repeat (zero_elem t) (Z.to_nat rem))).

(** slice.go:24-138, castSlice.  Note the missing return for Uint/Mat3
    (slice.go:113-114), which falls through to the final panic. *)
Definition castSlice (c : ComponentType) (t : AccessorType) (count : Z) (v : bytes) : res slice :=
  let d := ByteSize c * Components t in
  if d =? 0 then Panic else
  let l := zlen v / d in
  let rem := if l <? count then count - l else 0 in
  let l := if count <? l then count else l in
  match c, t with
  | CUint, AMat3 => Panic
  | _, _ => if ct_valid c && at_valid t then reslice c t v l rem else Panic
  end.

(** slice.go:143-152, MakeSliceBuffer.  [buffer] is the caller's slice
    extended to its capacity. *)
Definition MakeSliceBuffer (c : ComponentType) (t : AccessorType) (count : Z) (buffer : bytes) : res slice :=
  _ <- checkAccessorType c t ;;
  if zlen buffer =? 0 then MakeSlice c t count
  else castSlice c t count buffer.

(** Does the slice returned by MakeSliceBuffer share memory with buffer?
    (reslice returns s itself exactly when rem <= 0.) *)
Definition shares_buffer (c : ComponentType) (t : AccessorType) (count : Z) (buffer : bytes) : bool :=
  negb (zlen buffer =? 0) && (count <=? zlen buffer / (ByteSize c * Components t)).
