(** Memory of modeler/write.go: where the writers put bytes.

    ModelerWrite.v models the data of a buffer by its contents.  Here it is a
    slice, a part of an array in memory, so that it is visible what a write
    does to other slices of the same array: views that were handed out by
    ReadBufferView, the capacity behind the data, and the data that is written,
    which may come from anywhere.  One goroutine; memory is as in Memory.v. *)
From Verif Require Import Base Types Binary Doc ModelerWrite Memory.

Notation heap := (list bytes) (only parsing).
(** A computation on memory; what was stored before a panic stays. *)
Definition mem (A : Type) : Type := heap -> heap * res A.
Definition ret {A} (a : res A) : mem A := fun h => (h, a).
Definition bindm {A B} (m : mem A) (f : A -> mem B) : mem B :=
  fun h => let (h', r) := m h in match r with Ok a => f a h' | Err e => (h', Err e) | Panic => (h', Panic) end.
Notation "x <~~ m ;; f" := (bindm m (fun x => f)) (at level 61, m at next level, right associativity).
Notation "' p <~~ m ;; f" := (bindm m (fun x => match x with p => f end)) (at level 61, p pattern, m at next level, right associativity).

(** Stores of d at position p of array a. *)
Definition poke (h : heap) (a p : nat) (d : bytes) : heap :=
  match nth_error h a with Some c => set_nth a (overwrite c p d) h | None => h end.
(** The bytes of a slice. *)
Definition peek (h : heap) (s : mslice) : bytes :=
  match nth_error h (ms_arr s) with Some c => sub c (ms_off s) (ms_len s) | None => [] end.

(** Data given to a writer: the kind of the slice, the number of elements and
    where they are. *)
Record msrc : Type := mkSrc { src_kind : skind; src_count : nat; src_at : mslice }.
Definition src_value (h : heap) (s : msrc) : slice :=
  let '(c, t) := sk_ct (src_kind s) in mkSlice (src_kind s) (mem_elems c t (peek h (src_at s)) (src_count s)).

(** append(s, make([]byte, n)...): in place if the capacity is enough, and else
    in a new array, with some capacity more than needed. *)
Definition append_zeros_m (spare : nat -> nat -> nat) (s : mslice) (n : Z) : mem mslice := fun h =>
  if (n <? 0) || (max_alloc <? Z.of_nat (ms_len s) + n) then (h, Panic)
  else
    let len := (ms_len s + Z.to_nat n)%nat in
    if (len <=? ms_cap s)%nat
    then (poke h (ms_arr s) (ms_off s + ms_len s) (zeros (Z.to_nat n)), Ok (mkMs (ms_arr s) (ms_off s) len (ms_cap s)))
    else let extra := spare (ms_cap s) len in
         (h ++ [peek h s ++ zeros (Z.to_nat n) ++ zeros extra], Ok (mkMs (List.length h) 0 len (len + extra))).

(** append(s, d...), by a caller. *)
Definition append_m (spare : nat -> nat -> nat) (s : mslice) (d : bytes) : mem mslice := fun h =>
  let len := (ms_len s + List.length d)%nat in
  if (len <=? ms_cap s)%nat
  then (poke h (ms_arr s) (ms_off s + ms_len s) d, Ok (mkMs (ms_arr s) (ms_off s) len (ms_cap s)))
  else let extra := spare (ms_cap s) len in
       (h ++ [peek h s ++ d ++ zeros extra], Ok (mkMs (List.length h) 0 len (len + extra))).

(** ** binary.Write (encode.go:225-415) into dst *)
(** dst[off] = x, LittleEndian.PutUint16/32(dst[off:], x) *)
Definition store_m (w : Z) (dst : mslice) (off x : Z) : mem unit := fun h =>
  if (0 <=? off) && (off + w <=? Z.of_nat (ms_len dst))
  then (poke h (ms_arr dst) (ms_off dst + Z.to_nat off) (le_bytes (Z.to_nat w) x), Ok tt) else (h, Panic).
Fixpoint put_all_m (w base ncols : Z) (tbl : list (Z * (Z * Z))) (v : elem) (dst : mslice) : mem unit :=
  match tbl with
  | [] => ret (Ok tt)
  | (o, (r, k)) :: tbl' =>
      x <~~ ret (index v (r * ncols + k)) ;;
      _ <~~ store_m w dst (base + o) x ;;
      put_all_m w base ncols tbl' v dst
  end.
Definition put_elem_m (c : ComponentType) (t : AccessorType) (dst : mslice) (base : Z) (v : elem) : mem unit :=
  if (0 <=? base) && (base <=? Z.of_nat (ms_len dst))
  then put_all_m (ByteSize c) base (cols t) (put_offsets c t) v dst
  else ret Panic.
(** for i := range data { C.PutT(b[e*i:], data[i]) }: each element is loaded
    after the previous one is stored. *)
Fixpoint write_loop_m (c : ComponentType) (t : AccessorType) (dst : mslice) (e : Z) (src : mslice) (i n : nat) : mem unit :=
  match n with
  | O => ret (Ok tt)
  | S n' => fun h =>
      (_ <~~ put_elem_m c t dst (i64 (e * Z.of_nat i)) (mem_elem (ByteSize c) (Z.to_nat (Components t)) (peek h src) (i * esize c t)) ;;
       write_loop_m c t dst e src (S i) n') h
  end.
Definition Write_m (dst : mslice) (stride : Z) (src : msrc) : mem unit := fun h =>
  match TypeOf (src_value h src) with
  | Ok (c, t, n) =>
      if n =? 0 then (h, Ok tt) else
      let size := SizeOfElement c t in
      let e := if stride =? 0 then size else stride in
      if Z.of_nat (ms_len dst) <? i64 (i64 (e * (n - 1)) + size) then (h, Err ErrShortBuffer) else
      match src_kind src with
      | SK CUbyte AScalar =>
          (* copy(b, data): as if the source was loaded first *)
          let d := peek h (src_at src) in
          (poke h (ms_arr dst) (ms_off dst) (firstn (Nat.min (ms_len dst) (List.length d)) d), Ok tt)
      | _ => write_loop_m c t dst e (src_at src) 0 (src_count src) h
      end
  | Err e => (h, Err e)
  | Panic => (h, Panic)
  end.

(** ** modeler/write.go *)
(** The document; the Data of its buffers is not used, it is in the slices. *)
Notation mdoc := (Document * list mslice)%type.
Section Writes.
(** How much more than needed append allocates. *)
Context (spare : nat -> nat -> nat).

(** write.go:363-368 *)
Definition lastBuffer_m (d : mdoc) : res (mdoc * Buffer * mslice) :=
  let '(doc, ds) := match doc_Buffers (fst d) with
                    | [] => (set_doc_Buffers [Some zero_Buffer] (fst d), [ms_nil])
                    | _ => d
                    end in
  b <- index (doc_Buffers doc) (zlen (doc_Buffers doc) - 1) ;;
  b <- deref b ;;
  s <- index ds (zlen (doc_Buffers doc) - 1) ;;
  Ok (doc, ds, b, s).
Definition set_lastBuffer_m (d : mdoc) (b : Buffer) (s : mslice) : mdoc :=
  (set_lastBuffer (fst d) b, set_nth (List.length (doc_Buffers (fst d)) - 1) s (snd d)).
(** write.go:356-361 *)
Definition ensurePadding_m (d : mdoc) : mem mdoc :=
  '(d, b, s) <~~ ret (lastBuffer_m d) ;;
  let padding := getPadding (Z.of_nat (ms_len s)) in
  s <~~ append_zeros_m spare s padding ;;
  ret (Ok (set_lastBuffer_m d (set_buf_ByteLength (i64 (buf_ByteLength b + padding)) b) s)).
(** write.go:339-344 *)
Fixpoint write_data_loop_m (s : mslice) (stride dataOffset : Z) (data : list msrc) : mem unit :=
  match data with
  | [] => ret (Ok tt)
  | d :: data' => fun h =>
      if (0 <=? dataOffset) && (dataOffset <=? Z.of_nat (ms_len s)) then
        let o := Z.to_nat dataOffset in
        let (h', r) := Write_m (mkMs (ms_arr s) (ms_off s + o) (ms_len s - o) (ms_cap s - o)) stride d h in
        match r with
        | Panic => (h', Panic)
        | _ =>
            ('(c, a, _) <~~ ret (TypeOf (src_value h' d)) ;;
             write_data_loop_m s stride (dataOffset + SizeOfElement c a) data') h'
        end
      else (h, Panic)
  end.
(** write.go:317-354; the first loop looks at the types and lengths only. *)
Definition writeBufferViews_m (d : mdoc) (target : Z) (data : list msrc) : mem (mdoc * res Z) := fun h =>
  match view_loop target (List.length data) 0 0 0 0 (map (src_value h) data) with
  | Ok (Ok (stride, size)) =>
      ('(d, b, s) <~~ ret (lastBuffer_m d) ;;
       let offset := Z.of_nat (ms_len s) in
       s <~~ append_zeros_m spare s size ;;
       _ <~~ write_data_loop_m s stride offset data ;;
       let '(doc, ds) := set_lastBuffer_m d (set_buf_ByteLength (i64 (buf_ByteLength b + size)) b) s in
       let view := set_bvw_Buffer (zlen (doc_Buffers doc) - 1)
                     (set_bvw_ByteLength size
                       (set_bvw_ByteOffset offset
                         (set_bvw_ByteStride stride
                           (set_bvw_Target target zero_BufferView)))) in
       let doc := set_doc_BufferViews (doc_BufferViews doc ++ [Some view]) doc in
       ret (Ok (doc, ds, Ok (zlen (doc_BufferViews doc) - 1)))) h
  | Ok (Err e) => (h, Ok (d, Err e))
  | Ok Panic => (h, Panic)
  | Err e => (h, Err e)
  | Panic => (h, Panic)
  end.
(** write.go:305-307, 312-315 *)
Definition WriteBufferViewInterleaved_m (d : mdoc) (data : list msrc) : mem (mdoc * res Z) := writeBufferViews_m d TargetArrayBuffer data.
Definition WriteBufferView_m (d : mdoc) (target : Z) (data : msrc) : mem (mdoc * Z) :=
  '(d, r) <~~ writeBufferViews_m d target [data] ;;
  match r with
  | Ok i => ret (Ok (d, i))
  | Err _ => ret (Ok (d, 0))
  | Panic => ret Panic
  end.
(** write.go:196-208 *)
Definition WriteAccessor_m (d : mdoc) (target : Z) (data : msrc) : mem (mdoc * Z) :=
  d <~~ ensurePadding_m d ;;
  '(d, idx) <~~ WriteBufferView_m d target data ;;
  fun h =>
  ('(c, a, l) <~~ ret (TypeOf (src_value h data)) ;;
   let doc := add_accessor (fst d) (new_accessor idx 0 c a l) in
   ret (Ok ((doc, snd d), zlen (doc_Accessors doc) - 1))) h.
(** write.go:216-237 *)
Definition WriteAccessorsInterleaved_m (d : mdoc) (data : list msrc) : mem (mdoc * res (list Z)) :=
  d <~~ ensurePadding_m d ;;
  '(d, r) <~~ WriteBufferViewInterleaved_m d data ;;
  match r with
  | Err e => ret (Ok (d, Err e))
  | Panic => ret Panic
  | Ok idx => fun h =>
      ('(doc, indices) <~~ ret (accessors_loop (fst d) idx 0 (map (src_value h) data)) ;;
       ret (Ok ((doc, snd d), Ok indices))) h
  end.
(** write.go:21-28 *)
Definition WriteIndices_m (d : mdoc) (data : msrc) : mem (mdoc * Z) :=
  match src_kind data with
  | SK CUshort AScalar | SK CUint AScalar => WriteAccessor_m d TargetElementArrayBuffer data
  | _ => ret Panic
  end.
(** write.go:33-35, 40-42, 108-110; the argument has the type of the kind. *)
Definition WriteNormal_m (d : mdoc) (n : nat) (s : mslice) : mem (mdoc * Z) := WriteAccessor_m d TargetArrayBuffer (mkSrc (SK CFloat AVec3) n s).
Definition WriteTangent_m (d : mdoc) (n : nat) (s : mslice) : mem (mdoc * Z) := WriteAccessor_m d TargetArrayBuffer (mkSrc (SK CFloat AVec4) n s).
Definition WriteInverseBindMatrices_m (d : mdoc) (n : nat) (s : mslice) : mem (mdoc * Z) := WriteAccessor_m d TargetArrayBuffer (mkSrc (SK CFloat AMat4) n s).
(** doc.Accessors[index].F = v *)
Definition update_accessor_m (d : mdoc) (i : Z) (f : Accessor -> Accessor) : mem mdoc :=
  doc <~~ ret (update_accessor (fst d) i f) ;; ret (Ok (doc, snd d)).
(** write.go:47-55, 72-80, 147-155 *)
Definition write_normalized_m (check : slice -> res bool) (d : mdoc) (data : msrc) : mem (mdoc * Z) := fun h =>
  (normalized <~~ ret (check_or_panic (check (src_value h data))) ;;
   '(d, i) <~~ WriteAccessor_m d TargetArrayBuffer data ;;
   d <~~ update_accessor_m d i (set_acr_Normalized normalized) ;;
   ret (Ok (d, i))) h.
Definition WriteTextureCoord_m := write_normalized_m checkTextureCoord.
Definition WriteWeights_m := write_normalized_m checkWeights.
Definition WriteColor_m := write_normalized_m checkColor.
(** write.go:97-103 *)
Definition WriteJoints_m (d : mdoc) (data : msrc) : mem (mdoc * Z) := fun h =>
  (_ <~~ ret (check_or_panic (checkJoints (src_value h data))) ;;
   WriteAccessor_m d TargetArrayBuffer data) h.
(** write.go:124-130; the data is read again after it is written. *)
Definition WritePosition_m (d : mdoc) (n : nat) (s : mslice) : mem (mdoc * Z) :=
  let data := mkSrc (SK CFloat AVec3) n s in
  '(d, i) <~~ WriteAccessor_m d TargetArrayBuffer data ;;
  fun h =>
  (let '(mn, mx) := minMaxFloat32 (els (src_value h data)) in
   d <~~ update_accessor_m d i (set_acr_Min mn) ;;
   d <~~ update_accessor_m d i (set_acr_Max mx) ;;
   ret (Ok (d, i))) h.
(** write.go:172-191; the bytes of the image are those of a bytes.Buffer, or
    were read into a new array before. *)
Definition WriteImage_m (d : mdoc) (name mimeType : string) (r : res mslice) : mem (mdoc * res Z) :=
  match r with
  | Err e => ret (Ok (d, Err e))
  | Panic => ret Panic
  | Ok s =>
      '(d, i) <~~ WriteBufferView_m d TargetNone (mkSrc (SK CUbyte AScalar) (ms_len s) s) ;;
      let im := set_img_Name name (set_img_MimeType mimeType (set_img_BufferView (Some i) zero_Image)) in
      let doc := set_doc_Images (doc_Images (fst d) ++ [Some im]) (fst d) in
      ret (Ok ((doc, snd d), Ok (zlen (doc_Images doc) - 1)))
  end.
(** write.go:247-298; nil data and data without elements is left out. *)
Record mattr : Type := mkMattr { ma_name : string; ma_data : option msrc }.
Definition attr_value (h : heap) (a : mattr) : PrimitiveAttribute := mkAttr (ma_name a) (option_map (src_value h) (ma_data a)).
Fixpoint attr_data (l : list mattr) : list msrc :=
  match l with
  | [] => []
  | a :: l' => match ma_data a with
               | Some s => if (src_count s =? 0)%nat then attr_data l' else s :: attr_data l'
               | None => attr_data l'
               end
  end.
Definition WritePrimitiveAttributes_m (d : mdoc) (attr : list mattr) : mem (mdoc * res (list (string * Z))) := fun h =>
  match attrs_loop (map (attr_value h) attr) [] [] (repeat 0 3, repeat 0 3) with
  | Panic => (h, Panic)
  | Err e => (h, Ok (d, Err e))
  | Ok (_, props, (mn, mx)) =>
      ('(d, r) <~~ WriteAccessorsInterleaved_m d (attr_data attr) ;;
       match r with
       | Err e => ret (Ok (d, Err e))
       | Panic => ret Panic
       | Ok indices =>
           '(doc, attrs) <~~ ret (set_props_loop (fst d) indices props []) ;;
           match map_get "POSITION" attrs with
           | None => ret (Ok ((doc, snd d), Ok attrs))
           | Some pos =>
               d <~~ update_accessor_m (doc, snd d) pos (set_acr_Min mn) ;;
               d <~~ update_accessor_m d pos (set_acr_Max mx) ;;
               ret (Ok (d, Ok attrs))
           end
       end) h
  end.

(** ** Sequences of calls *)
Inductive mop : Type :=
| MIndices (d : msrc) | MNormal (n : nat) (s : mslice) | MTangent (n : nat) (s : mslice)
| MTextureCoord (d : msrc) | MWeights (d : msrc) | MJoints (d : msrc)
| MInverseBindMatrices (n : nat) (s : mslice) | MPosition (n : nat) (s : mslice) | MColor (d : msrc)
| MImage (name mime : string) (r : res mslice)
| MAccessor (target : Z) (d : msrc)
| MInterleaved (d : list msrc)
| MPrimitiveAttributes (a : list mattr)
| MBufferView (target : Z) (d : msrc)
| MBufferViewInterleaved (d : list msrc).
Definition fst_m {A} (m : mem (mdoc * A)) : mem mdoc := '(d, _) <~~ m ;; ret (Ok d).
Definition run_op_m (d : mdoc) (op : mop) : mem mdoc :=
  match op with
  | MIndices s => fst_m (WriteIndices_m d s)
  | MNormal n s => fst_m (WriteNormal_m d n s)
  | MTangent n s => fst_m (WriteTangent_m d n s)
  | MTextureCoord s => fst_m (WriteTextureCoord_m d s)
  | MWeights s => fst_m (WriteWeights_m d s)
  | MJoints s => fst_m (WriteJoints_m d s)
  | MInverseBindMatrices n s => fst_m (WriteInverseBindMatrices_m d n s)
  | MPosition n s => fst_m (WritePosition_m d n s)
  | MColor s => fst_m (WriteColor_m d s)
  | MImage n m r => fst_m (WriteImage_m d n m r)
  | MAccessor t s => fst_m (WriteAccessor_m d t s)
  | MInterleaved l => fst_m (WriteAccessorsInterleaved_m d l)
  | MPrimitiveAttributes a => fst_m (WritePrimitiveAttributes_m d a)
  | MBufferView t s => fst_m (WriteBufferView_m d t s)
  | MBufferViewInterleaved l => fst_m (WriteBufferViewInterleaved_m d l)
  end.
Fixpoint run_ops_m (d : mdoc) (ops : list mop) : mem mdoc :=
  match ops with
  | [] => ret (Ok d)
  | op :: ops' => d <~~ run_op_m d op ;; run_ops_m d ops'
  end.
End Writes.
