(** Model of modeler/write.go.

    A writer returns [Panic], or [Ok (doc', r)] with the mutated document and
    the Go results: [r = Ok x] when the returned error is nil (or when the
    function has no error result), [r = Err e] when a non-nil error is
    returned.  Lengths are those of slices in memory, so their sums are
    computed without wrap-around; growing a buffer past [max_alloc] panics. *)
From Verif Require Import Base Types Binary Doc F64.

Notation wres A := (res (Document * res A)) (only parsing).

(** const.go:157-163 *)
Definition TargetNone : Z := 0.
Definition TargetArrayBuffer : Z := 34962.
Definition TargetElementArrayBuffer : Z := 34963.

(** write.go:363-368, lastBuffer: the document (with a first buffer appended
    when there is none) and the last buffer, dereferenced by every caller. *)
Definition lastBuffer (doc : Document) : res (Document * Buffer) :=
  let doc := match doc_Buffers doc with
             | [] => set_doc_Buffers [Some zero_Buffer] doc
             | _ => doc
             end in
  b <- index (doc_Buffers doc) (zlen (doc_Buffers doc) - 1) ;;
  b <- deref b ;;
  Ok (doc, b).

(** Stores through the pointer returned by lastBuffer. *)
Definition set_lastBuffer (doc : Document) (b : Buffer) : Document :=
  set_doc_Buffers (set_nth (List.length (doc_Buffers doc) - 1) (Some b) (doc_Buffers doc)) doc.

(** write.go:370-376, getPadding (Go % on non-negative ints). *)
Definition getPadding (offset : Z) : Z :=
  let padAlign := Z.rem offset 4 in
  if padAlign =? 0 then 0 else 4 - padAlign.

(** append(data, make([]byte, n)...) *)
Definition grow (data : bytes) (n : Z) : res bytes :=
  if (n <? 0) || (max_alloc <? zlen data + n) then Panic
  else Ok (data ++ zeros (Z.to_nat n)).

(** write.go:356-361, ensurePadding *)
Definition ensurePadding (doc : Document) : res Document :=
  '(doc, b) <- lastBuffer doc ;;
  let padding := getPadding (zlen (buf_Data b)) in
  data <- grow (buf_Data b) padding ;;
  Ok (set_lastBuffer doc
        (set_buf_ByteLength (i64 (buf_ByteLength b + padding)) (set_buf_Data data b))).

(** write.go:319-333: the loop computing refLength, stride and size. *)
Fixpoint view_loop (target : Z) (ndata : nat) (i : nat) (refLength stride size : Z) (data : list slice)
  : res (res (Z * Z)) :=
  match data with
  | [] => Ok (Ok (stride, size))
  | d :: data' =>
      '(c, a, l) <- TypeOf d ;;
      let refLength' := if (i =? 0)%nat then l else refLength in
      if negb (i =? 0)%nat && negb (refLength =? l)
      then Ok (Err (ErrMsg "interleaved data shall have the same number of elements"))
      else
        let sizeOfElement := SizeOfElement c a in
        let size := size + l * sizeOfElement in
        let stride :=
          if (1 <? ndata)%nat then stride + sizeOfElement
          else if (target =? TargetArrayBuffer) && negb (ByteSize c * Components a =? sizeOfElement)
          then sizeOfElement else stride in
        view_loop target ndata (S i) refLength' stride size data'
  end.

(** write.go:339-344: the loop writing each slice at its own offset.  The
    error of binary.Write is dropped. *)
Fixpoint write_data_loop (buf : bytes) (stride dataOffset : Z) (data : list slice) : res bytes :=
  match data with
  | [] => Ok buf
  | d :: data' =>
      tail <- slice_from buf dataOffset ;;
      buf' <- (match Write tail stride d with
               | Ok tail' => Ok (overwrite buf (Z.to_nat dataOffset) tail')
               | Err _ => Ok buf
               | Panic => Panic
               end) ;;
      '(c, a, _) <- TypeOf d ;;
      write_data_loop buf' stride (dataOffset + SizeOfElement c a) data'
  end.

(** write.go:317-354, writeBufferViews *)
Definition writeBufferViews (doc : Document) (target : Z) (data : list slice) : wres Z :=
  r <- view_loop target (List.length data) 0 0 0 0 data ;;
  match r with
  | Err e => Ok (doc, Err e)
  | Panic => Panic
  | Ok (stride, size) =>
      '(doc, b) <- lastBuffer doc ;;
      let offset := zlen (buf_Data b) in
      grown <- grow (buf_Data b) size ;;
      written <- write_data_loop grown stride offset data ;;
      let b' := set_buf_Data written (set_buf_ByteLength (i64 (buf_ByteLength b + size)) b) in
      let doc := set_lastBuffer doc b' in
      let view := set_bvw_Buffer (zlen (doc_Buffers doc) - 1)
                    (set_bvw_ByteLength size
                      (set_bvw_ByteOffset offset
                        (set_bvw_ByteStride stride
                          (set_bvw_Target target zero_BufferView)))) in
      let doc := set_doc_BufferViews (doc_BufferViews doc ++ [Some view]) doc in
      Ok (doc, Ok (zlen (doc_BufferViews doc) - 1))
  end.

(** write.go:305-307 *)
Definition WriteBufferViewInterleaved (doc : Document) (data : list slice) : wres Z :=
  writeBufferViews doc TargetArrayBuffer data.

(** write.go:312-315; on error the index is 0. *)
Definition WriteBufferView (doc : Document) (target : Z) (data : slice) : res (Document * Z) :=
  '(doc, r) <- writeBufferViews doc target [data] ;;
  match r with
  | Ok i => Ok (doc, i)
  | Err _ => Ok (doc, 0)
  | Panic => Panic
  end.

Definition new_accessor (bv : Z) (byteOffset : Z) (c : ComponentType) (t : AccessorType) (count : Z) : Accessor :=
  set_acr_BufferView (Some bv)
    (set_acr_ByteOffset byteOffset
      (set_acr_ComponentType c (set_acr_Type t (set_acr_Count count zero_Accessor)))).

Definition add_accessor (doc : Document) (a : Accessor) : Document :=
  set_doc_Accessors (doc_Accessors doc ++ [Some a]) doc.

(** write.go:196-208 *)
Definition WriteAccessor (doc : Document) (target : Z) (data : slice) : res (Document * Z) :=
  doc <- ensurePadding doc ;;
  '(doc, idx) <- WriteBufferView doc target data ;;
  '(c, a, l) <- TypeOf data ;;
  let doc := add_accessor doc (new_accessor idx 0 c a l) in
  Ok (doc, zlen (doc_Accessors doc) - 1).

(** write.go:224-235 *)
Fixpoint accessors_loop (doc : Document) (bv byteOffset : Z) (data : list slice)
  : res (Document * list Z) :=
  match data with
  | [] => Ok (doc, [])
  | d :: data' =>
      '(c, t, l) <- TypeOf d ;;
      let doc := add_accessor doc (new_accessor bv byteOffset c t l) in
      let idx := zlen (doc_Accessors doc) - 1 in
      '(doc, rest) <- accessors_loop doc bv (byteOffset + SizeOfElement c t) data' ;;
      Ok (doc, idx :: rest)
  end.

(** write.go:216-237 *)
Definition WriteAccessorsInterleaved (doc : Document) (data : list slice) : wres (list Z) :=
  doc <- ensurePadding doc ;;
  '(doc, r) <- WriteBufferViewInterleaved doc data ;;
  match r with
  | Err e => Ok (doc, Err e)
  | Panic => Panic
  | Ok idx =>
      '(doc, indices) <- accessors_loop doc idx 0 data ;;
      Ok (doc, Ok indices)
  end.

(** doc.Accessors[index].F = v *)
Definition update_accessor (doc : Document) (i : Z) (f : Accessor -> Accessor) : res Document :=
  a <- index (doc_Accessors doc) i ;;
  a <- deref a ;;
  l <- set_index (doc_Accessors doc) i (Some (f a)) ;;
  Ok (set_doc_Accessors l doc).

(** write.go:57-67, 82-92, 112-119, 157-167: type switches on the data. *)
Definition checkTextureCoord (d : slice) : res bool :=
  match sk d with
  | SK CUbyte AVec2 | SK CUshort AVec2 => Ok true
  | SK CFloat AVec2 => Ok false
  | _ => Err (ErrMsg "invalid type")
  end.
Definition checkWeights (d : slice) : res bool :=
  match sk d with
  | SK CUbyte AVec4 | SK CUshort AVec4 => Ok true
  | SK CFloat AVec4 => Ok false
  | _ => Err (ErrMsg "invalid type")
  end.
Definition checkJoints (d : slice) : res unit :=
  match sk d with
  | SK CUbyte AVec4 | SK CUshort AVec4 => Ok tt
  | _ => Err (ErrMsg "invalid type")
  end.
Definition checkColor (d : slice) : res bool :=
  match sk d with
  | SRGBA | SRGBA64 | SK CUbyte AVec4 | SK CUbyte AVec3 | SK CUshort AVec4 | SK CUshort AVec3 => Ok true
  | SK CFloat AVec3 | SK CFloat AVec4 => Ok false
  | _ => Err (ErrMsg "invalid type")
  end.

(** panic(err) on a failed check. *)
Definition check_or_panic {A} (r : res A) : res A :=
  match r with Ok a => Ok a | _ => Panic end.

(** write.go:21-28 *)
Definition WriteIndices (doc : Document) (data : slice) : res (Document * Z) :=
  match sk data with
  | SK CUshort AScalar | SK CUint AScalar => WriteAccessor doc TargetElementArrayBuffer data
  | _ => Panic
  end.

(** write.go:33-35; the argument is [][3]float32. *)
Definition WriteNormal (doc : Document) (data : list elem) : res (Document * Z) :=
  WriteAccessor doc TargetArrayBuffer (mkSlice (SK CFloat AVec3) data).
(** write.go:40-42 *)
Definition WriteTangent (doc : Document) (data : list elem) : res (Document * Z) :=
  WriteAccessor doc TargetArrayBuffer (mkSlice (SK CFloat AVec4) data).
(** write.go:108-110 *)
Definition WriteInverseBindMatrices (doc : Document) (data : list elem) : res (Document * Z) :=
  WriteAccessor doc TargetArrayBuffer (mkSlice (SK CFloat AMat4) data).

Definition write_normalized (check : slice -> res bool) (doc : Document) (data : slice) : res (Document * Z) :=
  normalized <- check_or_panic (check data) ;;
  '(doc, i) <- WriteAccessor doc TargetArrayBuffer data ;;
  doc <- update_accessor doc i (set_acr_Normalized normalized) ;;
  Ok (doc, i).

(** write.go:47-55, 72-80, 147-155 *)
Definition WriteTextureCoord := write_normalized checkTextureCoord.
Definition WriteWeights := write_normalized checkWeights.
Definition WriteColor := write_normalized checkColor.

(** write.go:97-103 *)
Definition WriteJoints (doc : Document) (data : slice) : res (Document * Z) :=
  _ <- check_or_panic (checkJoints data) ;;
  WriteAccessor doc TargetArrayBuffer data.

(** write.go:132-142, minMaxFloat32 *)
Definition minmax_step (f : Z -> Z -> Z) (acc v : list Z) : list Z :=
  map (fun '(a, x) => f a (f64_of_f32 x)) (combine acc v).
Definition minMaxFloat32 (data : list elem) : list Z * list Z :=
  (fold_left (minmax_step f64_min) data (repeat f64_max 3),
   fold_left (minmax_step f64_max2) data (repeat f64_nmax 3)).

(** write.go:124-130 *)
Definition WritePosition (doc : Document) (data : list elem) : res (Document * Z) :=
  '(doc, i) <- WriteAccessor doc TargetArrayBuffer (mkSlice (SK CFloat AVec3) data) ;;
  let '(mn, mx) := minMaxFloat32 data in
  doc <- update_accessor doc i (set_acr_Min mn) ;;
  doc <- update_accessor doc i (set_acr_Max mx) ;;
  Ok (doc, i).

(** write.go:172-191, WriteImage; [r] is what reading the whole io.Reader
    yields. *)
Definition WriteImage (doc : Document) (name mimeType : string) (r : res bytes) : wres Z :=
  match r with
  | Err e => Ok (doc, Err e)
  | Panic => Panic
  | Ok data =>
      '(doc, i) <- WriteBufferView doc TargetNone
                     (mkSlice (SK CUbyte AScalar) (map (fun b => [b2z b]) data)) ;;
      let im := set_img_Name name (set_img_MimeType mimeType (set_img_BufferView (Some i) zero_Image)) in
      let doc := set_doc_Images (doc_Images doc ++ [Some im]) doc in
      Ok (doc, Ok (zlen (doc_Images doc) - 1))
  end.

(** write.go:240-243 *)
Record PrimitiveAttribute : Type := mkAttr { attr_Name : string; attr_Data : option slice }.

(** write.go:378-390, sliceLength.  None is a nil interface; values that are
    not slices panic in IsNil or in the Kind test. *)
Definition sliceLength (d : option slice) : res Z :=
  match d with
  | None => Ok 0
  | Some s => match sk s with SNotSlice => Panic | _ => Ok (zlen (els s)) end
  end.

(** Go maps as association lists sorted by key. *)
Fixpoint string_ltb (a b : string) : bool :=
  match a, b with
  | _, EmptyString => false
  | EmptyString, String _ _ => true
  | String x a', String y b' =>
      if (N_of_ascii x <? N_of_ascii y)%N then true
      else if (N_of_ascii y <? N_of_ascii x)%N then false
      else string_ltb a' b'
  end.
Fixpoint map_set {A} (k : string) (v : A) (m : list (string * A)) : list (string * A) :=
  match m with
  | [] => [(k, v)]
  | (k', v') :: m' =>
      if String.eqb k k' then (k, v) :: m'
      else if string_ltb k k' then (k, v) :: m
      else (k', v') :: map_set k v m'
  end.
Fixpoint map_get {A} (k : string) (m : list (string * A)) : option A :=
  match m with
  | [] => None
  | (k', v') :: m' => if String.eqb k k' then Some v' else map_get k m'
  end.

(** write.go:256-282: the loop over the attributes.  Accumulates the slices,
    their (name, normalized) and the last min/max. *)
Fixpoint attrs_loop (attr : list PrimitiveAttribute)
    (data : list slice) (props : list (string * bool)) (mm : list Z * list Z)
  : res (list slice * list (string * bool) * (list Z * list Z)) :=
  match attr with
  | [] => Ok (data, props, mm)
  | a :: attr' =>
      n <- sliceLength (attr_Data a) ;;
      match attr_Data a with
      | None => attrs_loop attr' data props mm
      | Some d =>
        if n =? 0 then attrs_loop attr' data props mm
        else
          '(normalized, mm) <-
            (if String.eqb (attr_Name a) "POSITION" then
               match sk d with
               | SK CFloat AVec3 => Ok (false, minMaxFloat32 (els d))
               | _ => Err (ErrMsg "invalid type")
               end
             else if String.eqb (attr_Name a) "TEXCOORD_0" || String.eqb (attr_Name a) "TEXCOORD_1" then
               b <- checkTextureCoord d ;; Ok (b, mm)
             else if String.eqb (attr_Name a) "WEIGHTS_0" then
               b <- checkWeights d ;; Ok (b, mm)
             else if String.eqb (attr_Name a) "JOINTS_0" then
               _ <- checkJoints d ;; Ok (false, mm)
             else if String.eqb (attr_Name a) "COLOR_0" then
               b <- checkColor d ;; Ok (b, mm)
             else Ok (false, mm)) ;;
          attrs_loop attr' (data ++ [d]) (props ++ [(attr_Name a, normalized)]) mm
      end
  end.

(** write.go:288-292 *)
Fixpoint set_props_loop (doc : Document) (indices : list Z) (props : list (string * bool))
    (attrs : list (string * Z)) : res (Document * list (string * Z)) :=
  match indices with
  | [] => Ok (doc, attrs)
  | i :: indices' =>
      match props with
      | [] => Panic
      | (name, normalized) :: props' =>
          doc <- update_accessor doc i (set_acr_Normalized normalized) ;;
          set_props_loop doc indices' props' (map_set name i attrs)
      end
  end.

(** write.go:247-298 *)
Definition WritePrimitiveAttributes (doc : Document) (attr : list PrimitiveAttribute)
  : wres (list (string * Z)) :=
  match attrs_loop attr [] [] (repeat 0 3, repeat 0 3) with
  | Panic => Panic
  | Err e => Ok (doc, Err e)
  | Ok (data, props, (mn, mx)) =>
      '(doc, r) <- WriteAccessorsInterleaved doc data ;;
      match r with
      | Err e => Ok (doc, Err e)
      | Panic => Panic
      | Ok indices =>
          '(doc, attrs) <- set_props_loop doc indices props [] ;;
          match map_get "POSITION" attrs with
          | None => Ok (doc, Ok attrs)
          | Some pos =>
              doc <- update_accessor doc pos (set_acr_Min mn) ;;
              doc <- update_accessor doc pos (set_acr_Max mx) ;;
              Ok (doc, Ok attrs)
          end
      end
  end.

(** ** Sequences of write calls *)
Inductive wop : Type :=
| OpIndices (d : slice) | OpNormal (d : list elem) | OpTangent (d : list elem)
| OpTextureCoord (d : slice) | OpWeights (d : slice) | OpJoints (d : slice)
| OpInverseBindMatrices (d : list elem) | OpPosition (d : list elem) | OpColor (d : slice)
| OpImage (name mime : string) (r : res bytes)
| OpAccessor (target : Z) (d : slice)
| OpInterleaved (d : list slice)
| OpPrimitiveAttributes (a : list PrimitiveAttribute)
| OpBufferView (target : Z) (d : slice)
| OpBufferViewInterleaved (d : list slice).

Definition fst_res {A B} (r : res (A * B)) : res A := '(a, _) <- r ;; Ok a.

Definition run_op (doc : Document) (op : wop) : res Document :=
  match op with
  | OpIndices d => fst_res (WriteIndices doc d)
  | OpNormal d => fst_res (WriteNormal doc d)
  | OpTangent d => fst_res (WriteTangent doc d)
  | OpTextureCoord d => fst_res (WriteTextureCoord doc d)
  | OpWeights d => fst_res (WriteWeights doc d)
  | OpJoints d => fst_res (WriteJoints doc d)
  | OpInverseBindMatrices d => fst_res (WriteInverseBindMatrices doc d)
  | OpPosition d => fst_res (WritePosition doc d)
  | OpColor d => fst_res (WriteColor doc d)
  | OpImage n m r => fst_res (WriteImage doc n m r)
  | OpAccessor t d => fst_res (WriteAccessor doc t d)
  | OpInterleaved d => fst_res (WriteAccessorsInterleaved doc d)
  | OpPrimitiveAttributes a => fst_res (WritePrimitiveAttributes doc a)
  | OpBufferView t d => fst_res (WriteBufferView doc t d)
  | OpBufferViewInterleaved d => fst_res (WriteBufferViewInterleaved doc d)
  end.

Fixpoint run_ops (doc : Document) (ops : list wop) : res Document :=
  match ops with
  | [] => Ok doc
  | op :: ops' => doc <- run_op doc op ;; run_ops doc ops'
  end.
