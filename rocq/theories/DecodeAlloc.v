(** Decoder.Decode once more, now with the sizes it passes to make for the
    data of the buffers: decoder.go:59-92 and 146-185, gltf.go:132-146.  Not
    counted: what encoding/json allocates for the document, and what
    fs.ReadFile allocates for a file of the file system. *)
From Verif Require Import Base Types Doc F64 Base64 Url JsonText Codec DocCodec Marshal Stream File.

Section DecodeAlloc.
Context (F : float_lib) (X : ext_lib) (U : url_lib).
Notation readfile := (bytes -> bytes * option error) (only parsing).

(** base64.go, Encoding.DecodeString of StdEncoding: one buffer of
    DecodedLen(len(s)) = len(s) / 4 * 3 bytes, made before anything is decoded. *)
Definition DecodedLen (n : Z) : Z := n / 4 * 3.

(** gltf.go:132-146, Buffer.marshalData *)
Definition marshalData_made (b : Buffer) : list Z * res bytes :=
  if negb (buf_IsEmbeddedResource b) then ([], Ok []) else
  let startPos := zlen (str_bytes mimetypeApplicationOctet) + 1 in
  if zlen (str_bytes (buf_URI b)) <? startPos then ([], Err (ErrMsg "gltf: Invalid base64 content")) else
  match str_from (buf_URI b) startPos with
  | Ok tl => ([DecodedLen (zlen tl)], b64_decode tl)
  | Err e => ([], Err e)
  | Panic => ([], Panic)
  end.

(** decoder.go:146-169 *)
Definition decodeBuffer_made (fsys : option readfile) (b : Buffer) : list Z * (list bytes * res Buffer) :=
  match validateBuffer b with
  | Err e => ([], ([], Err e))
  | Panic => ([], ([], Panic))
  | Ok _ =>
      if str_empty (buf_URI b) then ([], ([], Err (ErrMsg "gltf: buffer without URI")))
      else if buf_IsEmbeddedResource b then
        let '(m, d) := marshalData_made b in
        (m, ([], d <- d ;; Ok (set_buf_Data d b)))
      else
        match validateBufferURI U (str_bytes (buf_URI b)) with
        | Ok _ =>
            match fsys with
            | None => ([], ([], Ok b))
            | Some rf =>
                let name := str_bytes (buf_URI b) in
                let '(d, e) := rf name in
                ([], ([name],
                 d <- (if buf_ByteLength b <? zlen d then
                         if buf_ByteLength b <? 0 then Panic else Ok (firstn (Z.to_nat (buf_ByteLength b)) d)
                       else Ok d) ;;
                 match e with Some e => Err e | None => Ok (set_buf_Data d b) end))
            end
        | Err e => ([], ([], Err e))
        | Panic => ([], ([], Panic))
        end
  end.

(** decoder.go:171-185 *)
Definition decodeBinaryBuffer_made (buf : Buffer) (b : bufio) : list Z * (res Buffer * bufio) :=
  match validateBuffer buf with
  | Err e => ([], (Err e, b))
  | Panic => ([], (Panic, b))
  | Ok _ =>
      let '(h, b) := read_chunkHeader b in
      match h with
      | Err e => ([], (Err e, b))
      | Panic => ([], (Panic, b))
      | Ok h =>
          if negb (ch_Type h =? glbChunkBIN) || (ch_Length h <? u32 (buf_ByteLength buf))
          then ([], (Err (ErrMsg "gltf: Invalid GLB BIN header"), b))
          else if negb (make_ok (buf_ByteLength buf)) then ([], (Panic, b))
          else
            let '(d, b) := ReadFull (buf_ByteLength buf) b in
            ([buf_ByteLength buf], (d <- d ;; Ok (set_buf_Data d buf), b))
      end
  end.

(** decoder.go:87-91 *)
Fixpoint decodeBuffers_made (fsys : option readfile) (l : list (option Buffer)) : list Z * (list bytes * res (list (option Buffer))) :=
  match l with
  | [] => ([], ([], Ok []))
  | None :: _ => ([], ([], Panic))
  | Some b :: l' =>
      let '(m, (t, r)) := decodeBuffer_made fsys b in
      match r with
      | Ok b =>
          let '(m', (t', r)) := decodeBuffers_made fsys l' in
          (m ++ m', (t ++ t', r <- r ;; Ok (Some b :: r)))
      | Err e => (m, (t, Err e))
      | Panic => (m, (t, Panic))
      end
  end.

(** decoder.go:80-92 *)
Definition load_buffers_made (fsys : option readfile) (isBinary : bool) (bufs : list (option Buffer)) (b : bufio) :
  list Z * (list bytes * res (list (option Buffer))) :=
  match bufs with
  | Some buf :: l =>
      if isBinary && str_empty (buf_URI buf) then
        let '(m, (r, _)) := decodeBinaryBuffer_made buf b in
        match r with
        | Ok buf => let '(m', (t, r)) := decodeBuffers_made fsys l in (m ++ m', (t, r <- r ;; Ok (Some buf :: r)))
        | Err e => (m, ([], Err e))
        | Panic => (m, ([], Panic))
        end
      else decodeBuffers_made fsys bufs
  | _ => decodeBuffers_made fsys bufs
  end.

(** decoder.go:59-93 *)
Definition Decode_made (fsys : option readfile) (old : Document) (b : bufio) : list Z * (list bytes * res Document) :=
  let '(r, b) := decodeDocument F X old b in
  match r with
  | Err e => ([], ([], Err e))
  | Panic => ([], ([], Panic))
  | Ok (isBinary, doc) =>
      match mapM (clean_buffer U) (doc_Buffers doc), mapM (clean_image U) (doc_Images doc) with
      | Ok bufs, Ok ims =>
          let '(m, (t, r)) := load_buffers_made fsys isBinary bufs b in
          (m, (t, bufs <- r ;; Ok (set_doc_Images ims (set_doc_Buffers bufs doc))))
      | Panic, _ | _, Panic => ([], ([], Panic))
      | Err e, _ | _, Err e => ([], ([], Err e))
      end
  end.

(** ** It is Decode *)
Lemma marshalData_made_same b : snd (marshalData_made b) = buf_marshalData b.
Proof. unfold marshalData_made, buf_marshalData. destruct (negb _); [reflexivity|]. cbv zeta. destruct (_ <? _); [reflexivity|]. destruct (str_from _ _); reflexivity. Qed.
Lemma decodeBuffer_made_same fsys b : snd (decodeBuffer_made fsys b) = decodeBuffer U fsys b.
Proof.
  unfold decodeBuffer_made, decodeBuffer. destruct (validateBuffer b); try reflexivity. destruct (str_empty _); [reflexivity|]. destruct (buf_IsEmbeddedResource b).
  - rewrite <- marshalData_made_same. destruct (marshalData_made b). reflexivity.
  - destruct (validateBufferURI U _); try reflexivity. destruct fsys as [rf|]; [|reflexivity]. cbv zeta. destruct (rf _). reflexivity.
Qed.
Lemma decodeBinaryBuffer_made_same buf b : snd (decodeBinaryBuffer_made buf b) = decodeBinaryBuffer buf b.
Proof.
  unfold decodeBinaryBuffer_made, decodeBinaryBuffer. destruct (validateBuffer buf); try reflexivity. destruct (read_chunkHeader b) as [[h| |] b1]; try reflexivity.
  destruct (_ || _); [reflexivity|]. destruct (negb _); [reflexivity|]. destruct (ReadFull _ b1). reflexivity.
Qed.
Lemma decodeBuffers_made_same fsys l : snd (decodeBuffers_made fsys l) = decodeBuffers U fsys l.
Proof.
  induction l as [|[b|] l IH]; try reflexivity. cbn [decodeBuffers_made decodeBuffers]. rewrite <- decodeBuffer_made_same, <- IH.
  destruct (decodeBuffer_made fsys b) as [m [t [b'| |]]]; try reflexivity. destruct (decodeBuffers_made fsys l) as [m' [t' r]]. reflexivity.
Qed.
Lemma load_buffers_made_same fsys isB bufs b : snd (load_buffers_made fsys isB bufs b) = load_buffers U fsys isB bufs b.
Proof.
  unfold load_buffers_made, load_buffers. destruct bufs as [|[buf|] l]; try apply decodeBuffers_made_same. destruct (_ && _); [|apply decodeBuffers_made_same].
  rewrite <- decodeBinaryBuffer_made_same. destruct (decodeBinaryBuffer_made buf b) as [m [[b'| |] b1]]; cbn [snd fst]; try reflexivity.
  rewrite <- decodeBuffers_made_same. destruct (decodeBuffers_made fsys l) as [m' [t r]]. reflexivity.
Qed.
Lemma Decode_made_same fsys old b : snd (Decode_made fsys old b) = Decode F X U fsys old b.
Proof.
  unfold Decode_made, Decode. destruct (decodeDocument F X old b) as [[[isB doc]| |] b1]; try reflexivity.
  destruct (mapM (clean_buffer U) (doc_Buffers doc)), (mapM (clean_image U) (doc_Images doc)); try reflexivity.
  rewrite <- load_buffers_made_same. destruct (load_buffers_made fsys isB _ b1) as [m [t r]]. reflexivity.
Qed.
End DecodeAlloc.
