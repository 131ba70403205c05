(** Decoder.Decode (decoder.go:59-192), Encoder.Encode (encode.go:91-194),
    save (encode.go:41-54) and Open (decoder.go:19-31). *)
From Verif Require Import Base Types Doc F64 Base64 Url JsonText Codec DocCodec Marshal Stream.

(** const.go:414-435 *)
Definition glbHeaderMagic : Z := 0x46546c67.
Definition glbChunkJSON : Z := 0x4e4f534a.
Definition glbChunkBIN : Z := 0x004e4942.
Record chunkHeader : Type := mkChunkHeader { ch_Length : Z; ch_Type : Z }.
Record glbHeader : Type := mkGlbHeader {
  gh_Magic : Z; gh_Version : Z; gh_Length : Z; gh_JSONHeader : chunkHeader
}.
(** encoding/binary on these structs: fields in order, little endian. *)
Definition put_chunkHeader (h : chunkHeader) : bytes := le_bytes 4 (ch_Length h) ++ le_bytes 4 (ch_Type h).
Definition put_glbHeader (h : glbHeader) : bytes :=
  le_bytes 4 (gh_Magic h) ++ le_bytes 4 (gh_Version h) ++ le_bytes 4 (gh_Length h) ++ put_chunkHeader (gh_JSONHeader h).
Definition field4 (i : nat) (l : bytes) : Z := le_val (firstn 4 (skipn (4 * i) l)).
Definition get_chunkHeader (l : bytes) : chunkHeader := mkChunkHeader (field4 0 l) (field4 1 l).
Definition get_glbHeader (l : bytes) : glbHeader :=
  mkGlbHeader (field4 0 l) (field4 1 l) (field4 2 l) (mkChunkHeader (field4 3 l) (field4 4 l)).
Definition header_size : Z := 20.
Definition chunk_header_size : Z := 8.

(** make([]byte, n) panics for n outside 0 .. 2^48 (runtime.makeslice, 64-bit
    Linux); running out of memory below that is not modelled. *)
Definition make_ok (n : Z) : bool := (0 <=? n) && (n <=? 2 ^ 48).

Section File.
Context (F : float_lib) (X : ext_lib) (U : url_lib).

(** ** Decoding *)

(** decoder.go:131-136, uint32 arithmetic *)
Definition validateGLBHeader (h : glbHeader) : res unit :=
  if negb (ch_Type (gh_JSONHeader h) =? glbChunkJSON)
     || (gh_Length h <? u32 (ch_Length (gh_JSONHeader h) + header_size))
  then Err (ErrMsg "gltf: Invalid GLB JSON header") else Ok tt.

(** decoder.go:116-129 *)
Definition readGLBHeader (b : bufio) : res (option glbHeader) * bufio :=
  let '(chunk, b) := Peek header_size b in
  match chunk with
  | None => (Ok None, b)
  | Some chunk =>
      let h := get_glbHeader chunk in
      if negb (gh_Magic h =? glbHeaderMagic) then (Ok None, b)
      else
        let '(_, _, b) := b_read header_size b in
        (_ <- validateGLBHeader h ;; Ok (Some h), b)
  end.

(** decoder.go:95-114 *)
Definition decodeDocument (old : Document) (b : bufio) : res (bool * Document) * bufio :=
  let '(h, b) := readGLBHeader b in
  match h with
  | Err e => (Err e, b)
  | Panic => (Panic, b)
  | Ok h =>
      let s := mkSource (option_map (fun h => ch_Length (gh_JSONHeader h)) h) b in
      let '(v, s) := read_json s in
      (v <- v ;; doc <- dec (c_Document F X) old v ;;
       Ok (match h with Some _ => true | None => false end, doc),
       src_buf s)
  end.

(** decoder.go:65-78, the two loops replacing URIs; a nil element is
    dereferenced. *)
Definition clean_uri (uri : string) : string :=
  match sanitizeURI U (str_bytes uri) with
  | Some u => bytes_str u
  | None => uri
  end.
Definition clean_buffer (ob : option Buffer) : res (option Buffer) :=
  b <- deref ob ;;
  Ok (Some (if buf_IsEmbeddedResource b then b else set_buf_URI (clean_uri (buf_URI b)) b)).
Definition clean_image (oi : option Image) : res (option Image) :=
  im <- deref oi ;;
  Ok (Some (if img_IsEmbeddedResource im then im else set_img_URI (clean_uri (img_URI im)) im)).

(** decoder.go:187-192 *)
Definition validateBuffer (b : Buffer) : res unit :=
  if buf_ByteLength b =? 0 then Err (ErrMsg "gltf: Invalid buffer.byteLength value = 0") else Ok tt.

(** fs.ReadFile on the decoder's file system: the data and an error; the data
    may be there in spite of an error. *)
Notation readfile := (bytes -> bytes * option error) (only parsing).

(** decoder.go:146-169.  Also returns the names opened. *)
Definition decodeBuffer (fsys : option readfile) (b : Buffer) : list bytes * res Buffer :=
  match validateBuffer b with
  | Err e => ([], Err e)
  | Panic => ([], Panic)
  | Ok _ =>
      if str_empty (buf_URI b) then ([], Err (ErrMsg "gltf: buffer without URI"))
      else if buf_IsEmbeddedResource b then
        ([], d <- buf_marshalData b ;; Ok (set_buf_Data d b))
      else
        match validateBufferURI U (str_bytes (buf_URI b)) with
        | Ok _ =>
            match fsys with
            | None => ([], Ok b)
            | Some rf =>
                let name := str_bytes (buf_URI b) in
                let '(d, e) := rf name in
                ([name],
                 d <- (if buf_ByteLength b <? zlen d then
                         if buf_ByteLength b <? 0 then Panic else Ok (firstn (Z.to_nat (buf_ByteLength b)) d)
                       else Ok d) ;;
                 match e with Some e => Err e | None => Ok (set_buf_Data d b) end)
            end
        | Err e => ([], Err e)
        | Panic => ([], Panic)
        end
  end.

(** decoder.go:138-144 *)
Definition read_chunkHeader (b : bufio) : res chunkHeader * bufio :=
  let '(l, b) := ReadFull chunk_header_size b in
  (l <- l ;; Ok (get_chunkHeader l), b).

(** decoder.go:171-185 *)
Definition decodeBinaryBuffer (buf : Buffer) (b : bufio) : res Buffer * bufio :=
  match validateBuffer buf with
  | Err e => (Err e, b)
  | Panic => (Panic, b)
  | Ok _ =>
      let '(h, b) := read_chunkHeader b in
      match h with
      | Err e => (Err e, b)
      | Panic => (Panic, b)
      | Ok h =>
          if negb (ch_Type h =? glbChunkBIN) || (ch_Length h <? u32 (buf_ByteLength buf))
          then (Err (ErrMsg "gltf: Invalid GLB BIN header"), b)
          else if negb (make_ok (buf_ByteLength buf)) then (Panic, b)
          else
            let '(d, b) := ReadFull (buf_ByteLength buf) b in
            (d <- d ;; Ok (set_buf_Data d buf), b)
      end
  end.

Fixpoint decodeBuffers (fsys : option readfile) (l : list (option Buffer)) : list bytes * res (list (option Buffer)) :=
  match l with
  | [] => ([], Ok [])
  | None :: _ => ([], Panic)
  | Some b :: l' =>
      let '(t, r) := decodeBuffer fsys b in
      match r with
      | Ok b =>
          let '(t', r) := decodeBuffers fsys l' in
          (t ++ t', r <- r ;; Ok (Some b :: r))
      | Err e => (t, Err e)
      | Panic => (t, Panic)
      end
  end.

(** decoder.go:80-92 *)
Definition load_buffers (fsys : option readfile) (isBinary : bool) (bufs : list (option Buffer)) (b : bufio) :
  list bytes * res (list (option Buffer)) :=
  match bufs with
  | Some buf :: l =>
      if isBinary && str_empty (buf_URI buf) then
        match fst (decodeBinaryBuffer buf b) with
        | Ok buf => let '(t, r) := decodeBuffers fsys l in (t, r <- r ;; Ok (Some buf :: r))
        | Err e => ([], Err e)
        | Panic => ([], Panic)
        end
      else decodeBuffers fsys bufs
  | _ => decodeBuffers fsys bufs
  end.

(** decoder.go:59-93: the names opened, and the document or the error. *)
Definition Decode (fsys : option readfile) (old : Document) (b : bufio) : list bytes * res Document :=
  let '(r, b) := decodeDocument old b in
  match r with
  | Err e => ([], Err e)
  | Panic => ([], Panic)
  | Ok (isBinary, doc) =>
      match mapM clean_buffer (doc_Buffers doc), mapM clean_image (doc_Images doc) with
      | Ok bufs, Ok ims =>
          let '(t, r) := load_buffers fsys isBinary bufs b in
          (t, bufs <- r ;; Ok (set_doc_Images ims (set_doc_Buffers bufs doc)))
      | Panic, _ | _, Panic => ([], Panic)
      | Err e, _ | _, Err e => ([], Err e)
      end
  end.

(** ** Encoding *)

(** An io.Writer: what it has accepted, and the failures to come: the next
    calls of Write succeed ([None]) or accept some bytes and fail.  When the
    script is used up, calls succeed. *)
Record writer : Type := mkWriter {
  wr_out : bytes;
  wr_script : list (option (Z * error))
}.
Definition w_write (p : bytes) (w : writer) : option error * writer :=
  match wr_script w with
  | Some (n, e) :: s => (Some e, mkWriter (wr_out w ++ firstn (Z.to_nat n) p) s)
  | None :: s => (None, mkWriter (wr_out w ++ p) s)
  | [] => (None, mkWriter (wr_out w ++ p) [])
  end.

(** A CreateFS: a log of the contents written, latest first; the names
    created, latest first; what happens to the files to come. *)
Inductive file_outcome : Type :=
| CreateFails (e : error)
| Creates (write : option (Z * error)) (close : option error).
Record createfs : Type := mkCreateFS {
  cf_files : list (bytes * bytes);
  cf_created : list bytes;
  cf_script : list file_outcome
}.

(** The rest of encode.go:136-144: create, write, close. *)
Definition create_file (name data : bytes) (fs : createfs) : option error * createfs :=
  let '(o, s) := match cf_script fs with o :: s => (o, s) | [] => (Creates None None, []) end in
  match o with
  | CreateFails e => (Some e, mkCreateFS (cf_files fs) (name :: cf_created fs) s)
  | Creates w c =>
      let '(e, data) := match w with
                        | None => (None, data)
                        | Some (n, e) => (Some e, firstn (Z.to_nat n) data)
                        end in
      (match e with Some e => Some e | None => c end,
       mkCreateFS ((name, data) :: cf_files fs) (name :: cf_created fs) s)
  end.

(** encode.go:125-145; [None] for a nil Fsys *)
Definition encodeBuffer (b : Buffer) (fs : option createfs) : res unit * option createfs :=
  match validateBufferURI U (str_bytes (buf_URI b)) with
  | Err e => (Err e, fs)
  | Panic => (Panic, fs)
  | Ok _ =>
      match fs with
      | None => (Ok tt, None)
      | Some fs =>
          match sanitizeURI U (str_bytes (buf_URI b)) with
          | None => (Ok tt, Some fs)
          | Some name =>
              let '(e, fs) := create_file name (buf_Data b) fs in
              (match e with Some e => Err e | None => Ok tt end, Some fs)
          end
      end
  end.

(** encode.go:112-120 *)
Fixpoint encodeBuffers (l : list (option Buffer)) (fs : option createfs) : res unit * option createfs :=
  match l with
  | [] => (Ok tt, fs)
  | None :: _ => (Panic, fs)
  | Some b :: l' =>
      if is_nil (buf_Data b) || str_empty (buf_URI b) || buf_IsEmbeddedResource b then encodeBuffers l' fs
      else
        let '(r, fs) := encodeBuffer b fs in
        match r with
        | Ok _ => encodeBuffers l' fs
        | _ => (r, fs)
        end
  end.

(** Rounding up to a multiple of four in Go's int arithmetic. *)
Definition pad4 (n : Z) : Z := i64 (Z.quot (i64 (n + 3)) 4 * 4).

(** encode.go:147-194: has a binary chunk, or an error.  The errors of three
    writes are dropped. *)
Definition encodeBinary (prefix indent : bytes) (doc : Document) (w : writer) : res bool * writer :=
  match marshalJSONDoc F X true prefix indent doc with
  | Err e => (Err e, w)
  | Panic => (Panic, w)
  | Ok jsonText =>
      let jlen := u32 (pad4 (zlen jsonText)) in
      let headerPadding := repeat (z2b 32) (Z.to_nat (u32 (jlen - u32 (zlen jsonText)))) in
      let bin := match doc_Buffers doc with
                 | Some b :: _ => if str_empty (buf_URI b) then Some b else None
                 | _ => None
                 end in
      let hlen := u32 (12 + 8 + jlen) in
      let hlen := match bin with
                  | Some b => u32 (hlen + u32 (8 + pad4 (buf_ByteLength b)))
                  | None => hlen
                  end in
      let header := mkGlbHeader glbHeaderMagic 2 hlen (mkChunkHeader jlen glbChunkJSON) in
      let '(e, w) := w_write (put_glbHeader header) w in
      match e with
      | Some e => (Err e, w)
      | None =>
          let '(_, w) := w_write jsonText w in
          let '(_, w) := w_write headerPadding w in
          match bin with
          | None => (Ok false, w)
          | Some b =>
              let padded := pad4 (buf_ByteLength b) in
              let padding := i64 (padded - buf_ByteLength b) in
              if negb (make_ok padding) then (Panic, w) else
              let '(_, w) := w_write (put_chunkHeader (mkChunkHeader (u32 padded) glbChunkBIN)) w in
              let '(_, w) := w_write (buf_Data b) w in
              let '(e, w) := w_write (repeat byte0 (Z.to_nat padding)) w in
              (match e with Some e => Err e | None => Ok true end, w)
          end
      end
  end.

(** encode.go:91-123 *)
Definition Encode (asBinary : bool) (prefix indent : bytes) (doc : Document) (w : writer) (fs : option createfs) :
  res unit * writer * option createfs :=
  if asBinary then
    let '(r, w) := encodeBinary prefix indent doc w in
    match r with
    | Ok hasBin =>
        let '(r, fs) := encodeBuffers (if hasBin then tl (doc_Buffers doc) else doc_Buffers doc) fs in
        (r, w, fs)
    | Err e => (Err e, w, fs)
    | Panic => (Panic, w, fs)
    end
  else
    match marshalJSONDoc F X false prefix indent doc with
    | Ok text =>
        let '(e, w) := w_write text w in
        match e with
        | Some e => (Err e, w, fs)
        | None => let '(r, fs) := encodeBuffers (doc_Buffers doc) fs in (r, w, fs)
        end
    | Err e => (Err e, w, fs)
    | Panic => (Panic, w, fs)
    end.

(** ** Files of the operating system *)

(** Contents by path, latest first.  Paths are compared as strings. *)
Notation disk := (list (bytes * bytes)) (only parsing).
Fixpoint disk_get (path : bytes) (d : disk) : option bytes :=
  match d with
  | [] => None
  | (p, c) :: d' => if list_eq_dec ascii_dec p path then Some c else disk_get path d'
  end.

(** encode.go:27-29, dirFS.Create: dir + "/" + name *)
Definition os_path (dir name : bytes) : bytes := dir ++ slash :: name.

(** What happens to the system calls of one Save: creating the file, the
    writes to it, the other files, closing it. *)
Record faults : Type := mkFaults {
  ft_create : option error;
  ft_writes : list (option (Z * error));
  ft_files : list file_outcome;
  ft_close : option error
}.

(** encode.go:41-54, with NewEncoderFS (encode.go:76-82).  [dir] is
    filepath.Dir(name).  The file is truncated when it is created; everything
    written to it is written before the first other file is created. *)
Definition save (dir name : bytes) (asBinary : bool) (doc : Document) (ft : faults) (d : disk) : res unit * disk :=
  match ft_create ft with
  | Some e => (Err e, d)
  | None =>
      let '(r, w, fs) := Encode asBinary [] [] doc (mkWriter [] (ft_writes ft))
                           (Some (mkCreateFS [] [] (ft_files ft))) in
      let others := match fs with
                    | Some fs => map (fun p => (os_path dir (fst p), snd p)) (cf_files fs)
                    | None => []
                    end in
      let d := others ++ (name, wr_out w) :: d in
      match r with
      | Ok _ => (match ft_close ft with Some e => Err e | None => Ok tt end, d)
      | r => (r, d)
      end
  end.

(** utf8.ValidString: only an ill-formed sequence makes DecodeRune consume one
    byte at or above 0x80. *)
Fixpoint valid_from (skip : nat) (l : bytes) : bool :=
  match l with
  | [] => true
  | b :: l' =>
      match skip with
      | S s => valid_from s l'
      | O =>
          if b2z b <? 128 then valid_from 0 l'
          else
            let w := (List.length l' - List.length (snd (decode_rune b l')))%nat in
            negb (w =? 0)%nat && valid_from w l'
      end
  end.
Definition ValidString (l : bytes) : bool := valid_from 0 l.

(** io/fs.ValidPath: valid UTF-8; "." or elements that are not empty, "."
    or "..". *)
Definition ValidPath (name : bytes) : bool :=
  ValidString name &&
  (is_dot name ||
   forallb (fun e => negb (is_nil e) && negb (is_dot e) && negb (is_dotdot e)) (split slash name)).

(** os.DirFS(dir).ReadFile (through fs.ReadFile and Open): invalid names and
    missing files are errors. *)
Definition dir_read (dir : bytes) (d : disk) (name : bytes) : bytes * option error :=
  if ValidPath name then
    match disk_get (os_path dir name) d with
    | Some c => (c, None)
    | None => ([], Some (ErrMsg "file does not exist"))
    end
  else ([], Some (ErrMsg "invalid argument")).

(** decoder.go:19-31; [rd] is how the opened file delivers its contents. *)
Definition Open (dir name : bytes) (d : disk) (rd : bytes -> reader) : list bytes * res Document :=
  match disk_get name d with
  | None => ([], Err (ErrMsg "file does not exist"))
  | Some c => Decode (Some (dir_read dir d)) zero_Document (NewReader (rd c))
  end.
End File.
