(** Decoder.Decode as a function of the bytes of the stream. *)
From Verif Require Import Base BaseFacts Types Doc F64 Base64 Url JsonText JsonTextProofs Codec DocCodec Marshal Stream StreamProofs File.

Definition stream (r : reader) : bytes := List.concat (rd_pieces r).
Definition reads_to_eof (r : reader) : Prop := pieces_ok r /\ rd_err r = ErrEOF.

Lemma binv_new r : reads_to_eof r -> binv (NewReader r).
Proof. intros [H _]. split; [exact H|discriminate]. Qed.
Lemma remaining_new r : remaining (NewReader r) = stream r.
Proof. reflexivity. Qed.

(** The GLB header at the front of the stream. *)
Definition header_of (l : bytes) : option glbHeader :=
  if zlen l <? 20 then None else
  let h := get_glbHeader (firstn 20 l) in
  if gh_Magic h =? glbHeaderMagic then Some h else None.

Lemma readGLBHeader_spec r res b : reads_to_eof r -> readGLBHeader (NewReader r) = (res, b) ->
  binv b /\ endof b = ErrEOF /\ (r_aligned r -> b_aligned b) /\
  match header_of (stream r) with
  | None => res = Ok None /\ remaining b = stream r
  | Some h => res = (_ <- validateGLBHeader h ;; Ok (Some h)) /\ remaining b = skipn 20 (stream r)
  end.
Proof.
  intros R. pose proof (binv_new r R) as I. unfold readGLBHeader, header_of.
  destruct (Peek header_size (NewReader r)) as [c b1] eqn:P.
  pose proof (Peek_spec header_size _ c b1 ltac:(unfold header_size, buf_size; lia) I eq_refl P) as (A1 & A2 & A3 & A4).
  assert (AL : r_aligned r -> b_aligned b1).
  { intros A. refine (Peek_aligned header_size _ c b1 ltac:(unfold header_size, buf_size; lia) _ P). split; [reflexivity|exact A]. }
  rewrite remaining_new in *. assert (E1 : endof b1 = ErrEOF) by (rewrite A3; exact (proj2 R)).
  destruct c as [l|].
  - destruct A4 as (L1 & L2 & ->). replace (zlen (stream r) <? 20) with false by (unfold header_size in *; lia).
    change (Z.to_nat header_size) with 20%nat. destruct (gh_Magic (get_glbHeader (firstn 20 (stream r))) =? glbHeaderMagic); cbn [negb].
    + destruct (b_read header_size b1) as [[d e] b2] eqn:B. intros [= <- <-].
      pose proof (b_read_spec header_size b1 d e b2 ltac:(unfold header_size; lia) A2 B) as (B1 & B2 & B3 & B4 & _).
      split; [exact B3|]. split; [congruence|]. split.
      { intros A. exact (proj2 (b_aligned_read header_size b1 d e b2 ltac:(unfold header_size; lia) eq_refl (AL A) B)). }
      split; [reflexivity|]. rewrite <- A1, B1.
      assert (D : List.length d = 20%nat).
      { unfold b_read in B. destruct (bf_buf b1) as [|x buf] eqn:E; [rewrite zlen_nil in L1; unfold header_size in L1; lia|].
        apply (f_equal (fun p => fst (fst p))) in B. cbn [fst] in B. rewrite <- B, firstn_length. unfold header_size, zlen in *. lia. }
      rewrite skipn_app, D, Nat.sub_diag, (skipn_all2 d) by lia. reflexivity.
    + intros [= <- <-]. split; [exact A2|]. split; [exact E1|]. split; [exact AL|]. split; [reflexivity|exact A1].
  - intros [= <- <-]. split; [exact A2|]. split; [exact E1|]. split; [exact AL|].
    replace (zlen (stream r) <? 20) with true by (unfold header_size in *; lia). split; [reflexivity|exact A1].
Qed.

Section Decode.
Context (F : float_lib) (X : ext_lib) (U : url_lib).

(** decodeDocument on text. *)
Lemma decodeDocument_text old r : reads_to_eof r -> header_of (stream r) = None ->
  fst (decodeDocument F X old (NewReader r)) =
  (v <- whole start true (stream r) ;; doc <- dec (c_Document F X) old v ;; Ok (false, doc)).
Proof.
  intros R H. unfold decodeDocument. destruct (readGLBHeader (NewReader r)) as [h b] eqn:G.
  pose proof (readGLBHeader_spec r h b R G) as (A1 & A2 & _ & A3). rewrite H in A3. destruct A3 as [-> A3]. cbn [option_map].
  destruct (read_json (mkSource None b)) as [v s] eqn:J.
  pose proof (read_json_spec (mkSource None b) v s (conj A1 I) A2 J) as (-> & _). unfold avail. cbn [src_lim src_buf fst]. rewrite A3. reflexivity.
Qed.

(** The JSON chunk, and whether nothing of it is left after the value. *)
Definition json_chunk (h : glbHeader) (l : bytes) : bytes := firstn (Z.to_nat (ch_Length (gh_JSONHeader h))) (skipn 20 l).
Definition after_chunk (h : glbHeader) (l : bytes) : bytes := skipn (Z.to_nat (ch_Length (gh_JSONHeader h))) (skipn 20 l).
Definition leftover (l : bytes) : bytes := match scan start l with Done _ t => t | _ => [] end.

Lemma skipn_firstn_all {A} (used l : list A) n t : l = used ++ t -> firstn n l = used -> (List.length used = n \/ t = []) -> skipn n l = t.
Proof.
  intros -> H [<-| ->].
  - rewrite skipn_app, skipn_all, Nat.sub_diag. reflexivity.
  - rewrite app_nil_r in *. assert (L : (List.length used <= n)%nat). { rewrite <- H, firstn_length. lia. } apply skipn_all2. exact L.
Qed.

Lemma decodeDocument_glb old r h : reads_to_eof r -> header_of (stream r) = Some h -> validateGLBHeader h = Ok tt -> 0 <= ch_Length (gh_JSONHeader h) ->
  let '(res, b) := decodeDocument F X old (NewReader r) in
  binv b /\ endof b = ErrEOF /\
  res = (v <- whole start true (json_chunk h (stream r)) ;; doc <- dec (c_Document F X) old v ;; Ok (true, doc)) /\
  (forall v, whole start true (json_chunk h (stream r)) = Ok v ->
   leftover (json_chunk h (stream r)) = [] \/
   (r_aligned r /\ ch_Length (gh_JSONHeader h) mod 4 = 0 /\ zlen (leftover (json_chunk h (stream r))) < 4 /\
    ch_Length (gh_JSONHeader h) <= zlen (skipn 20 (stream r))) ->
   remaining b = after_chunk h (stream r)).
Proof.
  intros R H V N. unfold decodeDocument. destruct (readGLBHeader (NewReader r)) as [h' b] eqn:G.
  pose proof (readGLBHeader_spec r h' b R G) as (A1 & A2 & AA & A3). rewrite H, V in A3. destruct A3 as [-> A3]. cbn [bind option_map].
  set (n := ch_Length (gh_JSONHeader h)) in *.
  destruct (read_json (mkSource (Some n) b)) as [v s] eqn:J.
  pose proof (read_json_spec (mkSource (Some n) b) v s (conj A1 N) A2 J) as (-> & B1 & B2 & (used & B3 & B4 & B5) & B6).
  unfold avail in B3, B6 |- *. cbn [src_lim src_buf option_map] in *. rewrite A3 in *. fold (avail s) in *.
  split; [exact (proj1 B1)|]. split; [exact B2|]. split; [reflexivity|].
  unfold json_chunk, after_chunk in *. fold n in B3, B6 |- *. fold n. intros v0 Ev C.
  assert (Z : avail s = []).
  { destruct (B6 v0 Ev) as [(t & S)|[E _]]; [|exact E]. unfold leftover in C. rewrite S in C. destruct C as [C|(C1 & C2 & C3 & C4)].
    - apply app_eq_nil in C. apply C.
    - rewrite zlen_app in C3. pose proof (zlen_nonneg t). apply zlen_0.
      assert (AS : s_aligned s) by exact (read_json_aligned (mkSource (Some n) b) _ s (conj A1 N) (conj (AA C1) C2) J).
      destruct AS as [_ AS]. rewrite B5 in AS.
      apply (f_equal zlen) in B3. rewrite zlen_app, zlen_firstn in B3 by exact N. lia. }
  rewrite Z, app_nil_r in B3. unfold avail in Z. rewrite B5 in Z. clear Ev B6 C.
  symmetry. apply (skipn_firstn_all used); [exact B4|exact B3|].
  rewrite B4 in B3. destruct (remaining (src_buf s)) as [|x t]; [right; reflexivity|left].
  assert (L : n - zlen used <= 0). { destruct (Z.to_nat (n - zlen used)) eqn:E2; [lia|discriminate]. }
  apply (f_equal (@List.length _)) in B3. rewrite firstn_length, app_length in B3. cbn [List.length] in B3. unfold zlen in L. lia.
Qed.

(** decodeBinaryBuffer on the bytes that are left. *)
Definition bin_result (buf : Buffer) (l : bytes) : res Buffer :=
  _ <- validateBuffer buf ;;
  hd <- taken 8 [] l ;;
  if negb (ch_Type (get_chunkHeader hd) =? glbChunkBIN) || (ch_Length (get_chunkHeader hd) <? u32 (buf_ByteLength buf))
  then Err (ErrMsg "gltf: Invalid GLB BIN header")
  else if negb (make_ok (buf_ByteLength buf)) then Panic
  else d <- taken (buf_ByteLength buf) [] (skipn 8 l) ;; Ok (set_buf_Data d buf).
Lemma decodeBinaryBuffer_spec buf b : binv b -> endof b = ErrEOF -> fst (decodeBinaryBuffer buf b) = bin_result buf (remaining b).
Proof.
  intros I E. unfold decodeBinaryBuffer, bin_result, read_chunkHeader. destruct (validateBuffer buf); [|reflexivity|reflexivity]. cbn [bind].
  destruct (ReadFull chunk_header_size b) as [l b1] eqn:R.
  pose proof (ReadFull_spec _ b l b1 I E R) as (A1 & A2 & A3 & A4). subst l. change chunk_header_size with 8 in *.
  unfold taken at 1 2. cbn [app]. destruct (8 <=? zlen [] + zlen (remaining b)) eqn:C; [|reflexivity]. cbn [bind].
  match goal with |- context [if ?c then (Err _, _) else _] => destruct c end; [reflexivity|].
  destruct (make_ok (buf_ByteLength buf)); cbn [negb]; [|reflexivity].
  destruct (ReadFull (buf_ByteLength buf) b1) as [d b2] eqn:R2.
  pose proof (ReadFull_spec _ b1 d b2 A2 A3 R2) as (-> & _). rewrite A4 by (rewrite zlen_nil in C; lia). reflexivity.
Qed.

Definition load_bytes (fsys : option (bytes -> bytes * option error)) (isBinary : bool) (bufs : list (option Buffer)) (l : bytes) :
  list bytes * res (list (option Buffer)) :=
  match bufs with
  | Some buf :: bs =>
      if isBinary && str_empty (buf_URI buf) then
        match bin_result buf l with
        | Ok buf => let '(t, r) := decodeBuffers U fsys bs in (t, r <- r ;; Ok (Some buf :: r))
        | Err e => ([], Err e)
        | Panic => ([], Panic)
        end
      else decodeBuffers U fsys bufs
  | _ => decodeBuffers U fsys bufs
  end.
Lemma load_buffers_spec fsys isBinary bufs b : binv b -> endof b = ErrEOF ->
  load_buffers U fsys isBinary bufs b = load_bytes fsys isBinary bufs (remaining b).
Proof. intros I E. unfold load_buffers, load_bytes. destruct bufs as [|[buf|] l]; try reflexivity. rewrite decodeBinaryBuffer_spec by assumption. reflexivity. Qed.
Lemma load_text fsys bufs b : load_buffers U fsys false bufs b = decodeBuffers U fsys bufs.
Proof. unfold load_buffers. destruct bufs as [|[]]; reflexivity. Qed.

(** What follows the JSON. *)
Definition finish (fsys : option (bytes -> bytes * option error)) (isBinary : bool) (doc : Document) (l : bytes) : list bytes * res Document :=
  match mapM (clean_buffer U) (doc_Buffers doc), mapM (clean_image U) (doc_Images doc) with
  | Ok bufs, Ok ims =>
      let '(t, r) := load_bytes fsys isBinary bufs l in
      (t, bufs <- r ;; Ok (set_doc_Images ims (set_doc_Buffers bufs doc)))
  | Panic, _ | _, Panic => ([], Panic)
  | Err e, _ | _, Err e => ([], Err e)
  end.

Lemma Decode_text fsys old r : reads_to_eof r -> header_of (stream r) = None ->
  Decode F X U fsys old (NewReader r) =
  match (v <- whole start true (stream r) ;; dec (c_Document F X) old v) with
  | Ok doc => finish fsys false doc []
  | Err e => ([], Err e)
  | Panic => ([], Panic)
  end.
Proof.
  intros R H. unfold Decode. pose proof (decodeDocument_text old r R H) as E.
  destruct (decodeDocument F X old (NewReader r)) as [res b]. cbn [fst] in E. subst res.
  destruct (whole start true (stream r)) as [v| |]; cbn [bind]; try reflexivity.
  destruct (dec (c_Document F X) old v) as [doc| |]; cbn [bind]; try reflexivity.
Qed.

Lemma Decode_bad fsys old r h e : reads_to_eof r -> header_of (stream r) = Some h -> validateGLBHeader h = Err e ->
  Decode F X U fsys old (NewReader r) = ([], Err e).
Proof.
  intros R H V. unfold Decode, decodeDocument. destruct (readGLBHeader (NewReader r)) as [h' b] eqn:G.
  pose proof (readGLBHeader_spec r h' b R G) as (_ & _ & _ & A3). rewrite H, V in A3. destruct A3 as [-> A3]. reflexivity.
Qed.

(** The binary case: [chunk_done] says the JSON decoder reads the whole chunk. *)
Definition chunk_done (r : reader) (h : glbHeader) : Prop :=
  leftover (json_chunk h (stream r)) = [] \/
  (r_aligned r /\ ch_Length (gh_JSONHeader h) mod 4 = 0 /\ zlen (leftover (json_chunk h (stream r))) < 4 /\
   ch_Length (gh_JSONHeader h) <= zlen (skipn 20 (stream r))).
Lemma Decode_glb fsys old r h : reads_to_eof r -> header_of (stream r) = Some h -> validateGLBHeader h = Ok tt -> 0 <= ch_Length (gh_JSONHeader h) ->
  (chunk_done r h \/ forall doc, (v <- whole start true (json_chunk h (stream r)) ;; dec (c_Document F X) old v) = Ok doc ->
     match mapM (clean_buffer U) (doc_Buffers doc) with Ok (Some b :: _) => buf_URI b <> ""%string | _ => True end) ->
  Decode F X U fsys old (NewReader r) =
  match (v <- whole start true (json_chunk h (stream r)) ;; dec (c_Document F X) old v) with
  | Ok doc => finish fsys true doc (after_chunk h (stream r))
  | Err e => ([], Err e)
  | Panic => ([], Panic)
  end.
Proof.
  intros R H V N C. unfold Decode. pose proof (decodeDocument_glb old r h R H V N) as E.
  destruct (decodeDocument F X old (NewReader r)) as [res b]. destruct E as (I & Eo & -> & L).
  destruct (whole start true (json_chunk h (stream r))) as [v| |]; cbn [bind] in *; try reflexivity.
  destruct (dec (c_Document F X) old v) as [doc| |]; cbn [bind]; try reflexivity.
  unfold finish. destruct (mapM (clean_buffer U) (doc_Buffers doc)) as [bufs| |] eqn:EB; try reflexivity.
  destruct (mapM (clean_image U) (doc_Images doc)); try reflexivity.
  rewrite (load_buffers_spec _ _ _ b I Eo). destruct C as [C|C].
  - rewrite (L v eq_refl C). reflexivity.
  - specialize (C doc eq_refl). rewrite EB in C. unfold load_bytes. destruct bufs as [|[buf|] bs]; try reflexivity.
    destruct (buf_URI buf); [congruence|]. rewrite andb_false_r. reflexivity.
Qed.
End Decode.
