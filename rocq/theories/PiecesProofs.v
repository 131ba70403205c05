(** Decoding a GLB file from a reader that hands it out in arbitrary pieces. *)
From Verif Require Import Base BaseFacts Types Doc F64 Base64 Url JsonText JsonTextProofs Codec CodecInv DocCodec Marshal Stream StreamProofs File
  SpecText SpecJson SpecFile DecodeProofs EncodeProofs.

Section Pieces.
Context (F : float_lib) (X : ext_lib) (U : url_lib).

(** What the JSON decoder leaves: an end of what follows the value in the
    chunk, and all that follows the chunk. *)
Lemma decodeDocument_left old r h : reads_to_eof r -> header_of (stream r) = Some h -> validateGLBHeader h = Ok tt -> 0 <= ch_Length (gh_JSONHeader h) ->
  let '(res, b) := decodeDocument F X old (NewReader r) in
  binv b /\ endof b = ErrEOF /\
  res = (v <- whole start true (json_chunk h (stream r)) ;; doc <- dec (c_Document F X) old v ;; Ok (true, doc)) /\
  (forall v, whole start true (json_chunk h (stream r)) = Ok v ->
   exists t t', leftover (json_chunk h (stream r)) = t ++ t' /\ remaining b = t' ++ after_chunk h (stream r)).
Proof.
  intros R H V N. unfold decodeDocument. destruct (readGLBHeader (NewReader r)) as [h' b] eqn:G.
  pose proof (readGLBHeader_spec r h' b R G) as (A1 & A2 & AA & A3). rewrite H, V in A3. destruct A3 as [-> A3]. cbn [bind option_map].
  set (n := ch_Length (gh_JSONHeader h)) in *.
  destruct (read_json (mkSource (Some n) b)) as [v s] eqn:J.
  pose proof (read_json_spec (mkSource (Some n) b) v s (conj A1 N) A2 J) as (-> & B1 & B2 & (used & B3 & B4 & B5) & B6).
  unfold avail in B3, B6 |- *. cbn [src_lim src_buf option_map] in *. rewrite A3 in *. fold (avail s) in *.
  split; [exact (proj1 B1)|]. split; [exact B2|]. split; [reflexivity|].
  unfold json_chunk, after_chunk in *. fold n in B3, B6 |- *. fold n. intros v0 Ev.
  assert (Ea : remaining (src_buf s) = avail s ++ skipn (Z.to_nat n) (skipn 20 (stream r))).
  { destruct B1 as [_ B1]. rewrite B5 in B1. unfold avail. rewrite B5, B4, skipn_app, (skipn_all2 used) by (unfold zlen in B1; lia).
    replace (Z.to_nat n - List.length used)%nat with (Z.to_nat (n - zlen used)) by (unfold zlen; lia). symmetry. apply (firstn_skipn (Z.to_nat (n - zlen used))). }
  destruct (B6 v0 Ev) as [(t & S)|[E _]].
  - exists t, (avail s). unfold leftover. rewrite S. split; [reflexivity|exact Ea].
  - exists (leftover (firstn (Z.to_nat n) (skipn 20 (stream r)))), []. rewrite app_nil_r. split; [reflexivity|]. rewrite Ea, E. reflexivity.
Qed.

Lemma Decode_left fsys old r h : reads_to_eof r -> header_of (stream r) = Some h -> validateGLBHeader h = Ok tt -> 0 <= ch_Length (gh_JSONHeader h) ->
  exists t t', (leftover (json_chunk h (stream r)) = t ++ t') /\
  Decode F X U fsys old (NewReader r) =
  match (v <- whole start true (json_chunk h (stream r)) ;; dec (c_Document F X) old v) with
  | Ok doc => finish U fsys true doc (t' ++ after_chunk h (stream r))
  | Err e => ([], Err e)
  | Panic => ([], Panic)
  end.
Proof.
  intros R H V N. unfold Decode. pose proof (decodeDocument_left old r h R H V N) as E.
  destruct (decodeDocument F X old (NewReader r)) as [res b]. destruct E as (I & Eo & -> & L).
  destruct (whole start true (json_chunk h (stream r))) as [v| |]; cbn [bind] in *.
  2, 3: (exists (leftover (json_chunk h (stream r))), []; rewrite app_nil_r; split; reflexivity).
  destruct (L v eq_refl) as (t & t' & L1 & L2). exists t, t'. split; [exact L1|].
  destruct (dec (c_Document F X) old v) as [doc| |]; cbn [bind]; try reflexivity.
  unfold finish. destruct (mapM (clean_buffer U) (doc_Buffers doc)) as [bufs| |] eqn:EB; try reflexivity.
  destruct (mapM (clean_image U) (doc_Images doc)); try reflexivity.
  rewrite (load_buffers_spec U _ _ _ b I Eo), L2. reflexivity.
Qed.

(** The chunk header behind one, two or three spaces is not the header of a
    binary chunk. *)
Lemma bin_shifted buf k data bc : (0 < k < 4)%nat -> match data with Some data => glb_chunk kind_bin (z2b 0) data bc | None => bc = [] end ->
  exists e, bin_result buf (repeat (z2b 32) k ++ bc) = Err e.
Proof.
  intros Hk Hb. unfold bin_result, validateBuffer. destruct (buf_ByteLength buf =? 0); [eexists; reflexivity|]. cbn [bind].
  unfold taken at 1. destruct (8 <=? _); cbn [bind]; [|eexists; reflexivity]. rewrite zlen_nil, Z.sub_0_r. cbn [app].
  destruct data as [data|].
  - destruct Hb as (p & _ & _ & ->).
    set (w := word (zlen data + Z.of_nat p)). assert (Ew : exists a b c e, w = [a; b; c; e]).
    { subst w. unfold word. do 4 eexists. reflexivity. }
    destruct Ew as (a & b & c & e & ->). set (tl := data ++ repeat (z2b 0) p). clearbody tl.
    match goal with |- context [if negb (?x =? ?y) || _ then _ else _] => assert (Nx : (x =? y) = false) end.
    2: { rewrite Nx. eexists. reflexivity. }
    change (Z.to_nat 8) with 8%nat. apply Z.eqb_neq. unfold glbChunkBIN, get_chunkHeader, field4. cbn [ch_Type].
    change kind_bin with (map z2b [66; 73; 78; 0]).
    pose proof (b2z_range a). pose proof (b2z_range b). pose proof (b2z_range c). pose proof (b2z_range e).
    destruct k as [|[|[|[|k]]]]; try lia; cbn [repeat app firstn skipn map le_val Nat.mul Nat.add];
      rewrite ?b2z_z2b; change (66 mod 256) with 66; change (73 mod 256) with 73; change (78 mod 256) with 78; change (0 mod 256) with 0; lia.
  - subst bc. destruct k as [|[|[|[|k]]]]; try lia; eexists; reflexivity.
Qed.
End Pieces.
