(** Encode with two indentations: the outcome, and what Decode makes of it. *)
From Verif Require Import Base BaseFacts Types Doc F64 Base64 Url SpecText SpecData JsonText JsonTextProofs JsonStringProofs Codec SpecJson CodecProofs
  DocCodec Marshal SpecMarshal MarshalProofs Stream StreamProofs File SpecFile DecodeProofs EncodeProofs SpecGo SpecGoDoc EncodeExact DocExact ScanDepth.

Section Params.
Context (F : float_lib) (X : ext_lib) (U : url_lib) (HF : float_contract F).

(** ** The tree *)
Lemma custom_buffer_go a i b : opt (go_Buffer X) (Some b) -> exists b', custom_buffer a i (Some b) = Ok (Some b') /\ go_Buffer X b' /\ (savable_Buffer X b' <-> savable_Buffer X b).
Proof.
  intros G. cbn [custom_buffer]. destruct (_ && _ && _); [exists b; tauto|]. destruct (_ && _ && _); [|exists b; tauto].
  eexists. split; [reflexivity|]. cbn [opt] in G. unfold buf_EmbeddedResource, set_buf_URI, go_Buffer, savable_Buffer in *. cbn in *. tauto.
Qed.
Lemma custom_buffers_go a l : forall i, Forall (opt (go_Buffer X)) l ->
  match custom_buffers a i l with
  | Ok bs => Forall (opt (go_Buffer X)) bs /\ (Forall (opt (savable_Buffer X)) bs <-> Forall (opt (savable_Buffer X)) l) /\ ~ In None l
  | Err _ => False
  | Panic => In None l
  end.
Proof.
  induction l as [|o l IH]; intros i G; cbn [custom_buffers]; [split; [constructor|split; [tauto|intros []]]|].
  apply Forall_cons_iff in G. destruct G as [Go Gl]. destruct o as [b|]; [|cbn; left; reflexivity].
  destruct (custom_buffer_go a i b Go) as (b' & -> & Gb & Sb). cbn [bind]. specialize (IH (S i) Gl).
  destruct (custom_buffers a (S i) l) as [bs|e|]; cbn [bind]; [|exact IH|right; exact IH].
  destruct IH as (I1 & I2 & I3). split; [constructor; [exact Gb|exact I1]|]. split.
  - rewrite !Forall_cons_iff. cbn [opt]. tauto.
  - intros [E|E]; [discriminate|exact (I3 E)].
Qed.
Lemma marshal_tree_exact a d : go_Document X d ->
  match marshal_tree F X a d with
  | Ok j => lexical j /\ container j /\ (exists m, j = JObj m) /\ savable_Document X d /\ ~ In None (doc_Buffers d)
  | Err _ => ~ savable_Document X d /\ ~ In None (doc_Buffers d)
  | Panic => In None (doc_Buffers d)
  end.
Proof.
  intros G. unfold marshal_tree.
  assert (Gb : Forall (opt (go_Buffer X)) (doc_Buffers d)) by (unfold go_Document in G; decompose [and] G; assumption).
  pose proof (custom_buffers_go a (doc_Buffers d) 0 Gb) as C. destruct (custom_buffers a 0 (doc_Buffers d)) as [bs|e|]; cbn [bind]; [|destruct C|exact C].
  destruct C as (C1 & C2 & C3).
  assert (G' : go_Document X (set_doc_Buffers bs d)) by (unfold go_Document in *; cbn; tauto).
  assert (S' : savable_Document X (set_doc_Buffers bs d) <-> savable_Document X d) by (unfold savable_Document; cbn; tauto).
  pose proof (ex_Document F X HF _ G') as E. assert (O : forall j, enc (c_Document F X) (set_doc_Buffers bs d) = Ok j -> exists m, j = JObj m).
  { intros j. cbn [c_Document enc]. unfold enc_struct. destruct (enc_fields _ _); cbn [bind]; try discriminate. intros [= <-]. eexists. reflexivity. }
  destruct (enc (c_Document F X) (set_doc_Buffers bs d)) as [j|e|]; [|tauto|destruct E].
  destruct (O j eq_refl) as [m ->]. split; [apply E|]. split; [exact I|]. split; [eexists; reflexivity|]. tauto.
Qed.

(** ** What the JSON decoder sees *)
Lemma whole_printed p i j rest : lexical j -> container j -> ws p -> ws i ->
  whole start true (printed p i j ++ rest) = (if Z.of_nat (nesting j) <=? max_depth then Ok j else Err (ErrMsg "invalid character")) /\
  (leftover (printed p i j ++ rest) = rest \/ leftover (printed p i j ++ rest) = []).
Proof.
  intros L C Hp Hi. unfold whole, leftover. rewrite (scan_any_depth j _ rest (printed_text p i j Hp Hi) C L).
  destruct (_ <=? _); split; try reflexivity; [left|right]; reflexivity.
Qed.
Lemma printed_brace p i m : ws p -> ws i -> exists t, printed p i (JObj m) = "{"%char :: t.
Proof. intros Hp Hi. exact (obj_brace m _ (printed_text p i (JObj m) Hp Hi)). Qed.

(** ** The binary container, whatever the buffer says of its length *)
Definition bin_outcome (d : Document) : res bool :=
  match bin_buffer d with
  | None => Ok false
  | Some b => if negb (make_ok (i64 (pad4 (buf_ByteLength b) - buf_ByteLength b))) then Panic else Ok true
  end.
Definition bin_tail (d : Document) : bytes :=
  match bin_buffer d with
  | None => []
  | Some b => if negb (make_ok (i64 (pad4 (buf_ByteLength b) - buf_ByteLength b))) then [] else
      put_chunkHeader (mkChunkHeader (u32 (pad4 (buf_ByteLength b))) glbChunkBIN) ++ buf_Data b ++
      repeat byte0 (Z.to_nat (i64 (pad4 (buf_ByteLength b) - buf_ByteLength b)))
  end.
Definition bin_declared (d : Document) : Z :=
  match bin_buffer d with Some b => u32 (8 + pad4 (buf_ByteLength b)) | None => 0 end.
Lemma u32_range n : 0 <= u32 n < 2 ^ 32.
Proof. unfold u32. apply Z.mod_pos_bound. reflexivity. Qed.
Lemma encodeBinary_any prefix indent d text w : marshalJSONDoc F X true prefix indent d = Ok text -> no_faults w ->
  20 + up4 (zlen text) + bin_declared d < 2 ^ 32 ->
  exists w', encodeBinary F X prefix indent d w = (bin_outcome d, w') /\ no_faults w' /\
    wr_out w' = wr_out w ++ List.concat (map word [glbHeaderMagic; 2; 20 + up4 (zlen text) + bin_declared d; up4 (zlen text); glbChunkJSON]) ++
      (text ++ repeat (z2b 32) (Z.to_nat (up4 (zlen text) - zlen text))) ++ bin_tail d.
Proof.
  intros M NF LT. assert (P32 : 2 ^ 32 = 4294967296) by reflexivity. rewrite P32 in LT.
  pose proof (zlen_nonneg text) as Nt. pose proof (up4_bounds (zlen text)) as [U1 U2].
  unfold encodeBinary. rewrite M. fold (bin_buffer d).
  assert (LB : 0 <= bin_declared d < 2 ^ 32). { unfold bin_declared. destruct (bin_buffer d); [apply u32_range|rewrite P32; lia]. }
  rewrite (pad4_up (zlen text)) by lia. rewrite (u32_small (up4 (zlen text))), (u32_small (zlen text)) by lia.
  rewrite (u32_small (up4 (zlen text) - zlen text)), (u32_small (12 + 8 + up4 (zlen text))) by lia.
  set (k := Z.to_nat (up4 (zlen text) - zlen text)).
  set (hl := match bin_buffer d with Some b => _ | None => _ end).
  assert (EH : hl = 20 + up4 (zlen text) + bin_declared d).
  { unfold hl. unfold bin_declared in *. destruct (bin_buffer d) as [b|]; [|lia]. rewrite (u32_small (_ + u32 _)) by lia. lia. }
  clearbody hl. rewrite EH. set (hdr := put_glbHeader _).
  assert (EHdr : hdr = List.concat (map word [glbHeaderMagic; 2; 20 + up4 (zlen text) + bin_declared d; up4 (zlen text); glbChunkJSON])).
  { unfold hdr, put_glbHeader, put_chunkHeader. cbn [gh_Magic gh_Version gh_Length gh_JSONHeader ch_Length ch_Type]. rewrite !le4_word. cbn [map List.concat]. rewrite app_nil_r. reflexivity. }
  rewrite <- EHdr. clearbody hdr.
  destruct (w_write_ok hdr w NF) as (w1 & -> & N1 & O1).
  destruct (w_write_ok text w1 N1) as (w2 & -> & N2 & O2).
  destruct (w_write_ok (repeat (z2b 32) k) w2 N2) as (w3 & -> & N3 & O3).
  unfold bin_outcome, bin_tail. destruct (bin_buffer d) as [b|].
  - destruct (negb (make_ok _)).
    + exists w3. split; [reflexivity|]. split; [exact N3|]. rewrite O3, O2, O1, app_nil_r, <- !app_assoc. reflexivity.
    + set (bh := put_chunkHeader _). destruct (w_write_ok bh w3 N3) as (w4 & -> & N4 & O4).
      destruct (w_write_ok (buf_Data b) w4 N4) as (w5 & -> & N5 & O5). set (z := repeat byte0 _).
      destruct (w_write_ok z w5 N5) as (w6 & -> & N6 & O6). exists w6. split; [reflexivity|]. split; [exact N6|].
      rewrite O6, O5, O4, O3, O2, O1, <- !app_assoc. reflexivity.
  - exists w3. split; [reflexivity|]. split; [exact N3|]. rewrite O3, O2, O1, app_nil_r, <- !app_assoc. reflexivity.
Qed.
Lemma header_any L N body tail : 0 <= L < 2 ^ 32 -> N = zlen body -> N + 20 <= L ->
  let out := List.concat (map word [glbHeaderMagic; 2; L; N; glbChunkJSON]) ++ body ++ tail in
  let h := mkGlbHeader glbHeaderMagic 2 L (mkChunkHeader N glbChunkJSON) in
  header_of out = Some h /\ validateGLBHeader h = Ok tt /\ json_chunk h out = body /\ after_chunk h out = tail /\ N <= zlen (skipn 20 out).
Proof.
  intros RL -> RN. cbv zeta. set (N := zlen body) in *. set (out := List.concat _ ++ body ++ tail). pose proof (zlen_nonneg body) as Nb. fold N in Nb.
  assert (P32 : 2 ^ 32 = 4294967296) by reflexivity.
  assert (H20 : firstn 20 out = List.concat (map word [glbHeaderMagic; 2; L; N; glbChunkJSON])).
  { unfold out. rewrite firstn_app. change (List.length (List.concat (map word [glbHeaderMagic; 2; L; N; glbChunkJSON]))) with 20%nat.
    rewrite Nat.sub_diag, firstn_O, app_nil_r. reflexivity. }
  assert (S20 : skipn 20 out = body ++ tail).
  { unfold out. rewrite skipn_app. change (List.length (List.concat (map word [glbHeaderMagic; 2; L; N; glbChunkJSON]))) with 20%nat. reflexivity. }
  assert (G : get_glbHeader (firstn 20 out) = mkGlbHeader glbHeaderMagic 2 L (mkChunkHeader N glbChunkJSON)).
  { rewrite H20. unfold get_glbHeader. rewrite <- (app_nil_r (List.concat _)).
    rewrite (field4_words _ 0 [] glbHeaderMagic), (field4_words _ 1 [] 2), (field4_words _ 2 [] L), (field4_words _ 3 [] N), (field4_words _ 4 [] glbChunkJSON);
      try reflexivity; unfold glbChunkJSON, glbHeaderMagic; rewrite P32 in *; lia. }
  split. { unfold header_of. replace (zlen out <? 20) with false.
    - rewrite G. reflexivity.
    - symmetry. apply Z.ltb_ge. unfold out. rewrite zlen_app. change (zlen (List.concat (map word [glbHeaderMagic; 2; L; N; glbChunkJSON]))) with 20. pose proof (zlen_nonneg (body ++ tail)). lia. }
  split. { unfold validateGLBHeader. cbn [gh_JSONHeader ch_Length ch_Type gh_Length]. change (glbChunkJSON =? glbChunkJSON) with true. cbn [negb orb].
    unfold u32, header_size. rewrite Z.mod_small by lia. replace (L <? N + 20) with false by lia. reflexivity. }
  assert (LN : List.length body = Z.to_nat N) by (unfold N, zlen; lia).
  unfold json_chunk, after_chunk. cbn [gh_JSONHeader ch_Length]. rewrite S20, firstn_app, skipn_app, LN, Nat.sub_diag, firstn_O, app_nil_r, firstn_all2, skipn_all2 by lia.
  split; [reflexivity|]. split; [reflexivity|]. rewrite zlen_app. fold N. pose proof (zlen_nonneg tail). lia.
Qed.

(** ** Decode, of the text and of the binary file *)
Definition after_json (fsys : option (bytes -> bytes * option error)) (old : Document) (isBinary : bool) (j : json) (tail : bytes) : list bytes * res Document :=
  match (v <- (if Z.of_nat (nesting j) <=? max_depth then Ok j else Err (ErrMsg "invalid character")) ;; dec (c_Document F X) old v) with
  | Ok doc => finish U fsys isBinary doc tail
  | Err e => ([], Err e)
  | Panic => ([], Panic)
  end.
Lemma decode_text_any fsys old p i m r : lexical (JObj m) -> ws p -> ws i -> reads_to_eof r -> stream r = printed p i (JObj m) ->
  Decode F X U fsys old (NewReader r) = after_json fsys old false (JObj m) [].
Proof.
  intros L Hp Hi R S. rewrite Decode_text; [|exact R|].
  - rewrite S. rewrite <- (app_nil_r (printed p i (JObj m))), (proj1 (whole_printed p i (JObj m) [] L I Hp Hi)). reflexivity.
  - rewrite S. destruct (printed_brace p i m Hp Hi) as [t ->]. apply brace_text.
Qed.
Lemma decode_glb_any fsys old p i m r d : lexical (JObj m) -> ws p -> ws i -> reads_to_eof r -> r_aligned r ->
  let text := printed p i (JObj m) in
  20 + up4 (zlen text) + bin_declared d < 2 ^ 32 ->
  stream r = List.concat (map word [glbHeaderMagic; 2; 20 + up4 (zlen text) + bin_declared d; up4 (zlen text); glbChunkJSON]) ++
      (text ++ repeat (z2b 32) (Z.to_nat (up4 (zlen text) - zlen text))) ++ bin_tail d ->
  Decode F X U fsys old (NewReader r) = after_json fsys old true (JObj m) (bin_tail d).
Proof.
  intros L Hp Hi R A text LT S. pose proof (up4_bounds (zlen text)) as [U1 U2]. pose proof (zlen_nonneg text) as Nt.
  assert (LB : 0 <= bin_declared d). { unfold bin_declared. destruct (bin_buffer d); [apply u32_range|lia]. }
  set (k := Z.to_nat (up4 (zlen text) - zlen text)) in *.
  assert (ZB : up4 (zlen text) = zlen (text ++ repeat (z2b 32) k)). { rewrite zlen_app, repeat_zlen. unfold k. lia. }
  destruct (header_any (20 + up4 (zlen text) + bin_declared d) (up4 (zlen text)) (text ++ repeat (z2b 32) k) (bin_tail d)) as (H1 & H2 & H3 & H4 & H5);
    [lia|exact ZB|lia|]. rewrite <- S in *.
  rewrite (Decode_glb F X U fsys old r _ R H1 H2); [|cbn [gh_JSONHeader ch_Length]; lia|].
  - rewrite H3, H4. pose proof (proj1 (whole_printed p i (JObj m) (repeat (z2b 32) k) L I Hp Hi)) as E. fold text in E. rewrite E. reflexivity.
  - left. unfold chunk_done. rewrite H3. destruct (proj2 (whole_printed p i (JObj m) (repeat (z2b 32) k) L I Hp Hi)) as [E|E]; [right|left; exact E].
    fold text in E. rewrite E. split; [exact A|]. cbn [gh_JSONHeader ch_Length]. split; [exact U2|]. split; [rewrite repeat_zlen; unfold k; lia|exact H5].
Qed.
End Params.
