(** Properties of the chunks of a GLB: the binary writes (C33) and C64. *)
From Verif Require Import Base BaseFacts Types Doc F64 Base64 Url UrlProofs SpecText SpecPath SpecData JsonText JsonTextProofs Codec SpecJson CodecProofs CodecInv
  DocCodec Marshal SpecMarshal MarshalProofs Stream StreamProofs File SpecFile DecodeProofs EncodeProofs PropsJson PropsFile.

(** ** C33, binary *)
(** A first buffer without URI goes into the file. *)
Definition inside (d : Document) : Prop := match doc_Buffers d with Some b :: _ => buf_URI b = ""%string | _ => False end.

Lemma write_script p w e w' : w_write p w = (e, w') ->
  (e = None <-> nth 0 (wr_script w) None = None) /\ forall i, nth i (wr_script w') None = nth (S i) (wr_script w) None.
Proof.
  unfold w_write. destruct (wr_script w) as [|[[n x]|] s]; intros [= <- <-]; cbn [wr_script nth]; (split; [split; (reflexivity || discriminate)|]); try reflexivity.
  intros [|i]; reflexivity.
Qed.
(** The failures of the first write, of the last write of a binary chunk and
    of the other files are reported. *)
Theorem C33_binary_partial F X U prefix indent d w fs w' fs' :
  Encode F X U true prefix indent d w (Some fs) = (Ok tt, w', fs') ->
  nth 0 (wr_script w) None = None /\ (inside d -> nth 5 (wr_script w) None = None) /\
  exists f' fl, fs' = Some f' /\ cf_files f' = rev fl ++ cf_files fs /\
    (inside d -> written U (tl (doc_Buffers d)) fl) /\ (~ inside d -> written U (doc_Buffers d) fl).
Proof.
  unfold Encode. destruct (encodeBinary F X prefix indent d w) as [[hb| |] w1] eqn:EB; [|discriminate..]. intros E.
  assert (K : nth 0 (wr_script w) None = None /\ (inside d -> nth 5 (wr_script w) None = None /\ hb = true) /\ (~ inside d -> hb = false)).
  { unfold encodeBinary in EB. destruct (marshalJSONDoc F X true prefix indent d) as [text| |]; [|discriminate..].
    match type of EB with context [w_write ?p w] => destruct (w_write p w) as [[e|] w2] eqn:W1; [discriminate|] end.
    destruct (write_script _ _ _ _ W1) as [S1 T1]. split; [apply S1; reflexivity|].
    match type of EB with context [w_write text w2] => destruct (w_write text w2) as [e2 w3] eqn:W2 end. destruct (write_script _ _ _ _ W2) as [_ T2].
    match type of EB with context [w_write ?p w3] => destruct (w_write p w3) as [e3 w4] eqn:W3 end. destruct (write_script _ _ _ _ W3) as [_ T3].
    unfold inside. destruct (doc_Buffers d) as [|[b|] l]; [injection EB as <- _; tauto| |injection EB as <- _; tauto].
    destruct (buf_URI b) as [|c u]; [change (str_empty "") with true in EB|change (str_empty (String c u)) with false in EB]; cbv iota in EB; [|injection EB as <- _; split; [discriminate|reflexivity]].
    destruct (negb (make_ok (i64 (pad4 (buf_ByteLength b) - buf_ByteLength b)))); [discriminate|].
    match type of EB with context [w_write ?p w4] => destruct (w_write p w4) as [e4 w5] eqn:W4 end. destruct (write_script _ _ _ _ W4) as [_ T4].
    match type of EB with context [w_write ?p w5] => destruct (w_write p w5) as [e5 w6] eqn:W5 end. destruct (write_script _ _ _ _ W5) as [_ T5].
    match type of EB with context [w_write ?p w6] => destruct (w_write p w6) as [[e|] w7] eqn:W6; [discriminate|] end. destruct (write_script _ _ _ _ W6) as [S6 _].
    injection EB as <- _. split; [|intros N; destruct N; reflexivity]. intros _. split; [|reflexivity].
    rewrite <- T1, <- T2, <- T3, <- T4, <- T5. apply S6. reflexivity. }
  destruct K as (K0 & K1 & K2). split; [exact K0|]. split; [intros I; exact (proj1 (K1 I))|].
  destruct (encodeBuffers U (if hb then tl (doc_Buffers d) else doc_Buffers d) (Some fs)) as [r fs1] eqn:EF. injection E as -> <- <-.
  destruct (encodeBuffers_written U _ _ _ EF) as (f' & fl & -> & W & C). exists f', fl. split; [reflexivity|]. split; [exact C|].
  split; [intros I; rewrite (proj2 (K1 I)) in W|intros N; rewrite (K2 N) in W]; exact W.
Qed.
Print Assumptions C33_binary_partial.

(** ** C64: the binary chunk that is read *)
Lemma decodeDocument_rest F X old r h doc b isB : reads_to_eof r -> header_of (stream r) = Some h ->
  decodeDocument F X old (NewReader r) = (Ok (isB, doc), b) ->
  isB = true /\ validateGLBHeader h = Ok tt /\ binv b /\ endof b = ErrEOF /\
  exists used, skipn 20 (stream r) = used ++ remaining b /\ zlen used <= ch_Length (gh_JSONHeader h).
Proof.
  intros R H. unfold decodeDocument. destruct (readGLBHeader (NewReader r)) as [res b0] eqn:G.
  pose proof (readGLBHeader_spec r res b0 R G) as (A1 & A2 & _ & A3). rewrite H in A3. destruct A3 as [-> A3].
  destruct (validateGLBHeader h) as [[]| |] eqn:V; cbn [bind]; [|discriminate..]. cbn [option_map].
  assert (N : 0 <= ch_Length (gh_JSONHeader h)).
  { unfold header_of in H. destruct (zlen (stream r) <? 20); [discriminate|]. destruct (_ =? _); [|discriminate]. injection H as <-. apply le_val_range. }
  destruct (read_json (mkSource (Some (ch_Length (gh_JSONHeader h))) b0)) as [v s] eqn:J.
  pose proof (read_json_spec (mkSource (Some (ch_Length (gh_JSONHeader h))) b0) v s (conj A1 N) A2 J) as (_ & B1 & B2 & (used & B3 & B4 & B5) & _).
  cbn [src_lim src_buf option_map] in *. destruct v as [v| |]; cbn [bind]; [|discriminate..].
  destruct (dec (c_Document F X) old v) as [d| |]; cbn [bind]; [|discriminate..]. intros [= <- <- <-].
  split; [reflexivity|]. split; [reflexivity|]. split; [exact (proj1 B1)|]. split; [exact B2|]. exists used. rewrite <- A3. split; [exact B4|].
  destruct B1 as [_ B1]. rewrite B5 in B1. lia.
Qed.

Lemma load_bytes_chunk U fsys bufs bs0 t b l : load_bytes U fsys true bufs bs0 = (t, Ok (Some b :: l)) -> buf_URI b = ""%string ->
  exists len rest, bs0 = word len ++ kind_bin ++ buf_Data b ++ rest /\
    0 <= len < 2 ^ 32 /\ buf_ByteLength b mod 2 ^ 32 <= len /\ zlen (buf_Data b) = buf_ByteLength b.
Proof.
  intros LB UB.
  unfold load_bytes in LB.
  assert (NB : forall l0 t0, decodeBuffers U fsys l0 = (t0, Ok (Some b :: l)) -> False).
  { intros [|[b0|] l0] t0; cbn [decodeBuffers]; [discriminate| |discriminate]. destruct (decodeBuffer U fsys b0) as [t2 [b2| |]] eqn:D; [|discriminate..].
    destruct (decodeBuffers U fsys l0) as [t3 [r3| |]]; cbn [bind]; [|discriminate..]. intros [= _ -> _]. unfold decodeBuffer in D.
    destruct (validateBuffer b0); [|discriminate..]. destruct (str_empty (buf_URI b0)) eqn:SE; [discriminate|].
    assert (UE : buf_URI b0 <> ""%string). { intros K. rewrite K in SE. discriminate. } apply UE. clear UE SE.
    destruct (buf_IsEmbeddedResource b0).
    { destruct (buf_marshalData b0); cbn [bind] in D; [|discriminate..]. injection D as _ <-. exact UB. }
    destruct (validateBufferURI U (str_bytes (buf_URI b0))); [|discriminate..]. destruct fsys as [rf|]; [|injection D as _ <-; exact UB].
    destruct (rf (str_bytes (buf_URI b0))) as [dd e]. 
    match type of D with (_, bind ?q _) = _ => destruct q as [d2| |] end; cbn [bind] in D; [|discriminate..]. destruct e; [discriminate|]. injection D as _ <-. exact UB. }
  destruct bufs as [|[b0|] l0]; [destruct (NB _ _ LB)| |destruct (NB _ _ LB)]. destruct (true && str_empty (buf_URI b0)); [|destruct (NB _ _ LB)].
  destruct (bin_result b0 bs0) as [b2| |] eqn:BR; [|discriminate..]. destruct (decodeBuffers U fsys l0) as [t3 [r3| |]]; cbn [bind] in LB; [|discriminate..].
  injection LB as _ -> _. unfold bin_result in BR. destruct (validateBuffer b0); cbn [bind] in BR; [|discriminate..].
  unfold taken at 1 in BR. destruct (8 <=? zlen [] + zlen bs0) eqn:C8; cbn [bind app] in BR; [|discriminate]. rewrite zlen_nil in BR, C8.
  change (Z.to_nat (8 - 0)) with 8%nat in BR. destruct (negb _ || _) eqn:CH in BR; [discriminate|]. apply orb_false_elim in CH. destruct CH as [CT CL].
  destruct (make_ok (buf_ByteLength b0)) eqn:MK; cbn [negb] in BR; [|discriminate].
  unfold taken in BR. destruct (buf_ByteLength b0 <=? _) eqn:CB in BR; cbn [bind app] in BR; [|discriminate]. rewrite zlen_nil, Z.sub_0_r, Z.add_0_l in *. injection BR as <-.
  cbn [buf_Data buf_ByteLength set_buf_Data].
  destruct bs0 as [|x1 [|x2 [|x3 [|x4 [|y1 [|y2 [|y3 [|y4 l1]]]]]]]]; try (unfold zlen in C8; cbn in C8; lia).
  change (firstn 8 _) with [x1; x2; x3; x4; y1; y2; y3; y4] in CT, CL. change (skipn 8 _) with l1 in *.
  change (ch_Length (get_chunkHeader [x1; x2; x3; x4; y1; y2; y3; y4])) with (le_val [x1; x2; x3; x4]) in CL.
  change (ch_Type (get_chunkHeader [x1; x2; x3; x4; y1; y2; y3; y4])) with (le_val [y1; y2; y3; y4]) in CT.
  assert (LX : word (le_val [x1; x2; x3; x4]) = [x1; x2; x3; x4]) by (rewrite <- le4_word; exact (le_bytes_le_val [x1; x2; x3; x4])).
  assert (KY : [y1; y2; y3; y4] = kind_bin).
  { rewrite <- (le_bytes_le_val [y1; y2; y3; y4]). apply negb_false_iff, Z.eqb_eq in CT. rewrite CT. reflexivity. }
  pose proof (le_val_range [x1; x2; x3; x4]) as RX. change (256 ^ Z.of_nat (List.length [x1; x2; x3; x4])) with (2 ^ 32) in RX.
  unfold u32, make_ok in *. 
  exists (le_val [x1; x2; x3; x4]), (skipn (Z.to_nat (buf_ByteLength b0)) l1). split; [|split; [exact RX|split]].
  - rewrite LX, <- KY. cbn [app]. rewrite firstn_skipn. reflexivity.
  - lia.
  - rewrite zlen_firstn by lia. lia.
Qed.

(** Decode takes the data of a first buffer without URI from a chunk that is
    declared binary and large enough, and this chunk follows the JSON. *)
Theorem C64_binary_chunk F X U fsys old r h names doc b l :
  reads_to_eof r -> header_of (stream r) = Some h ->
  Decode F X U fsys old (NewReader r) = (names, Ok doc) ->
  doc_Buffers doc = Some b :: l -> buf_URI b = ""%string ->
  exists pre len rest, stream r = pre ++ word len ++ kind_bin ++ buf_Data b ++ rest /\
    20 <= zlen pre <= 20 + ch_Length (gh_JSONHeader h) /\
    0 <= len < 2 ^ 32 /\ buf_ByteLength b mod 2 ^ 32 <= len /\ zlen (buf_Data b) = buf_ByteLength b.
Proof.
  intros R H. unfold Decode. destruct (decodeDocument F X old (NewReader r)) as [[[isB d]| |] b1] eqn:DD; [|discriminate..].
  destruct (decodeDocument_rest F X old r h d b1 isB R H DD) as (-> & _ & I & E & used & S & L).
  destruct (mapM (clean_buffer U) (doc_Buffers d)) as [bufs| |], (mapM (clean_image U) (doc_Images d)) as [ims| |]; try discriminate.
  rewrite (load_buffers_spec _ _ _ _ b1 I E). destruct (load_bytes U fsys true bufs (remaining b1)) as [t [bs| |]] eqn:LB; cbn [bind]; [|discriminate..].
  intros [= _ <-] BS UB. cbn [doc_Buffers set_doc_Images set_doc_Buffers] in BS. subst bs.
  destruct (load_bytes_chunk U fsys bufs _ t b l LB UB) as (len & rest & E1 & E2 & E3 & E4).
  assert (L20 : 20 <= zlen (stream r)). { unfold header_of in H. destruct (zlen (stream r) <? 20) eqn:Q; [discriminate|lia]. }
  exists (firstn (Z.to_nat 20) (stream r) ++ used), len, rest. split; [|split; [|split; [exact E2|split; [exact E3|exact E4]]]].
  - rewrite <- app_assoc, <- E1, <- S. symmetry. apply firstn_skipn.
  - rewrite zlen_app, zlen_firstn by lia. pose proof (zlen_nonneg used). lia.
Qed.
Print Assumptions C64_binary_chunk.

(** It is the chunk right behind the JSON chunk, when the JSON chunk is a text
    padded to a multiple of four and the reader delivers multiples of four
    bytes, or when there is no padding. *)
Theorem C64_place F X U fsys old r h names doc b l v n t pad :
  reads_to_eof r -> header_of (stream r) = Some h ->
  firstn (Z.to_nat (ch_Length (gh_JSONHeader h))) (skipn 20 (stream r)) = t ++ pad ->
  text_of v t -> container v -> wf_json n v -> Z.of_nat n <= 10000 ->
  pad = [] \/ (zlen pad < 4 /\ zlen (t ++ pad) = ch_Length (gh_JSONHeader h) /\ zlen (t ++ pad) mod 4 = 0 /\ Forall (fun p => zlen p mod 4 = 0) (rd_pieces r)) ->
  Decode F X U fsys old (NewReader r) = (names, Ok doc) ->
  doc_Buffers doc = Some b :: l -> buf_URI b = ""%string ->
  exists len rest, skipn (Z.to_nat (ch_Length (gh_JSONHeader h))) (skipn 20 (stream r)) = word len ++ kind_bin ++ buf_Data b ++ rest /\
    0 <= len < 2 ^ 32 /\ buf_ByteLength b mod 2 ^ 32 <= len.
Proof.
  intros R H J T C W D P DE BS UB.
  assert (N : 0 <= ch_Length (gh_JSONHeader h)).
  { unfold header_of in H. destruct (zlen (stream r) <? 20); [discriminate|]. destruct (_ =? _); [|discriminate]. injection H as <-. apply le_val_range. }
  assert (V : validateGLBHeader h = Ok tt).
  { destruct (validateGLBHeader h) as [[]|e|] eqn:V; [reflexivity| |].
    - rewrite (Decode_bad F X U fsys old r h e R H V) in DE. discriminate.
    - unfold validateGLBHeader in V. destruct (_ || _); discriminate. }
  assert (LO : leftover (json_chunk h (stream r)) = pad).
  { unfold json_chunk. rewrite J. unfold leftover. rewrite (scan_container v t n pad T C W ltac:(unfold max_depth; lia)). reflexivity. }
  rewrite (Decode_glb F X U fsys old r h R H V N) in DE.
  - unfold json_chunk in DE. rewrite J, (whole_container v t n pad T C W) in DE by (unfold max_depth; lia). cbn [bind] in DE.
    destruct (dec (c_Document F X) old v) as [d| |]; [|discriminate..]. unfold finish in DE.
    destruct (mapM (clean_buffer U) (doc_Buffers d)) as [bufs| |], (mapM (clean_image U) (doc_Images d)) as [ims| |]; try discriminate.
    destruct (load_bytes U fsys true bufs (after_chunk h (stream r))) as [t0 [bs| |]] eqn:LB; cbn [bind] in DE; [|discriminate..].
    injection DE as _ <-. cbn [doc_Buffers set_doc_Images set_doc_Buffers] in BS. subst bs.
    destruct (load_bytes_chunk U fsys bufs _ t0 b l LB UB) as (len & rest & E1 & E2 & E3 & _). exists len, rest. split; [exact E1|]. split; assumption.
  - left. unfold chunk_done. rewrite LO. destruct P as [P|(P1 & P2 & P3 & P4)]; [left; exact P|right]. split; [exact P4|]. rewrite <- P2. split; [exact P3|]. split; [exact P1|].
    rewrite <- J. rewrite zlen_firstn by exact N. lia.
Qed.
Print Assumptions C64_place.
(** Six bytes in a chunk of eight; another kind, a short chunk and a missing
    chunk are refused. *)
Definition bin_json : bytes := str_bytes (q "{'buffers':[{'byteLength':6}]}  ").
Definition bin_file (len : Z) (kind data : bytes) : bytes :=
  str_bytes "glTF" ++ word 2 ++ word 68 ++ word 32 ++ str_bytes "JSON" ++ bin_json ++ word len ++ kind ++ data.
Example C64_example :
  let run f := snd (Decode sample_floats sample_exts sample_url None zero_Document (NewReader (mkReader [f] ErrEOF false))) in
  (exists doc, run (bin_file 8 kind_bin (str_bytes "abcdefgh")) = Ok doc /\ map (option_map buf_Data) (doc_Buffers doc) = [Some (str_bytes "abcdef")]) /\
  Forall (fun f => exists e, run f = Err e)
    [bin_file 8 kind_json (str_bytes "abcdefgh"); bin_file 4 kind_bin (str_bytes "abcdefgh"); bin_file 8 kind_bin (str_bytes "abcde")].
Proof.
  cbv zeta. split; [eexists; split; vm_compute; reflexivity|].
  repeat (apply Forall_cons; [eexists; vm_compute; reflexivity|]). apply Forall_nil.
Qed.
Example C33_binary_example :
  let d := one_buffer "" 2 (str_bytes "ab") in
  let run s := fst (fst (Encode sample_floats sample_exts sample_url true [] [] d (mkWriter [] s) (Some no_files))) in
  inside d /\ run [] = Ok tt /\ run [Some (3, ErrMsg "full")] = Err (ErrMsg "full") /\
  run [None; None; None; None; None; Some (1, ErrMsg "full")] = Err (ErrMsg "full").
Proof. cbv zeta. repeat split; vm_compute; reflexivity. Qed.
