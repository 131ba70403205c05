(** C78: the memory that Decode asks for. *)
From Verif Require Import Base BaseFacts Types Doc F64 Base64 Url SpecText JsonText Codec SpecJson DocCodec Marshal Stream StreamProofs File SpecFile
  DecodeProofs EncodeProofs PropsJson PropsFile PropsChunk DecodeAlloc.

(** The sum of the sizes asked for, and the length of the texts that hold
    data. *)
Definition asked (m : list Z) : Z := fold_right Z.add 0 m.
Definition embedded_bytes (l : list (option Buffer)) : Z :=
  fold_right (fun o n => match o with Some b => if buf_IsEmbeddedResource b then zlen (str_bytes (buf_URI b)) else 0 | None => 0 end + n) 0 l.
(** The input holds a binary chunk that is declared with [len] bytes. *)
Definition declares (bs : bytes) (len : Z) : Prop :=
  exists pre rest, bs = pre ++ word len ++ kind_bin ++ rest /\ 0 <= len < 2 ^ 32.

Lemma asked_app a b : asked (a ++ b) = asked a + asked b.
Proof. unfold asked. induction a as [|x a IH]; cbn [app fold_right]; lia. Qed.
Lemma marshalData_asked b : 0 <= asked (fst (marshalData_made b)) <= zlen (str_bytes (buf_URI b)).
Proof.
  pose proof (zlen_nonneg (str_bytes (buf_URI b))) as N. unfold marshalData_made. destruct (negb _); [cbn; lia|]. cbv zeta. destruct (_ <? _); [cbn; lia|].
  unfold str_from, slice_from. destruct (_ && _); [|cbn; lia].
  cbn [fst asked fold_right]. unfold DecodedLen. match goal with |- context [zlen (skipn ?k ?s)] => pose proof (zlen_nonneg (skipn k s)); assert (zlen (skipn k s) <= zlen s) by (unfold zlen; rewrite skipn_length; lia) end.
  lia.
Qed.
Lemma decodeBuffer_asked U fsys b : 0 <= asked (fst (decodeBuffer_made U fsys b)) <= if buf_IsEmbeddedResource b then zlen (str_bytes (buf_URI b)) else 0.
Proof.
  pose proof (zlen_nonneg (str_bytes (buf_URI b))) as N.
  unfold decodeBuffer_made. destruct (validateBuffer b); [|destruct (buf_IsEmbeddedResource b); cbn; lia..]. destruct (str_empty _); [destruct (buf_IsEmbeddedResource b); cbn; lia|].
  destruct (buf_IsEmbeddedResource b).
  - pose proof (marshalData_asked b). destruct (marshalData_made b). exact H.
  - destruct (validateBufferURI U _); [|cbn; lia..]. destruct fsys as [rf|]; [|cbn; lia]. cbv zeta. destruct (rf _). cbn. lia.
Qed.
Lemma embedded_nonneg l : 0 <= embedded_bytes l.
Proof. induction l as [|[b|] l IH]; [cbn; lia| |]; cbn [embedded_bytes fold_right]; fold (embedded_bytes l); [|lia]. pose proof (zlen_nonneg (str_bytes (buf_URI b))). destruct (buf_IsEmbeddedResource b); lia. Qed.
Lemma decodeBuffers_asked U fsys l : 0 <= asked (fst (decodeBuffers_made U fsys l)) <= embedded_bytes l.
Proof.
  induction l as [|[b|] l IH]; [cbn; lia| |pose proof (embedded_nonneg l); cbn [embedded_bytes fold_right decodeBuffers_made fst asked]; fold (embedded_bytes l); lia].
  cbn [decodeBuffers_made embedded_bytes fold_right]. fold (embedded_bytes l). pose proof (decodeBuffer_asked U fsys b) as D. pose proof (embedded_nonneg l).
  destruct (decodeBuffer_made U fsys b) as [m [t [b'| |]]]; cbn [fst] in *; [|lia..].
  destruct (decodeBuffers_made U fsys l) as [m' [t' r]]. cbn [fst] in *. rewrite asked_app. lia.
Qed.

Lemma decodeBinaryBuffer_asked buf b m out : binv b -> endof b = ErrEOF -> decodeBinaryBuffer_made buf b = (m, out) ->
  m = [] \/ (m = [buf_ByteLength buf] /\ 0 < buf_ByteLength buf <= 2 ^ 48 /\
    (exists len rest, remaining b = word len ++ kind_bin ++ rest /\ 0 <= len < 2 ^ 32 /\ buf_ByteLength buf mod 2 ^ 32 <= len /\
      (buf_ByteLength buf <= zlen rest \/ exists e, fst out = Err e))).
Proof.
  intros I E. unfold decodeBinaryBuffer_made. destruct (validateBuffer buf) eqn:V; [|intros [= <- <-]; left; reflexivity..].
  unfold read_chunkHeader. destruct (ReadFull chunk_header_size b) as [l b1] eqn:R.
  pose proof (ReadFull_spec _ b l b1 I E R) as (A1 & A2 & A3 & A4). subst l. change chunk_header_size with 8 in *.
  unfold taken. cbn [app]. destruct (8 <=? zlen [] + zlen (remaining b)) eqn:C8; cbn [bind]; [|intros [= <- <-]; left; reflexivity].
  rewrite zlen_nil in *. change (Z.to_nat (8 - 0)) with 8%nat.
  match goal with |- context [if ?c then ([], (Err _, _)) else _] => destruct c eqn:CH end; [intros [= <- <-]; left; reflexivity|].
  destruct (make_ok (buf_ByteLength buf)) eqn:MK; cbn [negb]; [|intros [= <- <-]; left; reflexivity].
  destruct (ReadFull (buf_ByteLength buf) b1) as [d b2] eqn:R2. pose proof (ReadFull_spec _ b1 d b2 A2 A3 R2) as (-> & _). intros [= <- <-]. right.
  split; [reflexivity|]. unfold validateBuffer in V. destruct (buf_ByteLength buf =? 0) eqn:Z0; [discriminate|]. unfold make_ok in MK. split; [lia|].
  rewrite A4 by lia. change (Z.to_nat 8) with 8%nat. destruct (remaining b) as [|x1 [|x2 [|x3 [|x4 [|y1 [|y2 [|y3 [|y4 l1]]]]]]]]; try (unfold zlen in C8; cbn in C8; lia).
  change (skipn 8 _) with l1. change (firstn 8 _) with [x1; x2; x3; x4; y1; y2; y3; y4] in CH. apply orb_false_elim in CH. destruct CH as [CT CL].
  change (ch_Length (get_chunkHeader [x1; x2; x3; x4; y1; y2; y3; y4])) with (le_val [x1; x2; x3; x4]) in CL.
  change (ch_Type (get_chunkHeader [x1; x2; x3; x4; y1; y2; y3; y4])) with (le_val [y1; y2; y3; y4]) in CT.
  assert (LX : word (le_val [x1; x2; x3; x4]) = [x1; x2; x3; x4]) by (rewrite <- le4_word; exact (le_bytes_le_val [x1; x2; x3; x4])).
  assert (KY : [y1; y2; y3; y4] = kind_bin).
  { rewrite <- (le_bytes_le_val [y1; y2; y3; y4]). apply negb_false_iff, Z.eqb_eq in CT. rewrite CT. reflexivity. }
  pose proof (le_val_range [x1; x2; x3; x4]) as RX. change (256 ^ Z.of_nat (List.length [x1; x2; x3; x4])) with (2 ^ 32) in RX.
  exists (le_val [x1; x2; x3; x4]), l1. split; [rewrite LX, <- KY; reflexivity|]. split; [exact RX|]. split; [unfold u32 in CL; lia|].
  unfold taken. match goal with |- context [buf_ByteLength buf <=? ?k] => destruct (buf_ByteLength buf <=? k) eqn:CB end; cbn [bind fst]; rewrite ?zlen_nil in CB; [left; lia|right; eexists; reflexivity].
Qed.

Lemma mapM_clean U l bufs : mapM (clean_buffer U) l = Ok bufs ->
  Forall2 (fun o o' => exists b b', o = Some b /\ o' = Some b' /\ buf_ByteLength b' = buf_ByteLength b) l bufs.
Proof.
  revert bufs. induction l as [|o l IH]; intros bufs; cbn [mapM]; [intros [= <-]; constructor|].
  destruct o as [b|]; [|discriminate]. unfold clean_buffer at 1. cbn [deref bind]. destruct (mapM (clean_buffer U) l) as [bs| |]; cbn [bind]; [|discriminate..]. intros [= <-].
  constructor; [|apply IH; reflexivity]. exists b. eexists. split; [reflexivity|]. split; [reflexivity|]. destruct (buf_IsEmbeddedResource b); reflexivity.
Qed.

Lemma decodeDocument_stream F X old r doc b isB : reads_to_eof r -> decodeDocument F X old (NewReader r) = (Ok (isB, doc), b) -> isB = true ->
  binv b /\ endof b = ErrEOF /\ exists pre, stream r = pre ++ remaining b.
Proof.
  intros R DD IB. destruct (header_of (stream r)) as [h|] eqn:H.
  - destruct (decodeDocument_rest F X old r h doc b isB R H DD) as (_ & _ & I & E & used & S & _). split; [exact I|]. split; [exact E|].
    exists (firstn 20 (stream r) ++ used). rewrite <- app_assoc, <- S. symmetry. apply firstn_skipn.
  - exfalso. subst isB. unfold decodeDocument in DD. destruct (readGLBHeader (NewReader r)) as [res b0] eqn:G.
    pose proof (readGLBHeader_spec r res b0 R G) as (_ & _ & _ & A3). rewrite H in A3. destruct A3 as [-> _]. cbn [option_map] in DD.
    destruct (read_json _) as [v s]. destruct v as [v| |]; cbn [bind] in DD; [|discriminate..]. destruct (dec (c_Document F X) old v); cbn [bind] in DD; discriminate.
Qed.

(** What Decode asks for, whatever its result: for an embedded buffer at most
    the length of its URI, and for the binary chunk the byteLength of the
    first buffer, of which the declared length of the chunk covers only the
    lower 32 bits. *)
Theorem C78_requests_partial F X U fsys old r m out :
  reads_to_eof r -> Decode_made F X U fsys old (NewReader r) = (m, out) -> m <> [] ->
  exists isB doc bufs b1 chunk,
    decodeDocument F X old (NewReader r) = (Ok (isB, doc), b1) /\ mapM (clean_buffer U) (doc_Buffers doc) = Ok bufs /\
    asked m <= chunk + embedded_bytes bufs /\
    (chunk = 0 \/
     isB = true /\ 0 < chunk <= 2 ^ 48 /\ exists b l len, doc_Buffers doc = Some b :: l /\ chunk = buf_ByteLength b /\ declares (stream r) len /\ chunk mod 2 ^ 32 <= len).
Proof.
  intros R. unfold Decode_made. destruct (decodeDocument F X old (NewReader r)) as [[[isB doc]| |] b1] eqn:DD; [|intros [= <- <-] N; destruct (N eq_refl)..].
  destruct (mapM (clean_buffer U) (doc_Buffers doc)) as [bufs| |] eqn:MB, (mapM (clean_image U) (doc_Images doc)) as [ims| |]; try (intros [= <- <-] N; destruct (N eq_refl)).
  destruct (load_buffers_made U fsys isB bufs b1) as [m0 [t rr]] eqn:LB. intros [= <- <-] N. exists isB, doc, bufs, b1.
  pose proof (mapM_clean U _ _ MB) as MC. pose proof (embedded_nonneg bufs) as EN. unfold load_buffers_made in LB.
  assert (PLAIN : forall l, decodeBuffers_made U fsys l = (m0, (t, rr)) -> asked m0 <= embedded_bytes l).
  { intros l EL. pose proof (decodeBuffers_asked U fsys l) as K. rewrite EL in K. cbn [fst] in K. lia. }
  assert (ZERO : forall l, l = bufs -> decodeBuffers_made U fsys l = (m0, (t, rr)) ->
     exists chunk, (Ok (isB, doc), b1) = (Ok (isB, doc), b1) /\ mapM (clean_buffer U) (doc_Buffers doc) = Ok bufs /\ asked m0 <= chunk + embedded_bytes bufs /\
    (chunk = 0 \/ isB = true /\ 0 < chunk <= 2 ^ 48 /\ exists b l len, doc_Buffers doc = Some b :: l /\ chunk = buf_ByteLength b /\ declares (stream r) len /\ chunk mod 2 ^ 32 <= len)).
  { intros l -> EL. exists 0. split; [reflexivity|]. split; [exact MB|]. split; [pose proof (PLAIN _ EL); lia|left; reflexivity]. }
  destruct bufs as [|[buf|] l]; [exact (ZERO _ eq_refl LB)| |exact (ZERO _ eq_refl LB)].
  destruct (isB && str_empty (buf_URI buf)) eqn:IB; [|exact (ZERO _ eq_refl LB)]. apply andb_prop in IB. destruct IB as [-> _].
  destruct (decodeDocument_stream F X old r doc b1 true R DD eq_refl) as (I & E & pre & ST).
  destruct (decodeBinaryBuffer_made buf b1) as [mb [rb b2]] eqn:DB. pose proof (decodeBinaryBuffer_asked _ _ _ _ I E DB) as K.
  assert (AM : asked m0 <= asked mb + embedded_bytes (Some buf :: l)).
  { cbn [embedded_bytes fold_right] in *. fold (embedded_bytes l) in *. pose proof (embedded_nonneg l) as EL. pose proof (zlen_nonneg (str_bytes (buf_URI buf))).
    destruct rb as [rb| |].
    - pose proof (decodeBuffers_asked U fsys l) as DL. destruct (decodeBuffers_made U fsys l) as [m' [t' r']]. injection LB as <- _ _. cbn [fst] in DL. rewrite asked_app.
      destruct (buf_IsEmbeddedResource buf); lia.
    - injection LB as <- _ _. lia.
    - injection LB as <- _ _. lia. }
  destruct K as [->|(-> & BL & len & rest & RE & LE & ML & _)].
  - exists 0. split; [reflexivity|]. split; [exact MB|]. split; [exact AM|left; reflexivity].
  - exists (buf_ByteLength buf). split; [reflexivity|]. split; [exact MB|]. split; [cbn [asked fold_right] in AM; lia|]. right. split; [reflexivity|]. split; [exact BL|].
    inversion MC as [|o o' l0 l' (b & b' & E1 & E2 & LEQ) MT EQ]. subst o. injection E2 as <-. exists b, l0, len. split; [reflexivity|]. split; [exact LEQ|]. split; [|exact ML].
    exists pre, rest. split; [|exact LE]. rewrite ST, RE. reflexivity.
Qed.
Print Assumptions C78_requests_partial.

(** With a byteLength that fits 32 bits, a chunk as large as what is asked for
    is declared; but nothing says it is there. *)
Theorem C78_declared_partial F X U fsys old r m out doc b1 b l :
  reads_to_eof r -> Decode_made F X U fsys old (NewReader r) = (m, out) ->
  decodeDocument F X old (NewReader r) = (Ok (true, doc), b1) -> doc_Buffers doc = Some b :: l -> buf_ByteLength b < 2 ^ 32 ->
  m = [] \/ exists bufs len, mapM (clean_buffer U) (doc_Buffers doc) = Ok bufs /\ asked m <= len + embedded_bytes bufs /\ (len = 0 \/ declares (stream r) len).
Proof.
  intros R D DD BS L. destruct m as [|z m]; [left; reflexivity|right].
  destruct (C78_requests_partial F X U fsys old r (z :: m) out R D ltac:(discriminate)) as (isB & doc' & bufs & b1' & chunk & E1 & E2 & E3 & E4).
  rewrite DD in E1. injection E1 as <- <- <-. exists bufs.
  destruct E4 as [->|(_ & B & b' & l' & len & F1 & F2 & F3 & F4)].
  - exists 0. split; [exact E2|]. split; [exact E3|left; reflexivity].
  - rewrite BS in F1. injection F1 as <- <-. subst chunk. exists len. split; [exact E2|]. split; [|right; exact F3]. rewrite Z.mod_small in F4 by lia. lia.
Qed.
Print Assumptions C78_declared_partial.

(** When Decode succeeds, it has asked for no more than the input has bytes,
    apart from the embedded buffers. *)
Theorem C78_success_partial F X U fsys old r m names doc :
  reads_to_eof r -> Decode_made F X U fsys old (NewReader r) = (m, (names, Ok doc)) ->
  asked m <= zlen (stream r) + embedded_bytes (doc_Buffers doc).
Proof.
  intros R. unfold Decode_made. destruct (decodeDocument F X old (NewReader r)) as [[[isB d]| |] b1] eqn:DD; [|discriminate..].
  destruct (mapM (clean_buffer U) (doc_Buffers d)) as [bufs| |], (mapM (clean_image U) (doc_Images d)) as [ims| |]; try discriminate.
  destruct (load_buffers_made U fsys isB bufs b1) as [m0 [t rr]] eqn:LB. destruct rr as [bs| |]; cbn [bind]; [|discriminate..]. intros [= -> _ <-].
  cbn [doc_Buffers set_doc_Images set_doc_Buffers]. pose proof (zlen_nonneg (stream r)) as NS.
  assert (SAME : forall b b' t, snd (decodeBuffer_made U fsys b) = (t, Ok b') -> buf_URI b' = buf_URI b).
  { intros b b' t0. rewrite decodeBuffer_made_same. unfold decodeBuffer. destruct (validateBuffer b); [|discriminate..]. destruct (str_empty _); [discriminate|].
    destruct (buf_IsEmbeddedResource b). { destruct (buf_marshalData b); cbn [bind]; [|discriminate..]. intros [= _ <-]. reflexivity. }
    destruct (validateBufferURI U _); [|discriminate..]. destruct fsys as [rf|]; [|intros [= _ <-]; reflexivity]. cbv zeta. destruct (rf _) as [dd e].
    match goal with |- (_, bind ?q _) = _ -> _ => destruct q as [d2| |] end; cbn [bind]; [|discriminate..]. destruct e; [discriminate|]. intros [= _ <-]. reflexivity. }
  assert (PLAIN : forall l m t bs, decodeBuffers_made U fsys l = (m, (t, Ok bs)) -> asked m <= embedded_bytes bs).
  { induction l as [|[b|] l IH]; intros m1 t1 bs1; cbn [decodeBuffers_made]; [intros [= <- _ <-]; cbn; lia| |discriminate].
    pose proof (decodeBuffer_asked U fsys b) as DB. pose proof (SAME b) as SB. destruct (decodeBuffer_made U fsys b) as [mb [tb [b'| |]]]; [|discriminate..].
    destruct (decodeBuffers_made U fsys l) as [ml [tl [bl| |]]]; cbn [bind]; [|discriminate..]. intros [= <- _ <-]. specialize (IH _ _ _ eq_refl).
    specialize (SB b' tb eq_refl). rewrite asked_app. cbn [embedded_bytes fold_right fst] in *. fold (embedded_bytes bl). unfold buf_IsEmbeddedResource in *. rewrite SB. lia. }
  unfold load_buffers_made in LB.
  destruct bufs as [|[buf|] l]; [pose proof (PLAIN _ _ _ _ LB); lia| |pose proof (PLAIN _ _ _ _ LB); lia].
  destruct (isB && str_empty (buf_URI buf)) eqn:IB; [|pose proof (PLAIN _ _ _ _ LB); lia]. apply andb_prop in IB. destruct IB as [-> _].
  destruct (decodeDocument_stream F X old r d b1 true R DD eq_refl) as (I & E & pre & ST).
  destruct (decodeBinaryBuffer_made buf b1) as [mb [rb b2]] eqn:DB. pose proof (decodeBinaryBuffer_asked _ _ _ _ I E DB) as K.
  destruct rb as [rb| |]; [|discriminate..]. destruct (decodeBuffers_made U fsys l) as [ml [tl [bl| |]]] eqn:DL; cbn [bind] in LB; [|discriminate..].
  injection LB as <- _ <-. pose proof (PLAIN _ _ _ _ DL) as PL. rewrite asked_app. cbn [embedded_bytes fold_right]. fold (embedded_bytes bl).
  pose proof (zlen_nonneg (str_bytes (buf_URI rb))) as NU.
  assert (asked mb <= zlen (stream r)).
  { destruct K as [->|(-> & BL & len & rest & RE & LE & ML & [SM|[e KE]])]; [cbn; lia| |discriminate].
    cbn [asked fold_right]. rewrite ST, RE, !zlen_app. pose proof (zlen_nonneg pre). pose proof (zlen_nonneg (word len)). pose proof (zlen_nonneg kind_bin). lia. }
  destruct (buf_IsEmbeddedResource rb); lia.
Qed.
Print Assumptions C78_success_partial.

(** A file of 84 bytes makes Decode ask for a terabyte: the byteLength is
    compared with the chunk as a uint32. *)
Definition huge_json : bytes := str_bytes (q "{'buffers':[{'byteLength':1099511627776}]}  ").
Definition huge_file (len : Z) (json : bytes) : bytes :=
  str_bytes "glTF" ++ word 2 ++ word (zlen json + 28) ++ word (zlen json) ++ str_bytes "JSON" ++ json ++ word len ++ kind_bin.
Theorem C78_requests_refuted :
  exists r, reads_to_eof r /\ zlen (stream r) < 100 /\
    fst (Decode_made sample_floats sample_exts sample_url None zero_Document (NewReader r)) = [2 ^ 40] /\
    exists e, snd (snd (Decode_made sample_floats sample_exts sample_url None zero_Document (NewReader r))) = Err e.
Proof.
  exists (mkReader [huge_file 0 huge_json] ErrEOF false). split; [split; [repeat constructor; discriminate|reflexivity]|]. split; [vm_compute; reflexivity|].
  split; [vm_compute; reflexivity|eexists; vm_compute; reflexivity].
Qed.
Print Assumptions C78_requests_refuted.

(** A declared length is believed: four gigabytes for a file of 80 bytes.  A
    file that is complete, and an embedded buffer. *)
Example C78_example :
  let run f := Decode_made sample_floats sample_exts sample_url None zero_Document (NewReader (mkReader [f] ErrEOF false)) in
  fst (run (huge_file 4294967295 (str_bytes (q "{'buffers':[{'byteLength':4294967295}]}  ")))) = [4294967295] /\
  fst (run (bin_file 8 kind_bin (str_bytes "abcdefgh"))) = [6] /\ (exists doc, snd (snd (run (bin_file 8 kind_bin (str_bytes "abcdefgh")))) = Ok doc) /\
  fst (run (str_bytes (q "{'buffers':[{'byteLength':3,'uri':'data:application/octet-stream;base64,YWJj'}]}"))) = [3].
Proof. cbv zeta. split; [vm_compute; reflexivity|]. split; [vm_compute; reflexivity|]. split; [eexists; vm_compute; reflexivity|vm_compute; reflexivity]. Qed.
