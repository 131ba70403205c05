(** GLB files from a reader that hands them out in arbitrary pieces: C30, C31. *)
From Verif Require Import Base BaseFacts Types Doc F64 Base64 Url UrlProofs SpecText SpecPath SpecData JsonText JsonTextProofs Codec SpecJson CodecProofs CodecInv
  DocCodec SpecJsonDoc DocCodecBase DocInvBase DocCodecInv Marshal SpecMarshal MarshalProofs PropsUri PropsJson Stream StreamProofs File SpecFile DecodeProofs EncodeProofs PlainProofs PropsFile
  PropsRoundTrip PiecesProofs.

(** Some of the padding may stay unread. *)
Lemma Decode_pieces F X U fsys old json bin v n out : 
  glb_file json bin out -> text_of v json -> container v -> wf_json n v -> Z.of_nat n <= 10000 ->
  exists bc, match bin with Some data => glb_chunk kind_bin (z2b 0) data bc | None => bc = [] end /\
  forall r, reads_to_eof r -> stream r = out -> exists k, (k < 4)%nat /\
  Decode F X U fsys old (NewReader r) =
  match dec (c_Document F X) old v with
  | Ok doc => finish U fsys true doc (repeat (z2b 32) k ++ bc)
  | Err e => ([], Err e)
  | Panic => ([], Panic)
  end.
Proof.
  intros G T C W D. destruct (glb_header _ _ _ G) as (h & k & bc & H1 & H2 & H3 & H4 & H5 & H6 & H7 & H8 & H9 & _). pose proof (zlen_nonneg json) as NJ.
  exists bc. split; [exact H9|]. intros r RE ES. rewrite <- ES in H1, H6, H7.
  assert (LO : leftover (json_chunk h (stream r)) = repeat (z2b 32) k).
  { rewrite H6. unfold leftover. rewrite (scan_container v json n (repeat (z2b 32) k) T C W ltac:(unfold max_depth; lia)). reflexivity. }
  destruct (Decode_left F X U fsys old r h RE H1 H2 ltac:(lia)) as (t & t' & E1 & E2).
  rewrite LO in E1. rewrite E2, H6, H7, (whole_container v json n (repeat (z2b 32) k) T C W) by (unfold max_depth; lia). cbn [bind].
  exists (List.length t'). assert (EL := f_equal (@List.length _) E1). rewrite repeat_length, app_length in EL. split; [lia|].
  replace (repeat (z2b 32) (List.length t')) with t'; [reflexivity|].
  assert (FA : Forall (fun x => x = z2b 32) t'). { assert (FA : Forall (fun x => x = z2b 32) (t ++ t')) by (rewrite <- E1; apply Forall_forall; intros x Hx; exact (repeat_spec _ _ _ Hx)). apply Forall_app in FA. apply FA. }
  clear - FA. induction FA as [|x l -> _ IH]; [reflexivity|]. cbn. f_equal. exact IH.
Qed.

(** The result with unread padding is the result without, or an error before
    any file is opened. *)
Lemma finish_shifted U fsys doc k bin bc : (k < 4)%nat -> match bin with Some data => glb_chunk kind_bin (z2b 0) data bc | None => bc = [] end ->
  finish U fsys true doc (repeat (z2b 32) k ++ bc) = finish U fsys true doc bc \/
  exists e, finish U fsys true doc (repeat (z2b 32) k ++ bc) = ([], Err e).
Proof.
  intros Hk Hb. destruct k as [|k]; [left; reflexivity|]. unfold finish.
  destruct (mapM (clean_buffer U) (doc_Buffers doc)) as [bufs| |]; [|left; reflexivity|left; reflexivity].
  destruct (mapM (clean_image U) (doc_Images doc)) as [ims| |]; [|left; reflexivity|left; reflexivity].
  unfold load_bytes. destruct bufs as [|[buf|] bs]; [left; reflexivity| |left; reflexivity].
  destruct (str_empty (buf_URI buf)); cbn [andb]; [|left; reflexivity].
  destruct (bin_shifted buf (S k) bin bc ltac:(lia) Hb) as [e ->]. right. exists e. reflexivity.
Qed.

(** ** C31: two readers of the same GLB file give the same result, or one of
    them an error without having opened a file.  A wrong document is never
    returned. *)
Theorem C31_never_wrong_partial F X U fsys old json bin v n out r1 r2 :
  glb_file json bin out -> text_of v json -> container v -> wf_json n v -> Z.of_nat n <= 10000 ->
  reads_to_eof r1 -> reads_to_eof r2 -> stream r1 = out -> stream r2 = out ->
  Decode F X U fsys old (NewReader r1) = Decode F X U fsys old (NewReader r2) \/
  (exists e, Decode F X U fsys old (NewReader r1) = ([], Err e)) \/
  (exists e, Decode F X U fsys old (NewReader r2) = ([], Err e)).
Proof.
  intros G T C W D R1 R2 E1 E2. destruct (Decode_pieces F X U fsys old json bin v n out G T C W D) as (bc & Hb & P).
  destruct (P r1 R1 E1) as (k1 & K1 & ->). destruct (P r2 R2 E2) as (k2 & K2 & ->).
  destruct (dec (c_Document F X) old v) as [doc| |]; [|left; reflexivity|left; reflexivity].
  destruct (finish_shifted U fsys doc k1 bin bc K1 Hb) as [->|H]; [|right; left; exact H].
  destruct (finish_shifted U fsys doc k2 bin bc K2 Hb) as [->|H]; [|right; right; exact H]. left. reflexivity.
Qed.
Print Assumptions C31_never_wrong_partial.

(** With four bytes of padding or more, which no encoder needs but the format
    does not forbid, a wrong document is possible: the padding that was not
    read is taken for the length of the chunk and the length for its type. *)
Definition four_spaces : bytes :=
  let json := str_bytes "{""buffers"":[{""byteLength"":1}]}    " in
  str_bytes "glTF" ++ word 2 ++ word (12 + 8 + zlen json + 8 + 4) ++ word (zlen json) ++ str_bytes "JSON" ++ json
  ++ word 5130562 ++ str_bytes "BIN" ++ [z2b 0] ++ str_bytes "abcd".
Theorem C31_wrong_document_refuted :
  exists F X U r1 r2 d1 d2, reads_to_eof r1 /\ reads_to_eof r2 /\ stream r1 = four_spaces /\ stream r2 = four_spaces /\
    snd (Decode F X U None zero_Document (NewReader r1)) = Ok d1 /\
    snd (Decode F X U None zero_Document (NewReader r2)) = Ok d2 /\
    map (option_map buf_Data) (doc_Buffers d1) = [Some (str_bytes "a")] /\
    map (option_map buf_Data) (doc_Buffers d2) = [Some (str_bytes "B")].
Proof.
  exists sample_floats, sample_exts, sample_url, (mkReader [four_spaces] ErrEOF false), (mkReader [firstn 50 four_spaces; skipn 50 four_spaces] ErrEOF false). do 2 eexists.
  split. { split; [|reflexivity]. constructor; [vm_compute; discriminate|constructor]. }
  split. { split; [|reflexivity]. repeat (constructor; [vm_compute; discriminate|]). constructor. }
  split. { unfold stream. cbn [rd_pieces List.concat]. apply app_nil_r. }
  split. { unfold stream. cbn [rd_pieces List.concat]. rewrite app_nil_r. apply firstn_skipn. }
  split; [vm_compute; reflexivity|]. split; [vm_compute; reflexivity|]. split; vm_compute; reflexivity.
Qed.
Print Assumptions C31_wrong_document_refuted.

(** ** C30: what Encode wrote, from a reader with arbitrary pieces, is the
    document or an error. *)
Lemma glb_file_mod4 json bin out : glb_file json bin out -> zlen out mod 4 = 0 /\ out <> [].
Proof.
  intros (jc & bc & (k & _ & M & ->) & B & E & _). split; [|rewrite E; discriminate].
  assert (Mb : zlen bc mod 4 = 0). { destruct bin as [data|]; [|subst bc; reflexivity]. destruct B as (kb & _ & Mb & ->). rewrite !zlen_app, repeat_zlen. change (zlen (word _)) with 4. change (zlen kind_bin) with 4. lia. }
  rewrite E, !zlen_app, repeat_zlen. change (zlen (str_bytes "glTF")) with 4. change (zlen kind_json) with 4. change (zlen (word 2)) with 4.
  change (zlen (word (zlen out))) with 4. change (zlen (word (zlen json + Z.of_nat k))) with 4. lia.
Qed.
Theorem C30_any_pieces_partial F X U n prefix indent d w fs :
  float_contract F -> storable_doc X n d -> ws prefix -> ws indent -> no_failures w fs ->
  (forall text, marshalJSONDoc F X true prefix indent d = Ok text -> glb_size text d < 2 ^ 32) ->
  exists w' fs', Encode F X U true prefix indent d w (Some fs) = (Ok tt, w', Some fs') /\
    forall rf r, (forall name data, In (name, data) (buffer_files (doc_Buffers d)) -> rf name = (data, None)) ->
      reads_to_eof r -> stream r = wr_out w' ->
      snd (Decode F X U (Some rf) zero_Document (NewReader r)) = Ok (restored X (fun u => u) true d) \/
      exists e, Decode F X U (Some rf) zero_Document (NewReader r) = ([], Err e).
Proof.
  intros HF SD Hp Hi NF SZ. destruct (round_trip F X U n true prefix indent d w fs HF SD Hp Hi NF (fun t H _ => SZ t H)) as (text & w' & fs' & M & E & _ & _ & _ & G & R).
  exists w', fs'. split; [exact E|]. intros rf r HR HE ES. specialize (G eq_refl). pose proof (glb_file_mod4 _ _ _ G) as [M4 N0].
  destruct SD as (W & D & HB & HI). pose proof (plain_stored U _ HB) as SB.
  destruct (marshal_tree_spec F X n true d HF W (stored_some U _ SB)) as (m & Em & Wm & _).
  assert (Et : text = printed prefix indent (JObj m)). { unfold marshalJSONDoc in M. rewrite Em in M. injection M as <-. reflexivity. }
  pose proof (printed_text prefix indent (JObj m) Hp Hi) as T. rewrite <- Et in T.
  set (r0 := mkReader [wr_out w'] ErrEOF false).
  assert (R0 : reads_to_eof r0). { split; [|reflexivity]. constructor; [exact N0|constructor]. }
  assert (S0 : stream r0 = wr_out w') by apply app_nil_r.
  pose proof (R rf r0 HR R0 S0 ltac:(right; left; constructor; [exact M4|constructor])) as D0.
  destruct (C31_never_wrong_partial F X U (Some rf) zero_Document text _ (JObj m) (n + 7) (wr_out w') r r0 G T I Wm ltac:(lia) HE R0 ES S0) as [Q|[Q|(e & Q)]].
  - left. rewrite Q, D0. reflexivity.
  - right. exact Q.
  - rewrite Q in D0. discriminate.
Qed.
Print Assumptions C30_any_pieces_partial.
(** Both outcomes occur: [C30_example] gives the document, and the reader of
    [C30_glb_roundtrip_refuted] the error. *)
Example C30_any_pieces_example :
  exists w' fs', Encode sample_floats sample_exts sample_url true [] [] padded_doc (mkWriter [] []) (Some no_files) = (Ok tt, w', Some fs') /\
    (exists e, Decode sample_floats sample_exts sample_url (Some rf_h) zero_Document (NewReader (mkReader [firstn 102 (wr_out w'); skipn 102 (wr_out w')] ErrEOF false)) = ([], Err e)) /\
    snd (Decode sample_floats sample_exts sample_url (Some rf_h) zero_Document (NewReader (mkReader [firstn 100 (wr_out w'); skipn 100 (wr_out w')] ErrEOF false))) =
      Ok (restored sample_exts (fun u => u) true padded_doc).
Proof. do 2 eexists. split; [vm_compute; reflexivity|]. split; [eexists; vm_compute; reflexivity|vm_compute; reflexivity]. Qed.
