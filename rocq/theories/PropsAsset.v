(** Assets made by other programs: C91. *)
From Verif Require Import Base BaseFacts Types Doc F64 Base64 Url GoUrl SpecText SpecString SpecPath SpecData SpecUrl JsonText JsonTextProofs JsonStringProofs ScanSound Codec DocCodec SpecJson SpecJsonDoc
  CodecProofs CodecInv DocCodecBase DocCodecProofs DocInvBase Marshal SpecMarshal MarshalProofs Stream StreamProofs File SpecFile DecodeProofs EncodeProofs PropsJson PropsFile
  SpecSchema SchemaProofs SchemaAccept PropsSchema SpecMeaning MeaningProofs MeaningUnique PropsMeaning ConformProofs PropsConform SpecAsset AssetProofs.

(** [r] delivers a file with the JSON [v] and the BIN chunk [bin].  With a BIN
    chunk the reads are of multiples of four bytes, as those of files are: see
    C31 for the others. *)
Definition delivers (r : reader) (v : json) (bin : option bytes) : Prop :=
  (exists t, text_of v t /\ container_of t bin (stream r)) /\ (exists n, wf_json n v /\ Z.of_nat n <= 10000) /\
  reads_to_eof r /\ (bin <> None -> Forall (fun p => zlen p mod 4 = 0) (rd_pieces r)).

Definition bare (o : option Buffer) : option Buffer := option_map (set_buf_Data []) o.
Lemma resource_bare rf bin i b b' names uri data : set_buf_Data [] b = set_buf_Data [] b' -> resource rf bin i b names uri data -> resource rf bin i b' names uri data.
Proof.
  intros E R. assert (U : buf_URI b = buf_URI b') by exact (f_equal buf_URI E).
  destruct R; rewrite ?U in *; econstructor; eassumption.
Qed.
Lemma resources_bare rf bin l : forall i l0 names l', map bare l = map bare l0 -> resources rf bin i l names l' -> resources rf bin i l0 names l'.
Proof.
  induction l as [|o l IH]; intros i l0 names l' E R; inversion R as [|? b ? nm uri data ns r RS L RL]; subst; destruct l0 as [|o0 l0]; try discriminate E; [constructor|].
  cbn [map] in E. injection E as E1 E2. destruct o0 as [b0|]; [|discriminate E1]. assert (E3 : set_buf_Data [] b = set_buf_Data [] b0) by (injection E1; intros; destruct b, b0; cbn in *; congruence).
  replace (buf_Extensions b) with (buf_Extensions b0) by exact (eq_sym (f_equal buf_Extensions E3)). replace (buf_Extras b) with (buf_Extras b0) by exact (eq_sym (f_equal buf_Extras E3)).
  replace (buf_Name b) with (buf_Name b0) by exact (eq_sym (f_equal buf_Name E3)). pose proof (f_equal buf_ByteLength E3 : buf_ByteLength b = buf_ByteLength b0) as E4. rewrite E4 in *.
  constructor; [exact (resource_bare rf bin i b b0 nm uri data E3 RS)| |exact (IH _ _ _ _ E2 RL)]. exact L.
Qed.
Lemma with_contents_bare d d0 bufs ims : without_data d0 = without_data d -> set_doc_Images ims (set_doc_Buffers bufs d0) = with_contents d bufs ims.
Proof. destruct d, d0. unfold without_data, with_contents. cbn. intros [= ]. subst. reflexivity. Qed.

(** A conforming file whose buffers have their resources opens: the document
    is what the JSON says, every buffer has exactly its bytes, the files opened
    are those the URIs stand for, in order, and the URIs are decoded. *)
Theorem C91_open_partial F X rf r v bin d names bufs :
  registry_total X -> delivers r v bin -> conforms (in_float_range F) unrelated s_gltf v ->
  m_gltf F X d v -> resources rf bin 0 (doc_Buffers d) names bufs ->
  exists ims, Decode F X go_url (Some rf) zero_Document (NewReader r) = (names, Ok (with_contents d bufs ims)) /\
    Forall2 addressed (doc_Images d) ims.
Proof.
  intros RT ((t & T & K) & (n & W & D) & R & AL) C M RS.
  destruct (dc_Document F X RT n zero_Document v W C) as [d0 E].
  assert (C1 : conforms (fun _ => True) unrelated s_gltf v) by (apply (conforms_mono (in_float_range F) (fun _ => True) unrelated unrelated); tauto).
  pose proof (rd_Document F X n v d0 W C1 E) as M0. pose proof (f_gltf F X d0 d v M0 M) as EQ.
  pose proof (gv_gltf F X n v d0 W C1 M0) as RD. unfold ready in RD. destruct RD as (_ & _ & RB & _ & _ & RI & _).
  assert (EB : map bare (doc_Buffers d) = map bare (doc_Buffers d0)) by exact (eq_sym (f_equal doc_Buffers EQ)).
  assert (EI : doc_Images d0 = doc_Images d) by exact (f_equal doc_Images EQ).
  apply (resources_bare rf bin _ _ _ _ _ EB) in RS.
  assert (RB' : Forall (fun o => match o with Some b => 1 <= buf_ByteLength b | None => False end) (doc_Buffers d0)).
  { eapply Forall_impl; [|exact RB]. intros [b|] Q; [|exact Q]. cbn in Q. unfold r_buffer in Q. lia. }
  assert (RI' : Forall (fun o => o <> None) (doc_Images d0)) by (eapply Forall_impl; [|exact RI]; intros [b|] Q; [discriminate|destruct Q]).
  destruct (images_clean _ RI') as (ims & MI & A). exists ims. rewrite EI in A. split; [|exact A].
  assert (exists m, v = JObj m) as [m ->] by (inversion C; eexists; reflexivity).
  remember (stream r) as s eqn:ES in K. destruct K as [before after WS|k bin more out Hk Hm Lo Eo].
  - assert (HN : header_of (before ++ t ++ after) = None) by (inversion T; subst; apply text_front; exact WS).
    destruct (resources_all rf None [] _ _ _ RS RB' ltac:(discriminate)) as (bs & MB & _ & Q). destruct (Q eq_refl) as [DB _].
    rewrite (Decode_text F X go_url (Some rf) zero_Document r R) by (rewrite <- ES; exact HN). rewrite <- ES.
    unfold whole. unfold start. rewrite (scan_ws before [] LVal (t ++ after) WS I). fold start. rewrite (scan_container _ _ n after T I W D). cbn [bind]. rewrite E. cbn [bind].
    unfold finish. rewrite MB, MI. replace (load_bytes go_url (Some rf) false bs []) with (decodeBuffers go_url (Some rf) bs) by (destruct bs as [|[]]; reflexivity).
    rewrite DB. cbn [bind]. rewrite (with_contents_bare d d0 bufs ims EQ). reflexivity.
  - destruct (resources_all rf bin more _ _ _ RS RB') as (bs & MB & LB & Q).
    { intros chunk ->. rewrite Eo in Lo. rewrite !zlen_app in Lo. pose proof (zlen_nonneg t). pose proof (zlen_nonneg more). pose proof (zlen_nonneg (repeat (z2b 32) k)).
      pose proof (zlen_nonneg kind_json). pose proof (zlen_nonneg kind_bin). pose proof (zlen_nonneg (str_bytes "glTF")). rewrite !word_zlen in Lo. lia. }
    destruct (glb_parts t k bin more out Hk Hm Lo Eo) as (h & H1 & H2 & H3 & H4 & H5 & H6).
    assert (WH : whole start true (json_chunk h (stream r)) = Ok (JObj m)) by (rewrite <- ES, H4; exact (whole_container _ _ n _ T I W D)).
    rewrite (Decode_glb F X go_url (Some rf) zero_Document r h R); [|rewrite <- ES; exact H1|exact H2|rewrite H3; pose proof (zlen_nonneg t); lia|].
    + rewrite WH. cbn [bind]. rewrite E. unfold finish. rewrite MB, MI. rewrite <- ES, H5. fold (bin_bytes bin more). rewrite LB. cbn [bind].
      rewrite (with_contents_bare d d0 bufs ims EQ). reflexivity.
    + destruct bin as [chunk|].
      * left. unfold chunk_done. rewrite <- ES, H4. right. split; [apply AL; discriminate|]. split; [rewrite H3; exact Hm|]. split; [|exact H6].
        unfold leftover. rewrite (scan_container _ _ n _ T I W D). rewrite repeat_zlen. lia.
      * right. intros doc. rewrite WH. cbn [bind]. rewrite E. intros [= <-]. rewrite MB. exact (proj2 (Q eq_refl)).
Qed.
Print Assumptions C91_open_partial.

(** ** Buffers that the format allows and the decoder does not know *)
Lemma int_in F lo s n : parse_int s = Some n -> (n = 0 -> s = "0"%string) -> lo <= n -> in_i64 n -> conforms (in_float_range F) unrelated (SInt lo) (JNum s).
Proof. intros P Z L I. econstructor; [exact (decimal_of_parse s n P Z)|exact L|exact I]. Qed.
Ltac confF := repeat first
  [ apply cf_str | (eapply int_in; [vm_compute; reflexivity|first [discriminate|reflexivity]|lia|unfold in_i64; lia])
  | (eapply cf_enum; [reflexivity|cbn; inl])
  | (apply cf_list; [cbn; lia|]) | apply Forall_nil | apply Forall_cons | obj2 ].
Definition buffer_tree (members : list (string * json)) : json :=
  JObj [("asset", JObj [("version", JStr "2.0")]); ("buffers", JArr [JObj (("byteLength", JNum "3") :: members)])]%string.
Definition gltf_buffer_tree : json := buffer_tree [("uri", JStr "data:application/gltf-buffer;base64,YWJj")]%string.
Lemma text_delivers v : scan start (print_compact v) = Done v [] -> print_compact v <> [] -> delivers (text_reader v) v None.
Proof.
  intros SC NE. destruct (scan_sound _ _ _ SC) as (_ & _ & _ & _ & _ & W). split; [|split; [|split; [split; [repeat constructor; exact NE|reflexivity]|intros N; congruence]]].
  - exists (print_compact v). split; [apply print_compact_text|]. unfold stream. cbn [text_reader rd_pieces List.concat]. exact (co_text _ [] [] (Forall_nil _)).
  - exists (Z.to_nat max_depth). split; [exact W|unfold max_depth; lia].
Qed.
(** Section 3.6.1.1 names two media types for embedded buffers.  One of them is
    taken for the name of a file; when there is no file system to look in, the
    buffer has no data.  And a buffer need not have a URI. *)
Theorem C91_open_refuted :
  (delivers (text_reader gltf_buffer_tree) gltf_buffer_tree None /\
   conforms (in_float_range sample_floats) unrelated s_gltf gltf_buffer_tree /\
   (exists d b, m_gltf sample_floats sample_exts d gltf_buffer_tree /\ doc_Buffers d = [Some b] /\
      buf_URI b = data_uri "application/gltf-buffer" (str_bytes "abc") /\ buf_ByteLength b = 3) /\
   Decode sample_floats sample_exts go_url (Some (fun _ => ([], Some (ErrMsg "file does not exist")))) zero_Document (NewReader (text_reader gltf_buffer_tree)) =
     ([str_bytes "data:application/gltf-buffer;base64,YWJj"], Err (ErrMsg "file does not exist")) /\
   exists doc b, Decode sample_floats sample_exts go_url None zero_Document (NewReader (text_reader gltf_buffer_tree)) = ([], Ok doc) /\
     doc_Buffers doc = [Some b] /\ buf_ByteLength b = 3 /\ buf_Data b = []) /\
  (delivers (text_reader (buffer_tree [])) (buffer_tree []) None /\
   conforms (in_float_range sample_floats) unrelated s_gltf (buffer_tree []) /\
   forall rf, Decode sample_floats sample_exts go_url (Some rf) zero_Document (NewReader (text_reader (buffer_tree []))) = ([], Err (ErrMsg "gltf: buffer without URI"))).
Proof.
  assert (C : forall ms, conforms (in_float_range sample_floats) unrelated s_gltf (buffer_tree ms) -> conforms (fun _ => True) unrelated s_gltf (buffer_tree ms))
    by (intros ms; apply conforms_mono; tauto).
  assert (C1 : conforms (in_float_range sample_floats) unrelated s_gltf gltf_buffer_tree) by (unfold gltf_buffer_tree, buffer_tree; confF).
  assert (S1 : scan start (print_compact gltf_buffer_tree) = Done gltf_buffer_tree []) by (vm_compute; reflexivity).
  split; split; [apply text_delivers; [exact S1|vm_compute; discriminate]| |apply text_delivers; [vm_compute; reflexivity|vm_compute; discriminate]|].
  - split; [exact C1|]. split; [|split; [vm_compute; reflexivity|do 2 eexists; split; [vm_compute; reflexivity|split; [reflexivity|split; reflexivity]]]].
    destruct (scan_sound _ _ _ S1) as (_ & _ & _ & _ & _ & W). do 2 eexists. split; [|split; [|split]].
    + apply (rd_Document sample_floats sample_exts (Z.to_nat max_depth) _ _ W); [exact (C _ C1)|vm_compute; reflexivity].
    + reflexivity.
    + vm_compute. reflexivity.
    + reflexivity.
  - split; [unfold buffer_tree; confF|]. intros rf. vm_compute. reflexivity.
Qed.
Print Assumptions C91_open_refuted.

(** A GLB with three buffers, one in its BIN chunk, one in the JSON and one in
    a file whose name has a space, and with an image in a file and one on a
    server. *)
Definition full_tree : json :=
  JObj [("asset", JObj [("version", JStr "2.0")]);
        ("buffers", JArr [JObj [("byteLength", JNum "3")];
                          JObj [("byteLength", JNum "2"); ("uri", JStr "data:application/octet-stream;base64,aGk=")];
                          JObj [("byteLength", JNum "4"); ("uri", JStr "./my%20files/%c3%A9.bin")]]);
        ("images", JArr [JObj [("uri", JStr "a%20b.png")]; JObj [("uri", JStr "https://h.org/x%20y.png")]])]%string.
Definition full_reader : reader :=
  let t := print_compact full_tree ++ repeat (z2b 32) 3 in
  mkReader [str_bytes "glTF" ++ word 2 ++ word (20 + zlen t + 8 + 4 + 12) ++ word (zlen t) ++ str_bytes "JSON" ++ t ++
            word 4 ++ str_bytes "BIN" ++ [z2b 0] ++ str_bytes "abc" ++ [z2b 0] ++ word 4 ++ str_bytes "XTRAmore"] ErrEOF false.
Definition full_name : bytes := str_bytes "my files/" ++ [z2b 195; z2b 169] ++ str_bytes ".bin".
Definition full_files (n : bytes) : bytes * option error :=
  if list_eq_dec ascii_dec n full_name then (str_bytes "wxyz and more", None) else ([], Some (ErrMsg "file does not exist")).
Lemma ref_chars l : forallb (fun c => (32 <=? b2z c) && negb (b2z c =? 127) && negb (existsb (Ascii.eqb c) (z2b 92 :: str_bytes "%?#/"))) l = true -> Forall ref_char l.
Proof.
  intros H. rewrite forallb_forall in H. apply Forall_forall. intros c I. specialize (H c I). apply andb_prop in H. destruct H as [H H3]. apply andb_prop in H. destruct H as [H1 H2].
  split; [lia|]. split; [lia|]. intros J. apply negb_true_iff in H3. apply not_true_iff_false in H3. apply H3. apply existsb_exists. exists c. split; [exact J|apply Ascii.eqb_refl].
Qed.
Lemma spells_plain l u n : Forall ref_char l -> spells u n -> spells (l ++ u) (l ++ n).
Proof. intros H S. induction H; [exact S|]. cbn [app]. constructor; assumption. Qed.
Lemma spells_self l : Forall ref_char l -> spells l l.
Proof. intros H. induction H; constructor; assumption. Qed.
Ltac ref := apply ref_chars; vm_compute; reflexivity.
Ltac fel := split; [discriminate|split; [vm_compute; discriminate|split; [vm_compute; discriminate|cbn; intuition discriminate]]].
Lemma full_relative : relative (str_bytes "./my%20files/%c3%A9.bin") full_name /\ relative (str_bytes "a%20b.png") (str_bytes "a b.png").
Proof.
  split.
  - exists (str_bytes "my%20files"), (str_bytes "my files"), [(str_bytes "%c3%A9.bin", [z2b 195; z2b 169] ++ str_bytes ".bin")].
    split; [|split; [fel|split; [cbn; intuition discriminate|split; [|split; [right; reflexivity|reflexivity]]]]].
    + apply (spells_plain (str_bytes "my")); [ref|]. apply (sp_pct _ _ 2 0); [left; reflexivity|left; reflexivity|].
      apply spells_self; ref.
    + constructor; [|constructor]. cbn [fst snd]. split; [|fel].
      apply (sp_pct _ _ 12 3); [left; reflexivity|left; reflexivity|]. apply (sp_pct _ _ 10 9); [right; reflexivity|left; reflexivity|].
      apply spells_self; ref.
  - exists (str_bytes "a%20b.png"), (str_bytes "a b.png"), []. split; [|split; [fel|split; [cbn; intuition discriminate|split; [constructor|split; [left; reflexivity|reflexivity]]]]].
    apply (spells_plain (str_bytes "a")); [ref|]. apply (sp_pct _ _ 2 0); [left; reflexivity|left; reflexivity|].
    apply spells_self; ref.
Qed.
Example C91_example :
  delivers full_reader full_tree (Some (str_bytes "abc" ++ [z2b 0])) /\ conforms (in_float_range sample_floats) unrelated s_gltf full_tree /\
  (exists d bufs, m_gltf sample_floats sample_exts d full_tree /\ resources full_files (Some (str_bytes "abc" ++ [z2b 0])) 0 (doc_Buffers d) [full_name] bufs /\
     map (option_map buf_Data) bufs = [Some (str_bytes "abc"); Some (str_bytes "hi"); Some (str_bytes "wxyz")]) /\
  exists doc, Decode sample_floats sample_exts go_url (Some full_files) zero_Document (NewReader full_reader) = ([full_name], Ok doc) /\
    map (option_map buf_Data) (doc_Buffers doc) = [Some (str_bytes "abc"); Some (str_bytes "hi"); Some (str_bytes "wxyz")] /\
    map (option_map img_URI) (doc_Images doc) = [Some "a b.png"; Some "https://h.org/x%20y.png"]%string.
Proof.
  assert (S1 : scan start (print_compact full_tree) = Done full_tree []) by (vm_compute; reflexivity).
  destruct (scan_sound _ _ _ S1) as (_ & _ & _ & _ & _ & W).
  assert (C1 : conforms (in_float_range sample_floats) unrelated s_gltf full_tree) by (unfold full_tree; confF).
  split; [|split; [exact C1|split]].
  - split; [|split; [exists (Z.to_nat max_depth); split; [exact W|unfold max_depth; lia]|split; [split; [repeat constructor; vm_compute; discriminate|reflexivity]|]]].
    + exists (print_compact full_tree). split; [apply print_compact_text|]. apply (co_glb _ 3 _ (word 4 ++ str_bytes "XTRAmore")); [lia|vm_compute; reflexivity|vm_compute; reflexivity|vm_compute; reflexivity].
    + intros _. repeat constructor. 
  - do 2 eexists. split; [apply (rd_Document sample_floats sample_exts (Z.to_nat max_depth) _ _ W); [apply (conforms_mono (in_float_range sample_floats) (fun _ => True) unrelated unrelated); [tauto|tauto|exact C1]|vm_compute; reflexivity]|].
    cbn [doc_Buffers]. split; [change [full_name] with ([] ++ [] ++ [full_name] ++ [])%list|].
    + eapply rl_cons; [eapply rs_chunk; [reflexivity|apply (f_equal Some (eq_refl (str_bytes "abc" ++ [z2b 0])))]|reflexivity|].
      eapply rl_cons; [eapply (rs_inline _ _ _ _ (str_bytes "hi")); vm_compute; reflexivity|reflexivity|].
      eapply rl_cons; [eapply (rs_file _ _ _ _ full_name (str_bytes "wxyz") (str_bytes " and more")); [exact (proj1 full_relative)|vm_compute; reflexivity|vm_compute; reflexivity]|reflexivity|constructor].
    + reflexivity.
  - eexists. split; [vm_compute; reflexivity|]. split; vm_compute; reflexivity.
Qed.
