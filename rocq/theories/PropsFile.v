(** Properties of files and streams: C26, C27, C29, C33 - C38. *)
From Verif Require Import Base BaseFacts Types Doc F64 Base64 Url UrlProofs SpecText SpecPath SpecData JsonText JsonTextProofs Codec SpecJson CodecProofs CodecInv
  DocCodec SpecJsonDoc DocCodecInv Marshal SpecMarshal MarshalProofs PropsUri PropsJson Stream StreamProofs File SpecFile DecodeProofs EncodeProofs.

(** A URL library for the examples. *)
Definition sample_url : url_lib := mkUrlLib (fun _ => true) (fun l => l).
Definition no_files : createfs := mkCreateFS [] [] [].
Definition one_buffer (uri : string) (len : Z) (data : bytes) : Document :=
  set_doc_Buffers [Some (mkBuffer [] VNull "" uri len data)] zero_Document.

(** ** C26 *)
Definition good_name (n : bytes) : Prop := local_path n \/ carries_scheme n.
Lemma decodeBuffer_names U fsys b : Forall good_name (fst (decodeBuffer U fsys b)).
Proof.
  unfold decodeBuffer. destruct (validateBuffer b); [|constructor..]. destruct (str_empty _); [constructor|]. destruct (buf_IsEmbeddedResource b); [constructor|].
  destruct (validateBufferURI U (str_bytes (buf_URI b))) as [[]| |] eqn:V; [|constructor..]. destruct fsys as [rf|]; [|constructor].
  destruct (rf (str_bytes (buf_URI b))) as [d e]. constructor; [exact (validate_sound U _ V)|constructor].
Qed.
Lemma decodeBuffers_names U fsys l : Forall good_name (fst (decodeBuffers U fsys l)).
Proof.
  induction l as [|[b|] l IH]; cbn [decodeBuffers]; [constructor| |constructor].
  pose proof (decodeBuffer_names U fsys b) as N. destruct (decodeBuffer U fsys b) as [t [b'| |]]; [|exact N..].
  destruct (decodeBuffers U fsys l) as [t' r]. cbn [fst] in *. apply Forall_app. split; assumption.
Qed.
Theorem C26_decode_names F X U fsys old b :
  Forall (fun n => local_path n \/ carries_scheme n) (fst (Decode F X U fsys old b)).
Proof.
  unfold Decode. destruct (decodeDocument F X old b) as [[[isB doc]| |] b1]; [|constructor..].
  destruct (mapM (clean_buffer U) (doc_Buffers doc)) as [bufs| |], (mapM (clean_image U) (doc_Images doc)) as [ims| |]; try constructor.
  unfold load_buffers. destruct bufs as [|[b0|] l]; [constructor| |constructor].
  destruct (isB && str_empty (buf_URI b0)).
  - destruct (fst (decodeBinaryBuffer b0 b1)); [|constructor..]. pose proof (decodeBuffers_names U fsys l) as N. destruct (decodeBuffers U fsys l). exact N.
  - pose proof (decodeBuffers_names U fsys (Some b0 :: l)) as N. destruct (decodeBuffers U fsys (Some b0 :: l)). exact N.
Qed.
Print Assumptions C26_decode_names.

(** A file that is opened, and escapes that are refused. *)
Definition files_abc (n : bytes) : bytes * option error := (str_bytes "abc", None).
Definition text_reader (s : string) : bufio := NewReader (mkReader [str_bytes s] ErrEOF false).
Definition q (s : string) : string := bytes_str (map (fun c => if Ascii.eqb c "'"%char then z2b 34 else c) (str_bytes s)).
Example C26_example :
  fst (Decode sample_floats sample_exts sample_url (Some files_abc) zero_Document
    (text_reader (q "{'buffers':[{'uri':'a/.\\b%2ebin','byteLength':3}]}"))) = [str_bytes "a/b.bin"] /\
  Decode sample_floats sample_exts sample_url (Some files_abc) zero_Document
    (text_reader (q "{'buffers':[{'uri':'%2e%2e/b','byteLength':3}]}")) = ([], Err (ErrMsg "gltf: Invalid buffer.uri value")).
Proof. split; vm_compute; reflexivity. Qed.

(** ** C27 *)
Theorem C27_encode_names_refuted :
  exists F X U d out fs,
    Encode F X U false [] [] d (mkWriter [] []) (Some no_files) = (Ok tt, mkWriter out [], Some fs) /\
    exists n, In n (cf_created fs) /\ ~ local_path n /\ ~ carries_scheme n /\ ~ confined n.
Proof.
  exists sample_floats, sample_exts, sample_url, (one_buffer "%2e%2e/x" 1 (str_bytes "a")). do 2 eexists. split; [vm_compute; reflexivity|].
  exists (str_bytes "../x"). split; [left; reflexivity|].
  assert (C : ~ confined (str_bytes "../x")). { intros C. apply confined_walkp in C. apply C. vm_compute. reflexivity. }
  split; [intros (_ & _ & L); exact (C L)|]. split; [|exact C].
  intros (c & s & rest & E & Lc & _). cbn in E. injection E as E _. subst c. destruct Lc as [L|L]; vm_compute in L; destruct L as [L1 L2]; try (apply L1; reflexivity); apply L2; reflexivity.
Qed.
Print Assumptions C27_encode_names_refuted.

(** Without percent signs and backslashes; whatever fails on the way. *)
Lemma encodeBuffer_names U b fs r fs' :
  ~ In "%"%char (str_bytes (buf_URI b)) -> ~ In (z2b 92) (str_bytes (buf_URI b)) ->
  encodeBuffer U b (Some fs) = (r, fs') ->
  exists f', fs' = Some f' /\ Forall (fun n => In n (cf_created fs) \/ confined n \/ carries_scheme n) (cf_created f').
Proof.
  intros N1 N2. unfold encodeBuffer.
  assert (K : Forall (fun n => In n (cf_created fs) \/ confined n \/ carries_scheme n) (cf_created fs)) by (apply Forall_forall; intros n I; left; exact I).
  destruct (validateBufferURI U (str_bytes (buf_URI b))) as [[]| |] eqn:V; [|intros [= <- <-]; exists fs; split; [reflexivity|exact K]..].
  destruct (sanitizeURI U (str_bytes (buf_URI b))) as [n|] eqn:S; [|intros [= <- <-]; exists fs; split; [reflexivity|exact K]].
  destruct (create_file n (buf_Data b) fs) as [e f] eqn:C. intros [= _ <-]. exists f. split; [reflexivity|].
  assert (E : cf_created f = n :: cf_created fs).
  { unfold create_file in C. destruct (match cf_script fs with o :: s => (o, s) | [] => (Creates None None, []) end) as [[x|w c] s].
    - injection C as _ <-. reflexivity.
    - destruct w as [[k x]|]; injection C as _ <-; reflexivity. }
  rewrite E. constructor; [|exact K]. right. exact (sanitize_confined U _ n N1 N2 V S).
Qed.
Definition plainish (o : option Buffer) : Prop :=
  match o with Some b => ~ In "%"%char (str_bytes (buf_URI b)) /\ ~ In (z2b 92) (str_bytes (buf_URI b)) | None => True end.
Lemma encodeBuffers_names U l : forall fs r fs', Forall plainish l -> encodeBuffers U l (Some fs) = (r, fs') ->
  exists f', fs' = Some f' /\ Forall (fun n => In n (cf_created fs) \/ confined n \/ carries_scheme n) (cf_created f').
Proof.
  assert (K : forall fs, Forall (fun n => In n (cf_created fs) \/ confined n \/ carries_scheme n) (cf_created fs)) by (intros; apply Forall_forall; intros n I; left; exact I).
  induction l as [|[b|] l IH]; intros fs r fs' P; cbn [encodeBuffers]; [intros [= <- <-]; exists fs; split; [reflexivity|apply K]| |intros [= <- <-]; exists fs; split; [reflexivity|apply K]].
  destruct (is_nil (buf_Data b) || str_empty (buf_URI b) || buf_IsEmbeddedResource b); [exact (IH fs r fs' (Forall_inv_tail P))|].
  destruct (encodeBuffer U b (Some fs)) as [r1 fs1] eqn:E. pose proof (Forall_inv P) as [P1 P2].
  destruct (encodeBuffer_names U b fs r1 fs1 P1 P2 E) as (f1 & -> & F1).
  destruct r1 as [[]| |]; [|intros [= <- <-]; exists f1; split; [reflexivity|exact F1]..].
  intros H. destruct (IH f1 r fs' (Forall_inv_tail P) H) as (f' & -> & F2). exists f'. split; [reflexivity|].
  rewrite Forall_forall in *. intros n I. destruct (F2 n I) as [J|J]; [exact (F1 n J)|right; exact J].
Qed.
Theorem C27_encode_names_partial F X U asBinary prefix indent d w fs r w' fs' :
  Forall (fun o => match o with Some b => ~ In "%"%char (str_bytes (buf_URI b)) /\ ~ In (z2b 92) (str_bytes (buf_URI b)) | None => True end) (doc_Buffers d) ->
  Encode F X U asBinary prefix indent d w (Some fs) = (r, w', fs') ->
  exists f', fs' = Some f' /\
    forall n, In n (cf_created f') -> In n (cf_created fs) \/ confined n \/ carries_scheme n.
Proof.
  intros P E.
  assert (G : exists f', fs' = Some f' /\ Forall (fun n => In n (cf_created fs) \/ confined n \/ carries_scheme n) (cf_created f')).
  { assert (K : exists f', Some fs = Some f' /\ Forall (fun n => In n (cf_created fs) \/ confined n \/ carries_scheme n) (cf_created f')).
    { exists fs. split; [reflexivity|]. apply Forall_forall. intros n I. left. exact I. }
    unfold Encode in E. destruct asBinary.
    - destruct (encodeBinary F X prefix indent d w) as [[hb| |] w1]; [|injection E as _ _ <-; exact K..].
      destruct (encodeBuffers U (if hb then tl (doc_Buffers d) else doc_Buffers d) (Some fs)) as [r1 fs1] eqn:EB. injection E as _ _ <-.
      refine (encodeBuffers_names U _ fs r1 fs1 _ EB). destruct hb; [|exact P]. destruct (doc_Buffers d); [exact P|exact (Forall_inv_tail P)].
    - destruct (marshalJSONDoc F X false prefix indent d) as [text| |]; [|injection E as _ _ <-; exact K..].
      destruct (w_write text w) as [[e|] w1]; [injection E as _ _ <-; exact K|].
      destruct (encodeBuffers U (doc_Buffers d) (Some fs)) as [r1 fs1] eqn:EB. injection E as _ _ <-. exact (encodeBuffers_names U _ fs r1 fs1 P EB). }
  destruct G as (f' & -> & G). exists f'. split; [reflexivity|]. rewrite Forall_forall in G. exact G.
Qed.
Print Assumptions C27_encode_names_partial.
Example C27_example :
  match Encode sample_floats sample_exts sample_url true [] [] (one_buffer "a/./b/../c.bin" 1 (str_bytes "a")) (mkWriter [] []) (Some no_files) with
  | (r, _, Some fs) => r = Ok tt /\ cf_created fs = [str_bytes "a/b/../c.bin"]
  | _ => False
  end.
Proof. vm_compute. split; reflexivity. Qed.

(** ** C29 *)
Theorem C29_glb_well_formed F X U prefix indent d w fs text :
  marshalJSONDoc F X true prefix indent d = Ok text ->
  Forall (fun o => o = None) (wr_script w) ->
  let bin := match doc_Buffers d with Some b :: _ => if String.eqb (buf_URI b) "" then Some b else None | _ => None end in
  (forall b, bin = Some b -> buf_ByteLength b = zlen (buf_Data b)) ->
  20 + up4 (zlen text) + match bin with Some b => 8 + up4 (zlen (buf_Data b)) | None => 0 end < 2 ^ 32 ->
  exists out, wr_out (snd (fst (Encode F X U true prefix indent d w fs))) = wr_out w ++ out /\
    glb_file text (option_map buf_Data bin) out.
Proof.
  intros M NF bin BL SZ.
  assert (EB : bin = bin_buffer d). { unfold bin, bin_buffer. destruct (doc_Buffers d) as [|[b|] l]; reflexivity. }
  clearbody bin. subst bin. destruct (encodeBinary_out F X prefix indent d text w M NF BL SZ) as (out & w' & E1 & E2 & E3 & E4).
  exists out. split; [|exact E4]. unfold Encode. rewrite E1. destruct (encodeBuffers _ _ _). exact E3.
Qed.
Print Assumptions C29_glb_well_formed.
(** The marshalling succeeds for all well-formed documents, C41. *)
Example C29_example :
  exists text out, marshalJSONDoc sample_floats sample_exts true [] [] sample_doc = Ok text /\
  wr_out (snd (fst (Encode sample_floats sample_exts sample_url true [] [] sample_doc (mkWriter [] []) None))) = out /\
  glb_file text (Some (str_bytes "abc")) out.
Proof.
  do 2 eexists. split; [vm_compute; reflexivity|]. split; [reflexivity|].
  match goal with |- glb_file ?t _ _ => set (text := t) end.
  destruct (C29_glb_well_formed sample_floats sample_exts sample_url [] [] sample_doc (mkWriter [] []) None text) as (out & E & G).
  - vm_compute. reflexivity.
  - constructor.
  - intros b H. vm_compute in H. injection H as <-. vm_compute. reflexivity.
  - vm_compute. reflexivity.
  - cbn [wr_out app] in E. rewrite E. exact G.
Qed.
(** The hypothesis on the length is needed. *)
Theorem C29_length_needed :
  exists F X U d out text, marshalJSONDoc F X true [] [] d = Ok text /\
    Encode F X U true [] [] d (mkWriter [] []) None = (Ok tt, mkWriter out [], None) /\ forall bin, ~ glb_file text bin out.
Proof.
  exists sample_floats, sample_exts, sample_url, (one_buffer "" 1 (str_bytes "abcdef")). do 2 eexists.
  split; [vm_compute; reflexivity|]. split; [vm_compute; reflexivity|].
  intros bin (jc & bc & _ & _ & E & _). vm_compute in E. discriminate.
Qed.
Print Assumptions C29_length_needed.

(** ** C33 *)
(** The errors of writing the JSON text, its padding, the header and the data
    of the binary chunk are dropped. *)
Theorem C33_errors_refuted :
  exists F X U d e out s, Encode F X U true [] [] d (mkWriter [] [None; Some (0, e)]) None = (Ok tt, mkWriter out s, None) /\
    zlen out < 20 + 20 /\ header_of out <> None /\
    (exists text, marshalJSONDoc F X true [] [] d = Ok text /\ zlen text > 40).
Proof.
  exists sample_floats, sample_exts, sample_url, sample_doc, (ErrMsg "disk full"). do 2 eexists. split; [vm_compute; reflexivity|].
  split; [vm_compute; reflexivity|]. split; [vm_compute; discriminate|]. eexists. split; [vm_compute; reflexivity|]. vm_compute. reflexivity.
Qed.
Print Assumptions C33_errors_refuted.

(** The names and data of the external buffers, in order. *)
Inductive written (U : url_lib) : list (option Buffer) -> list (bytes * bytes) -> Prop :=
| wn_nil : written U [] []
| wn_skip b l fl : buf_Data b = [] \/ buf_URI b = ""%string \/ String.prefix octet_prefix (buf_URI b) = true \/ sanitizeURI U (str_bytes (buf_URI b)) = None ->
    written U l fl -> written U (Some b :: l) fl
| wn_file b n l fl : sanitizeURI U (str_bytes (buf_URI b)) = Some n -> written U l fl -> written U (Some b :: l) ((n, buf_Data b) :: fl).
Lemma encodeBuffers_written U l : forall fs fs', encodeBuffers U l (Some fs) = (Ok tt, fs') ->
  exists f' fl, fs' = Some f' /\ written U l fl /\ cf_files f' = rev fl ++ cf_files fs.
Proof.
  induction l as [|[b|] l IH]; intros fs fs'; cbn [encodeBuffers]; [intros [= <-]; exists fs, []; sp; [reflexivity|constructor|reflexivity]| |discriminate].
  destruct (is_nil (buf_Data b) || str_empty (buf_URI b) || buf_IsEmbeddedResource b) eqn:S.
  - intros H. destruct (IH fs fs' H) as (f' & fl & E1 & E2 & E3). exists f', fl. split; [exact E1|]. split; [|exact E3]. apply wn_skip; [|exact E2].
    apply orb_prop in S. destruct S as [S|S]; [apply orb_prop in S; destruct S as [S|S]|].
    + left. destruct (buf_Data b); [reflexivity|discriminate].
    + right. left. apply str_empty_iff. exact S.
    + right. right. left. exact S.
  - unfold encodeBuffer. destruct (validateBufferURI U (str_bytes (buf_URI b))) as [[]| |]; [|discriminate..].
    destruct (sanitizeURI U (str_bytes (buf_URI b))) as [n|] eqn:Sn.
    + destruct (create_file n (buf_Data b) fs) as [[e|] f] eqn:C; [discriminate|]. intros H. destruct (IH f fs' H) as (f' & fl & E1 & E2 & E3).
      exists f', ((n, buf_Data b) :: fl). split; [exact E1|]. split; [apply wn_file; assumption|]. rewrite E3. cbn [rev]. rewrite <- app_assoc. f_equal.
      unfold create_file in C. destruct (match cf_script fs with o :: s => (o, s) | [] => (Creates None None, []) end) as [[x|w c] s]; [discriminate|].
      destruct w as [[k x]|]; [discriminate|]. injection C as _ <-. reflexivity.
    + intros H. destruct (IH fs fs' H) as (f' & fl & E1 & E2 & E3). exists f', fl. split; [exact E1|]. split; [|exact E3]. apply wn_skip; [tauto|exact E2].
Qed.
Theorem C33_errors_partial F X U prefix indent d w fs w' fs' :
  Encode F X U false prefix indent d w (Some fs) = (Ok tt, w', fs') ->
  exists text f' fl, marshalJSONDoc F X false prefix indent d = Ok text /\ wr_out w' = wr_out w ++ text /\
    fs' = Some f' /\ written U (doc_Buffers d) fl /\ cf_files f' = rev fl ++ cf_files fs.
Proof.
  unfold Encode. destruct (marshalJSONDoc F X false prefix indent d) as [text| |]; [|discriminate..]. destruct (w_write text w) as [[e|] w1] eqn:W; [discriminate|].
  destruct (encodeBuffers U (doc_Buffers d) (Some fs)) as [r fs1] eqn:E. intros H. injection H as -> <- <-.
  destruct (encodeBuffers_written U _ _ _ E) as (f' & fl & -> & E2 & E3). exists text, f', fl. split; [reflexivity|]. split; [exact (w_write_out _ _ _ _ W eq_refl)|].
  split; [reflexivity|]. split; assumption.
Qed.
Print Assumptions C33_errors_partial.
(** A failure of the other file is reported, and so is one of the text. *)
Example C33_example :
  let d := one_buffer "b.bin" 2 (str_bytes "xy") in
  (exists w fs, Encode sample_floats sample_exts sample_url false [] [] d (mkWriter [] []) (Some (mkCreateFS [] [] [Creates None (Some (ErrMsg "close"))])) = (Err (ErrMsg "close"), w, fs)) /\
  (exists w fs, Encode sample_floats sample_exts sample_url false [] [] d (mkWriter [] [Some (5, ErrMsg "full")]) (Some no_files) = (Err (ErrMsg "full"), w, fs)) /\
  (exists w fs, Encode sample_floats sample_exts sample_url false [] [] d (mkWriter [] []) (Some no_files) = (Ok tt, w, Some fs) /\ cf_files fs = [(str_bytes "b.bin", str_bytes "xy")]).
Proof. cbv zeta. split; [do 2 eexists; vm_compute; reflexivity|]. split; [do 2 eexists; vm_compute; reflexivity|]. do 2 eexists. split; vm_compute; reflexivity. Qed.

(** ** C34 *)
Theorem C34_safe_refuted :
  exists F X U, float_contract F /\ registry_total X /\
    Forall (fun s => snd (Decode F X U (Some (fun _ => (str_bytes "abc", None))) zero_Document (NewReader (mkReader [str_bytes s] ErrEOF false))) = Panic)
      [q "{'buffers':[null]}"; q "{'images':[null]}"; q "{'buffers':[{'uri':'b','byteLength':-1}]}"].
Proof.
  exists sample_floats, sample_exts, sample_url. split; [exact sample_float_contract|]. split; [exact sample_registry_total|].
  repeat constructor; vm_compute; reflexivity.
Qed.
Print Assumptions C34_safe_refuted.

Lemma readValue_safe fuel : forall len cap c blank s, fst (readValue fuel len cap c blank s) <> Panic.
Proof.
  induction fuel as [|f IH]; intros; [discriminate|]. cbn [readValue]. destruct (src_read _ s) as [[d e] s1]. destruct (scan c d); try discriminate.
  destruct e as [[]|]; try apply IH; try discriminate. destruct (at_eof c0); discriminate.
Qed.
Lemma read_full_safe fuel : forall n got b, fst (read_full_from fuel n got b) <> Panic.
Proof.
  induction fuel as [|f IH]; intros; [discriminate|]. cbn [read_full_from]. destruct (n <=? zlen got); [discriminate|]. destruct (b_read _ b) as [[d e] b1].
  cbv zeta. destruct (n <=? zlen (got ++ d)); [discriminate|]. destruct e as [[]|]; try apply IH; discriminate.
Qed.
Definition bad_length (n : Z) : Prop := ~ (0 <= n <= 2 ^ 48).
Lemma make_bad n : make_ok n = false -> bad_length n.
Proof. unfold make_ok, bad_length. intros H. lia. Qed.
Lemma decodeBuffer_safe U fsys b : snd (decodeBuffer U fsys b) = Panic -> bad_length (buf_ByteLength b).
Proof.
  unfold decodeBuffer, validateBuffer. destruct (buf_ByteLength b =? 0); [discriminate|]. destruct (str_empty _); [discriminate|].
  destruct (buf_IsEmbeddedResource b).
  { cbn [snd]. pose proof (C24_no_panic b). destruct (buf_marshalData b); [discriminate..|congruence]. }
  assert (V : validateBufferURI U (str_bytes (buf_URI b)) <> Panic) by (unfold validateBufferURI; destruct (url_parse U _) as [[]| |]; try destruct (IsLocal _); discriminate).
  destruct (validateBufferURI U (str_bytes (buf_URI b))); [|discriminate|congruence]. destruct fsys as [rf|]; [|discriminate].
  destruct (rf _) as [d e]. cbn [snd]. unfold bad_length. destruct (buf_ByteLength b <? zlen d); [|destruct e; discriminate].
  destruct (buf_ByteLength b <? 0) eqn:N; [lia|]. cbn [bind]. destruct e; discriminate.
Qed.
Lemma decodeBuffers_safe U fsys l : snd (decodeBuffers U fsys l) = Panic -> In None l \/ exists b, In (Some b) l /\ bad_length (buf_ByteLength b).
Proof.
  induction l as [|[b|] l IH]; cbn [decodeBuffers]; [discriminate| |intros _; left; left; reflexivity].
  pose proof (decodeBuffer_safe U fsys b) as S. destruct (decodeBuffer U fsys b) as [t [b'| |]]; cbn [snd] in *; [|discriminate|intros _; right; exists b; split; [left; reflexivity|exact (S eq_refl)]].
  destruct (decodeBuffers U fsys l) as [t' [r| |]]; cbn [snd bind] in *; try discriminate. intros _. destruct (IH eq_refl) as [I|(c & I & B)]; [left; right; exact I|].
  right. exists c. split; [right; exact I|exact B].
Qed.
Lemma mapM_in {A B} (f : A -> res B) l : mapM f l = Panic -> exists a, In a l /\ f a = Panic.
Proof.
  induction l as [|a l IH]; [discriminate|]. cbn [mapM]. destruct (f a) eqn:E; cbn [bind]; [|discriminate|intros _; exists a; split; [left; reflexivity|exact E]].
  destruct (mapM f l); [discriminate..|]. intros _. destruct (IH eq_refl) as (a' & I & E'). exists a'. split; [right; exact I|exact E'].
Qed.
Lemma mapM_image {A B} (f : A -> res B) l l' b : mapM f l = Ok l' -> In b l' -> exists a, In a l /\ f a = Ok b.
Proof.
  revert l'. induction l as [|a l IH]; intros l'; cbn [mapM]; [intros [= <-] []|]. destruct (f a) eqn:E; [|discriminate..]. cbn [bind].
  destruct (mapM f l); [|discriminate..]. intros [= <-] [<-|I]; [exists a; split; [left; reflexivity|exact E]|].
  destruct (IH _ eq_refl I) as (a' & I' & E'). exists a'. split; [right; exact I'|exact E'].
Qed.

(** The only panics: a null buffer or image, or a buffer length that is
    negative or beyond the address space. *)
Theorem C34_safe_partial F X U fsys old b names :
  registry_total X ->
  Decode F X U fsys old b = (names, Panic) ->
  exists isBinary doc b', decodeDocument F X old b = (Ok (isBinary, doc), b') /\
    (In None (doc_Buffers doc) \/ In None (doc_Images doc) \/
     exists x, In (Some x) (doc_Buffers doc) /\ ~ (0 <= buf_ByteLength x <= 2 ^ 48)).
Proof.
  intros RT. unfold Decode. destruct (decodeDocument F X old b) as [r b1] eqn:DD.
  assert (ND : r <> Panic).
  { unfold decodeDocument in DD. destruct (readGLBHeader b) as [h b2] eqn:RH.
    assert (NH : h <> Panic).
    { unfold readGLBHeader in RH. destruct (Peek header_size b) as [[c|] b3]; [|injection RH as <- _; discriminate].
      destruct (negb _); [injection RH as <- _; discriminate|]. destruct (b_read header_size b3) as [[? ?] ?]. injection RH as <- _.
      unfold validateGLBHeader. destruct (_ || _); discriminate. }
    destruct h as [h| |]; [|injection DD as <- _; discriminate|congruence].
    pose proof (readValue_safe (S (S (List.length (remaining b2)))) 0 0 start true (mkSource (option_map (fun h => ch_Length (gh_JSONHeader h)) h) b2)) as NV.
    unfold read_json in DD. cbn [src_buf] in DD. destruct (readValue _ _ _ _ _ _) as [v s]. cbn [fst] in NV. apply (f_equal fst) in DD. cbn [fst] in DD. subst r.
    destruct v as [v| |]; unfold bind; [|discriminate|congruence]. pose proof (np_Document F X RT old v) as NP. destruct (dec (c_Document F X) old v) as [y|e|]; [discriminate|discriminate|congruence]. }
  destruct r as [[isB doc]| |]; [|discriminate|congruence]. intros H. exists isB, doc, b1. split; [reflexivity|].
  assert (CB : mapM (clean_buffer U) (doc_Buffers doc) = Panic -> In None (doc_Buffers doc)).
  { intros E. apply mapM_in in E. destruct E as ([x|] & I & E); [discriminate|exact I]. }
  assert (CI : mapM (clean_image U) (doc_Images doc) = Panic -> In None (doc_Images doc)).
  { intros E. apply mapM_in in E. destruct E as ([x|] & I & E); [discriminate|exact I]. }
  destruct (mapM (clean_buffer U) (doc_Buffers doc)) as [bufs| |] eqn:EB; [| |left; exact (CB eq_refl)].
  2:{ destruct (mapM (clean_image U) (doc_Images doc)); [discriminate..|right; left; exact (CI eq_refl)]. }
  destruct (mapM (clean_image U) (doc_Images doc)) as [ims| |]; [|discriminate|right; left; exact (CI eq_refl)].
  assert (OK : (In None bufs \/ exists x, In (Some x) bufs /\ bad_length (buf_ByteLength x)) ->
    exists x, In (Some x) (doc_Buffers doc) /\ bad_length (buf_ByteLength x)).
  { intros [I|(x & I & B)]; destruct (mapM_image _ _ _ _ EB I) as ([y|] & I' & E); try discriminate. exists y. split; [exact I'|].
    unfold clean_buffer in E. cbn [deref bind] in E. destruct (buf_IsEmbeddedResource y); injection E as <-; [exact B|]. destruct y; exact B. }
  right. right. unfold load_buffers in H. apply OK. destruct bufs as [|[b0|] l]; [discriminate| |left; left; reflexivity].
  destruct (isB && str_empty (buf_URI b0)).
  - assert (NB : fst (decodeBinaryBuffer b0 b1) = Panic -> bad_length (buf_ByteLength b0)).
    { unfold decodeBinaryBuffer, validateBuffer, read_chunkHeader, ReadFull. destruct (buf_ByteLength b0 =? 0); [discriminate|].
      pose proof (fun k n => read_full_safe k n [] b1) as RS. match goal with |- context [read_full_from ?k ?n [] b1] => specialize (RS k n); destruct (read_full_from k n [] b1) as [[hd| |] b2] end;
        cbn [fst bind] in *; [|discriminate|congruence].
      destruct (_ || _); [discriminate|]. destruct (make_ok (buf_ByteLength b0)) eqn:MK; cbn [negb]; [|intros _; exact (make_bad _ MK)].
      match goal with |- context [read_full_from ?k ?n [] b2] => pose proof (read_full_safe k n [] b2) as RS2; destruct (read_full_from k n [] b2) as [[dd| |] b3] end;
        cbn [fst bind] in *; [discriminate..|congruence]. }
    destruct (fst (decodeBinaryBuffer b0 b1)); [|discriminate|right; exists b0; split; [left; reflexivity|exact (NB eq_refl)]].
    pose proof (decodeBuffers_safe U fsys l) as S. destruct (decodeBuffers U fsys l) as [t r]. cbn [snd] in S. destruct r; cbn [bind] in H; [discriminate..|].
    destruct (S eq_refl) as [I|(x & I & B)]; [left; right; exact I|right; exists x; split; [right; exact I|exact B]].
  - pose proof (decodeBuffers_safe U fsys (Some b0 :: l)) as S. destruct (decodeBuffers U fsys (Some b0 :: l)) as [t r]. cbn [snd] in S. destruct r; cbn [bind] in H; [discriminate..|]. exact (S eq_refl).
Qed.
Print Assumptions C34_safe_partial.
(** In particular nothing panics on streams of other kinds; here garbage, a
    truncated header and a wrong chunk. *)
Example C34_example :
  let run l := snd (Decode sample_floats sample_exts sample_url None zero_Document (NewReader (mkReader [l] ErrEOF true))) in
  run (str_bytes "glTF") = Err (ErrMsg "invalid character") /\
  run (str_bytes "glTF0123456789ABCDEFGHIJ") = Err (ErrMsg "gltf: Invalid GLB JSON header") /\
  run (str_bytes (q "{'buffers':[{'byteLength':7}]}")) = Err (ErrMsg "gltf: buffer without URI").
Proof. cbv zeta. split; [vm_compute; reflexivity|]. split; vm_compute; reflexivity. Qed.

(** ** C35 *)
(** Data URIs of any length and short files are accepted. *)
Theorem C35_length_refuted :
  exists F X U rf s doc b, snd (Decode F X U (Some rf) zero_Document (NewReader (mkReader [str_bytes s] ErrEOF false))) = Ok doc /\
    In (Some b) (doc_Buffers doc) /\ zlen (buf_Data b) <> buf_ByteLength b /\
    exists b', In (Some b') (doc_Buffers doc) /\ zlen (buf_Data b') > buf_ByteLength b'.
Proof.
  exists sample_floats, sample_exts, sample_url, files_abc, (q "{'buffers':[{'uri':'b.bin','byteLength':5},{'uri':'data:application/octet-stream;base64,AP8QBw==','byteLength':1}]}").
  do 2 eexists. split; [vm_compute; reflexivity|]. split; [left; reflexivity|]. split; [vm_compute; discriminate|]. eexists. split; [right; left; reflexivity|]. vm_compute. reflexivity.
Qed.
Print Assumptions C35_length_refuted.

Lemma b_read_len k b d e b' : 0 <= k -> b_read k b = (d, e, b') -> zlen d <= k.
Proof.
  intros K. assert (R : forall k r d e r', 0 <= k -> rd_read k r = (d, e, r') -> zlen d <= k).
  { clear. intros k r d e r' K. unfold rd_read. destruct (rd_pieces r) as [|p ps]; [intros [= <- _ _]; rewrite zlen_nil; exact K|].
    destruct (zlen p <=? k) eqn:L; intros [= <- _ _]; [lia|]. rewrite zlen_firstn by exact K. lia. }
  unfold b_read. destruct (bf_buf b) as [|c buf].
  - destruct (bf_err b); [intros [= <- _ _]; rewrite zlen_nil; exact K|]. destruct (buf_size <=? k).
    + destruct (rd_read k (bf_rd b)) as [[d0 e0] r0] eqn:E. intros [= <- _ _]. exact (R _ _ _ _ _ K E).
    + destruct (rd_read buf_size (bf_rd b)) as [[d0 e0] r0]. destruct d0; intros [= <- _ _]; [rewrite zlen_nil; exact K|]. rewrite zlen_firstn by exact K. lia.
  - intros [= <- _ _]. rewrite zlen_firstn by exact K. lia.
Qed.
Lemma read_full_len fuel : forall n got b d b', zlen got <= n -> read_full_from fuel n got b = (Ok d, b') -> zlen d = n.
Proof.
  induction fuel as [|f IH]; intros n got b d b' L; [discriminate|]. cbn [read_full_from]. destruct (n <=? zlen got) eqn:N; [intros [= <- _]; lia|].
  destruct (b_read (n - zlen got) b) as [[p e] b1] eqn:R. cbv zeta. pose proof (b_read_len (n - zlen got) b p e b1 ltac:(lia) R) as Lp.
  destruct (n <=? zlen (got ++ p)) eqn:N2; [intros [= <- _]; rewrite zlen_app in *; lia|]. destruct e as [[]|]; try discriminate. apply IH. lia.
Qed.
Lemma firstn_exact {A} n (d : list A) : zlen d <= n -> firstn (Z.to_nat n) d = d.
Proof. intros H. apply firstn_all2. unfold zlen in H. lia. Qed.

Lemma decodeBuffer_loaded U rf b t b' : decodeBuffer U (Some rf) b = (t, Ok b') ->
  (String.prefix octet_prefix (buf_URI b') = true /\ buf_marshalData b' = Ok (buf_Data b')) \/
  (exists file, rf (str_bytes (buf_URI b')) = (file, None) /\ 0 < buf_ByteLength b' /\ buf_Data b' = firstn (Z.to_nat (buf_ByteLength b')) file).
Proof.
  unfold decodeBuffer, validateBuffer. destruct (buf_ByteLength b =? 0) eqn:Z0; [discriminate|]. destruct (str_empty _); [discriminate|].
  destruct (buf_IsEmbeddedResource b) eqn:I.
  - destruct (buf_marshalData b) as [d| |] eqn:M; cbn [bind]; [|discriminate..]. intros [= _ <-]. left. split; [exact I|]. exact M.
  - destruct (validateBufferURI U (str_bytes (buf_URI b))); [|discriminate..]. destruct (rf (str_bytes (buf_URI b))) as [d e] eqn:R.
    pose proof (zlen_nonneg d). intros E. apply (f_equal snd) in E. cbn [snd] in E. right.
    assert (B : 0 < buf_ByteLength b). { destruct (buf_ByteLength b <? zlen d) eqn:L; [|lia]. destruct (buf_ByteLength b <? 0) eqn:N; [discriminate|lia]. }
    destruct (buf_ByteLength b <? zlen d) eqn:L.
    + replace (buf_ByteLength b <? 0) with false in E by lia. cbn [bind] in E. destruct e; [discriminate|]. injection E as <-. exists d. split; [exact R|]. split; [exact B|reflexivity].
    + cbn [bind] in E. destruct e; [discriminate|]. injection E as <-. exists d. split; [exact R|]. split; [exact B|]. symmetry. apply firstn_exact. change (zlen d <= buf_ByteLength b). lia.
Qed.
Lemma decodeBuffers_loaded U rf l : forall t l', decodeBuffers U (Some rf) l = (t, Ok l') -> forall o, In o l' ->
  exists b', o = Some b' /\ ((String.prefix octet_prefix (buf_URI b') = true /\ buf_marshalData b' = Ok (buf_Data b')) \/
  (exists file, rf (str_bytes (buf_URI b')) = (file, None) /\ 0 < buf_ByteLength b' /\ buf_Data b' = firstn (Z.to_nat (buf_ByteLength b')) file)).
Proof.
  induction l as [|[b|] l IH]; intros t l'; cbn [decodeBuffers]; [intros [= _ <-] o []| |discriminate].
  destruct (decodeBuffer U (Some rf) b) as [t1 [b'| |]] eqn:E; [|discriminate..]. destruct (decodeBuffers U (Some rf) l) as [t2 [r| |]]; cbn [bind]; [|discriminate..].
  intros [= _ <-] o [<-|I]; [|exact (IH t2 r eq_refl o I)]. exists b'. split; [reflexivity|exact (decodeBuffer_loaded U rf b t1 b' E)].
Qed.
(** The binary chunk gives exactly the declared length; an external file at
    most that, and exactly that when it is long enough; a data URI gives what
    it encodes. *)
Theorem C35_length_partial F X U rf old b names doc :
  Decode F X U (Some rf) old b = (names, Ok doc) ->
  forall o, In o (doc_Buffers doc) -> exists x, o = Some x /\
    (zlen (buf_Data x) = buf_ByteLength x \/
     (String.prefix "data:application/octet-stream;base64" (buf_URI x) = true /\ buf_marshalData x = Ok (buf_Data x)) \/
     exists file, rf (str_bytes (buf_URI x)) = (file, None) /\ 0 < buf_ByteLength x /\ buf_Data x = firstn (Z.to_nat (buf_ByteLength x)) file).
Proof.
  unfold Decode. destruct (decodeDocument F X old b) as [[[isB doc0]| |] b1]; [|discriminate..].
  destruct (mapM (clean_buffer U) (doc_Buffers doc0)) as [bufs| |], (mapM (clean_image U) (doc_Images doc0)) as [ims| |]; try discriminate.
  destruct (load_buffers U (Some rf) isB bufs b1) as [t [bs| |]] eqn:L; cbn [bind]; [|discriminate..]. intros [= _ <-] o I. cbn [doc_Buffers set_doc_Images set_doc_Buffers] in I.
  assert (DB : forall l t' l', decodeBuffers U (Some rf) l = (t', Ok l') -> In o l' -> exists x, o = Some x /\
    (zlen (buf_Data x) = buf_ByteLength x \/
     (String.prefix "data:application/octet-stream;base64" (buf_URI x) = true /\ buf_marshalData x = Ok (buf_Data x)) \/
     exists file, rf (str_bytes (buf_URI x)) = (file, None) /\ 0 < buf_ByteLength x /\ buf_Data x = firstn (Z.to_nat (buf_ByteLength x)) file)).
  { intros l t' l' E Il. destruct (decodeBuffers_loaded U rf l t' l' E o Il) as (x & -> & H). exists x. split; [reflexivity|right; exact H]. }
  unfold load_buffers in L. destruct bufs as [|[b0|] l]; [exact (DB _ _ _ L I)| |exact (DB _ _ _ L I)].
  destruct (isB && str_empty (buf_URI b0)); [|exact (DB _ _ _ L I)].
  destruct (fst (decodeBinaryBuffer b0 b1)) as [b2| |] eqn:EB; [|discriminate..]. destruct (decodeBuffers U (Some rf) l) as [t' [r| |]] eqn:ED; cbn [bind] in L; [|discriminate..].
  injection L as _ <-. destruct I as [<-|I]; [|exact (DB _ _ _ ED I)]. exists b2. split; [reflexivity|]. left.
  unfold decodeBinaryBuffer, read_chunkHeader in EB. destruct (validateBuffer b0); [|discriminate..]. destruct (ReadFull chunk_header_size b1) as [hd b3].
  destruct hd as [hd| |]; cbn [bind] in EB; [|discriminate..]. destruct (_ || _); [discriminate|]. destruct (make_ok (buf_ByteLength b0)) eqn:MK; cbn [negb] in EB; [|discriminate].
  unfold make_ok in MK. destruct (ReadFull (buf_ByteLength b0) b3) as [d b4] eqn:R. cbn [fst] in EB. destruct d as [d| |]; cbn [bind] in EB; [|discriminate..]. injection EB as <-.
  cbn. unfold ReadFull in R. refine (read_full_len _ _ [] _ _ _ _ R). rewrite zlen_nil. lia.
Qed.
Print Assumptions C35_length_partial.
Example C35_example :
  exists doc, snd (Decode sample_floats sample_exts sample_url (Some files_abc) zero_Document
    (text_reader (q "{'buffers':[{'uri':'b.bin','byteLength':2}]}"))) = Ok doc /\
  map (option_map buf_Data) (doc_Buffers doc) = [Some (str_bytes "ab")].
Proof. eexists. split; vm_compute; reflexivity. Qed.

(** ** C36 *)
Theorem C36_header_refuted :
  exists h, validateGLBHeader h = Ok tt /\ 0 <= ch_Length (gh_JSONHeader h) < 2 ^ 32 /\ 0 <= gh_Length h < 2 ^ 32 /\
    ch_Length (gh_JSONHeader h) > gh_Length h.
Proof. exists (mkGlbHeader glbHeaderMagic 2 24 (mkChunkHeader 4294967295 glbChunkJSON)). vm_compute. repeat split; discriminate || reflexivity. Qed.
Print Assumptions C36_header_refuted.
(** The sum wraps around for the 20 largest lengths only; for the others the
    check is exact. *)
Theorem C36_header_partial h :
  0 <= ch_Length (gh_JSONHeader h) < 2 ^ 32 - 20 ->
  (validateGLBHeader h = Ok tt <-> ch_Type (gh_JSONHeader h) = 0x4e4f534a /\ ch_Length (gh_JSONHeader h) + 20 <= gh_Length h).
Proof.
  intros H. unfold validateGLBHeader, header_size, u32. rewrite Z.mod_small by lia. change glbChunkJSON with 0x4e4f534a.
  destruct (ch_Type (gh_JSONHeader h) =? 0x4e4f534a) eqn:T, (gh_Length h <? ch_Length (gh_JSONHeader h) + 20) eqn:L; cbn [negb orb]; split; intros; try discriminate; try reflexivity; lia.
Qed.
Print Assumptions C36_header_partial.
(** A stream with such a header is refused whatever follows. *)
Theorem C36_decode_partial F X U fsys old r h :
  reads_to_eof r -> header_of (stream r) = Some h -> ch_Length (gh_JSONHeader h) < 2 ^ 32 - 20 -> gh_Length h < ch_Length (gh_JSONHeader h) + 20 ->
  exists e, Decode F X U fsys old (NewReader r) = ([], Err e).
Proof.
  intros R H L S. destruct (validateGLBHeader h) as [[]|e|] eqn:V.
  - exfalso. assert (N : 0 <= ch_Length (gh_JSONHeader h)).
    { unfold header_of in H. destruct (zlen (stream r) <? 20); [discriminate|]. destruct (_ =? _); [|discriminate]. injection H as <-. apply le_val_range. }
    apply C36_header_partial in V; lia.
  - exists e. exact (Decode_bad F X U fsys old r h e R H V).
  - unfold validateGLBHeader in V. destruct (_ || _); discriminate.
Qed.
Print Assumptions C36_decode_partial.
Example C36_example :
  let h := mkGlbHeader glbHeaderMagic 2 43 (mkChunkHeader 24 glbChunkJSON) in
  validateGLBHeader h = Err (ErrMsg "gltf: Invalid GLB JSON header") /\
  snd (Decode sample_floats sample_exts sample_url None zero_Document (NewReader (mkReader [put_glbHeader h; str_bytes "{                      }"] ErrEOF false)))
    = Err (ErrMsg "gltf: Invalid GLB JSON header").
Proof. split; vm_compute; reflexivity. Qed.

(** ** C37 *)
(** The old file is truncated before the document is encoded. *)
Theorem C37_save_refuted :
  exists F X U d e, let disk := [(str_bytes "dir/m.gltf", str_bytes "old")] in
    exists disk', save F X U (str_bytes "dir") (str_bytes "dir/m.gltf") false d (mkFaults None [] [] None) disk = (Err e, disk') /\
    disk_get (str_bytes "dir/m.gltf") disk = Some (str_bytes "old") /\ disk_get (str_bytes "dir/m.gltf") disk' = Some [].
Proof.
  exists sample_floats, sample_exts, sample_url, cameraless. eexists. cbv zeta. eexists. split; [vm_compute; reflexivity|]. split; vm_compute; reflexivity.
Qed.
Print Assumptions C37_save_refuted.
(** What a Save can change: when the file cannot be created, nothing; else
    only the file itself and files of buffers in its directory. *)
Theorem C37_save_partial F X U dir name asBinary d ft disk r disk' :
  save F X U dir name asBinary d ft disk = (r, disk') ->
  (ft_create ft <> None -> disk' = disk /\ exists e, r = Err e) /\
  forall p, p <> name -> (forall n, p <> dir ++ "/"%char :: n) -> disk_get p disk' = disk_get p disk.
Proof.
  unfold save. destruct (ft_create ft) as [e|].
  { intros [= <- <-]. split; [|reflexivity]. intros _. split; [reflexivity|]. exists e. reflexivity. }
  destruct (Encode F X U asBinary [] [] d (mkWriter [] (ft_writes ft)) (Some (mkCreateFS [] [] (ft_files ft)))) as [[r0 w] fs]. intros H.
  split; [congruence|]. intros p Np Nd.
  assert (E : disk' = match fs with Some fs => map (fun p => (os_path dir (fst p), snd p)) (cf_files fs) | None => [] end ++ (name, wr_out w) :: disk).
  { destruct r0; injection H as _ <-; reflexivity. }
  rewrite E, disk_get_skip.
  - cbn [disk_get]. destruct (list_eq_dec ascii_dec name p) as [->|]; [congruence|reflexivity].
  - destruct fs as [fs|]; [|intros []]. rewrite map_map. cbn [fst]. rewrite in_map_iff. intros (x & Ex & _). exact (Nd _ (eq_sym Ex)).
Qed.
Print Assumptions C37_save_partial.
Example C37_example :
  let disk := [(str_bytes "dir/m.glb", str_bytes "old"); (str_bytes "other", str_bytes "kept")] in
  fst (save sample_floats sample_exts sample_url (str_bytes "dir") (str_bytes "dir/m.glb") true sample_doc (mkFaults (Some (ErrMsg "denied")) [] [] None) disk) = Err (ErrMsg "denied") /\
  fst (save sample_floats sample_exts sample_url (str_bytes "dir") (str_bytes "dir/m.glb") true sample_doc (mkFaults None [Some (7, ErrMsg "full")] [] None) disk) = Err (ErrMsg "full") /\
  disk_get (str_bytes "other") (snd (save sample_floats sample_exts sample_url (str_bytes "dir") (str_bytes "dir/m.glb") true sample_doc (mkFaults None [Some (7, ErrMsg "full")] [] None) disk)) = Some (str_bytes "kept").
Proof. cbv zeta. split; [vm_compute; reflexivity|]. split; vm_compute; reflexivity. Qed.

(** ** C38 *)
Lemma marshal_brace F X a prefix indent d text : marshalJSONDoc F X a prefix indent d = Ok text -> exists t, text = "{"%char :: t.
Proof.
  unfold marshalJSONDoc. intros H. apply bind_ok in H. destruct H as (j & T & H). unfold marshal_tree in T. apply bind_ok in T. destruct T as (bs & _ & T).
  assert (O : exists m, j = JObj m).
  { cbn [c_Document c_struct enc] in T. unfold enc_struct in T. apply bind_ok in T. destruct T as (m & _ & T). injection T as <-. exists m. reflexivity. }
  destruct O as [m ->]. injection H as <-. unfold print_indent, print_compact. destruct (_ || _); destruct m as [|[k v] m]; eexists; reflexivity.
Qed.
(** Whatever the document, the indentation and the way the bytes arrive. *)
Theorem C38_text_detected F X U prefix indent d w fs w' fs' r :
  Encode F X U false prefix indent d w fs = (Ok tt, w', fs') -> wr_out w = [] ->
  reads_to_eof r -> stream r = wr_out w' ->
  fst (readGLBHeader (NewReader r)) = Ok None.
Proof.
  intros E W0 R S. unfold Encode in E. destruct (marshalJSONDoc F X false prefix indent d) as [text| |] eqn:M; [|discriminate..].
  destruct (w_write text w) as [[e|] w1] eqn:Wr; [discriminate|]. destruct (encodeBuffers U (doc_Buffers d) fs) as [r1 fs1]. injection E as _ <- _.
  pose proof (w_write_out _ _ _ _ Wr eq_refl) as O. rewrite W0 in O. cbn [app] in O. destruct (marshal_brace _ _ _ _ _ _ _ M) as [t ->].
  destruct (readGLBHeader (NewReader r)) as [h b] eqn:G. destruct (readGLBHeader_spec r h b R G) as (_ & _ & _ & H). rewrite S, O, brace_text in H. exact (proj1 H).
Qed.
Print Assumptions C38_text_detected.
Lemma glb_front l t : List.length l = 16%nat -> header_of (le_bytes 4 glbHeaderMagic ++ l ++ t) = Some (get_glbHeader (le_bytes 4 glbHeaderMagic ++ l)).
Proof.
  intros L. unfold header_of.
  assert (F20 : firstn 20 (le_bytes 4 glbHeaderMagic ++ l ++ t) = le_bytes 4 glbHeaderMagic ++ l).
  { rewrite app_assoc, firstn_app, app_length, le_bytes_length, L. cbn [Nat.add Nat.sub]. rewrite firstn_O, app_nil_r. apply firstn_all2. rewrite app_length, le_bytes_length, L. lia. }
  rewrite F20. replace (zlen (le_bytes 4 glbHeaderMagic ++ l ++ t) <? 20) with false by (unfold zlen; rewrite !app_length, le_bytes_length, L; lia).
  replace (gh_Magic (get_glbHeader (le_bytes 4 glbHeaderMagic ++ l)) =? glbHeaderMagic) with true; [reflexivity|].
  symmetry. apply Z.eqb_eq. unfold get_glbHeader, field4. cbn [gh_Magic]. reflexivity.
Qed.
Theorem C38_binary_detected F X U prefix indent d w fs w' fs' r :
  Encode F X U true prefix indent d w fs = (Ok tt, w', fs') -> wr_out w = [] ->
  reads_to_eof r -> stream r = wr_out w' ->
  exists h, header_of (stream r) = Some h /\ gh_Version h = 2 /\
  fst (readGLBHeader (NewReader r)) = (_ <- validateGLBHeader h ;; Ok (Some h)).
Proof.
  intros E W0 R S. unfold Encode in E. destruct (encodeBinary F X prefix indent d w) as [rb w1] eqn:EB.
  assert (Ew : w1 = w'). { destruct rb as [hb| |]; [|discriminate..]. destruct (encodeBuffers _ _ _). injection E as _ <- _. reflexivity. } subst w1.
  assert (Er : exists hb, rb = Ok hb). { destruct rb as [hb| |]; [|discriminate..]. exists hb. reflexivity. } destruct Er as [hb ->].
  assert (WP : forall p w x y, w_write p w = (x, y) -> exists t, wr_out y = wr_out w ++ t).
  { intros p [o [|[[n e]|] s]] x y; unfold w_write; cbn [wr_script wr_out]; intros [= _ <-]; eexists; reflexivity. }
  unfold encodeBinary in EB. destruct (marshalJSONDoc F X true prefix indent d) as [text| |]; [|discriminate..].
  match type of EB with context [w_write ?p w] => set (hdr := p) in EB; destruct (w_write hdr w) as [[e|] w1] eqn:W1; [discriminate|] end.
  pose proof (w_write_out _ _ _ _ W1 eq_refl) as O1. rewrite W0 in O1. cbn [app] in O1.
  assert (O : exists t, wr_out w' = hdr ++ t).
  { destruct (w_write text w1) as [x2 w2] eqn:W2. destruct (WP _ _ _ _ W2) as [t2 E2].
    match type of EB with context [w_write ?p w2] => destruct (w_write p w2) as [x3 w3] eqn:W3 end. destruct (WP _ _ _ _ W3) as [t3 E3].
    rewrite E2, O1 in E3. rewrite <- app_assoc in E3.
    match type of EB with match ?o with Some _ => _ | None => _ end = _ => destruct o as [b|] end; [|injection EB as _ <-; exists (t2 ++ t3); exact E3].
    destruct (negb _); [discriminate|].
    match type of EB with context [w_write ?p w3] => destruct (w_write p w3) as [x4 w4] eqn:W4 end. destruct (WP _ _ _ _ W4) as [t4 E4].
    destruct (w_write (buf_Data b) w4) as [x5 w5] eqn:W5. destruct (WP _ _ _ _ W5) as [t5 E5].
    match type of EB with context [w_write ?p w5] => destruct (w_write p w5) as [[x6|] w6] eqn:W6 end; [discriminate|]. destruct (WP _ _ _ _ W6) as [t6 E6].
    injection EB as _ <-. exists (t2 ++ t3 ++ t4 ++ t5 ++ t6). rewrite E6, E5, E4, E3, <- !app_assoc. reflexivity. }
  destruct O as [t O]. unfold put_glbHeader in hdr. cbn [gh_Magic gh_Version gh_Length gh_JSONHeader] in hdr.
  match goal with hdr := le_bytes 4 glbHeaderMagic ++ ?l |- _ => pose proof (glb_front l t eq_refl) as G; set (tail := l) in * end.
  subst hdr. rewrite <- app_assoc in O. rewrite <- O, <- S in G. eexists. split; [exact G|]. split; [reflexivity|].
  destruct (readGLBHeader (NewReader r)) as [h b] eqn:RH. destruct (readGLBHeader_spec r h b R RH) as (_ & _ & _ & H). rewrite G in H. exact (proj1 H).
Qed.
Print Assumptions C38_binary_detected.
Example C38_example :
  exists w fs, Encode sample_floats sample_exts sample_url true [] [] sample_doc (mkWriter [] []) None = (Ok tt, w, fs) /\
  exists h, fst (readGLBHeader (NewReader (mkReader (map (fun b => [b]) (wr_out w)) ErrEOF false))) = Ok (Some h).
Proof. do 2 eexists. split; [vm_compute; reflexivity|]. eexists. vm_compute. reflexivity. Qed.
