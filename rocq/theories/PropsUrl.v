(** C89: absolute URIs, with net/url in full. *)
From Verif Require Import Base BaseFacts Types Doc F64 Base64 Url UrlProofs SpecText SpecPath SpecData JsonText JsonTextProofs Codec SpecJson SpecJsonDoc CodecProofs CodecInv
  DocCodec Marshal SpecMarshal MarshalProofs PropsUri PropsJson Stream StreamProofs File SpecFile DecodeProofs EncodeProofs PlainProofs PropsFile PropsRoundTrip
  SpecGo SpecGoDoc EncodeExact ScanDepth IndentProofs PropsIndent SpecKeep SpecKeepDoc KeepProofs DocKeepProofs KeepTree SpecKeepFile KeepFile PropsKeep DocWithin PropsKeepFile
  GoUrl SpecUrl GoUrlProofs.

(** The model of sanitizeURI and validateBufferURI that all other theorems use
    is, for [go_url], the source text with url.Parse and URL.String. *)
Theorem C89_net_url :
  (forall uri, sanitizeURI go_url uri = go_sanitizeURI uri) /\
  (forall uri, validateBufferURI go_url uri = go_validateBufferURI uri) /\
  (forall uri, url_parse go_url uri = (u <- Parse uri ;; Ok (u_Scheme u))).
Proof. split; [exact sanitizeURI_go|]. split; [exact validateBufferURI_go|exact url_parse_go]. Qed.
Print Assumptions C89_net_url.

(** Cleaning leaves an absolute URI as it is. *)
Theorem C89_unchanged_partial :
  forall uri, absolute_uri uri -> no_dot_segment uri -> sanitizeURI go_url uri = Some uri.
Proof. exact sanitize_kept. Qed.
Print Assumptions C89_unchanged_partial.

(** Parse of such a URI followed by String gives the same text, dots or not. *)
Theorem C89_parse_string :
  forall uri, absolute_uri uri -> exists u, Parse uri = Ok u /\ u_Scheme u <> [] /\ URL_String u = uri.
Proof. intros uri H. destruct (Parse_kept uri H) as (u & P & N & S & _). exists u. auto. Qed.
Print Assumptions C89_parse_string.

(** Images with absolute URIs come back from files with the same URIs. *)
Definition located_image (o : option Image) : Prop :=
  plain_image o \/ exists im uri, o = Some im /\ img_URI im = bytes_str uri /\ absolute_uri uri /\ no_dot_segment uri.
Lemma absolute_ascii uri : absolute_uri uri -> Forall (fun c => b2z c < 128) uri.
Proof.
  assert (B : forall (P : byte -> bool) l, (forallb (fun c => negb (P c) || (b2z c <? 128)) (map ascii_of_nat (seq 0 256)) = true) -> forallb P l = true -> Forall (fun c => b2z c < 128) l).
  { intros P l H G. rewrite Forall_forall. rewrite forallb_forall in G. intros c I. pose proof (all_bytes _ H c) as E. cbv beta in E. rewrite (G c I) in E. cbn in E. lia. }
  intros (s & h & q & f & -> & HS & HH & HQ & HF).
  assert (PA : forall l, encoded path_char l -> Forall (fun c => b2z c < 128) l) by (intros l H; apply path_bytes in H; revert H; apply B; vm_compute; reflexivity).
  assert (QA : forall l, encoded query_char l -> Forall (fun c => b2z c < 128) l) by (intros l H; apply query_bytes in H; revert H; apply B; vm_compute; reflexivity).
  apply Forall_app. split; [|constructor; [vm_compute; reflexivity|apply Forall_app; split; [|apply Forall_app; split]]].
  - apply (B scheme_ok); [vm_compute; reflexivity|apply scheme_facts, HS].
  - destruct HH as [hh p path HH HP _ _ E|r E _|c r E _]; [|constructor; [vm_compute; reflexivity|exact (PA _ E)]|exact (PA _ E)].
    constructor; [vm_compute; reflexivity|]. constructor; [vm_compute; reflexivity|]. rewrite app_assoc. apply Forall_app. split; [|exact (PA _ E)].
    apply (B host_ok); [vm_compute; reflexivity|apply host_port; assumption].
  - destruct HQ as [->|(t & -> & E)]; [constructor|constructor; [vm_compute; reflexivity|exact (QA _ E)]].
  - destruct HF as [->|(t & -> & _ & E)]; [constructor|constructor; [vm_compute; reflexivity|exact (QA _ E)]].
Qed.
Lemma absolute_clean rep uri : repairs rep -> absolute_uri uri -> no_dot_segment uri ->
  rep (bytes_str uri) = bytes_str uri /\ clean_uri go_url (bytes_str uri) = bytes_str uri.
Proof.
  intros R A N. split.
  - apply (repairs_utf8 rep R). apply ascii_utf8. rewrite str_bytes_bytes. pose proof (absolute_ascii uri A) as B. 
    rewrite forallb_forall. rewrite Forall_forall in B. intros c I. specialize (B c I). lia.
  - unfold clean_uri. rewrite str_bytes_bytes, (sanitize_kept uri A N). reflexivity.
Qed.
Lemma located_still X rep o : repairs rep -> located_image o -> still_image X go_url rep o.
Proof.
  intros R [H|(im & uri & -> & E & A & N)]; [exact (plain_still X go_url rep R o H)|].
  destruct (absolute_clean rep uri R A N) as [E1 E2]. cbn [still_image]. unfold restored_image, kept_Image. cbn. rewrite E, E1, E2. destruct (_ || _); reflexivity.
Qed.
Lemma located_back X rep asBinary d : repairs rep -> Forall located_image (doc_Images d) -> back_images (clean_uri go_url) X rep asBinary d = back X rep asBinary d.
Proof. intros R H. apply still_back. eapply Forall_impl; [|exact H]. intros o. apply (located_still X rep o R). Qed.
Lemma located_some l : Forall located_image l -> Forall (fun o => o <> None) l.
Proof. apply Forall_impl. intros o [H|(im & uri & -> & _)]; [destruct o; [discriminate|destruct H]|discriminate]. Qed.
(** Every image with an absolute URI has it in [d2] as in [d]. *)
Definition same_addresses (d d2 : Document) : Prop :=
  forall i im uri, nth_error (doc_Images d) i = Some (Some im) -> img_URI im = bytes_str uri -> absolute_uri uri ->
  exists im2, nth_error (doc_Images d2) i = Some (Some im2) /\ img_URI im2 = bytes_str uri.
Lemma back_addresses X rep asBinary d : repairs rep -> Forall located_image (doc_Images d) -> same_addresses d (back X rep asBinary d).
Proof.
  intros R H i im uri I E A. exists (kept_Image X rep im). split.
  - cbn [back doc_Images kept_Document]. rewrite nth_error_map, I. reflexivity.
  - cbn [kept_Image img_URI]. rewrite E. apply (repairs_utf8 rep R). apply ascii_utf8. rewrite str_bytes_bytes. pose proof (absolute_ascii uri A) as B.
    rewrite forallb_forall. rewrite Forall_forall in B. intros c J. specialize (B c J). lia.
Qed.

Theorem C89_encode_decode_partial F X rep asBinary prefix indent d w fs :
  float_contract F -> registry_total X -> repairs rep -> go_Document X d -> savable_Document X d ->
  Forall plain_buffer (doc_Buffers d) -> Forall located_image (doc_Images d) ->
  ws prefix -> ws indent -> no_failures w fs ->
  (forall text, marshalJSONDoc F X asBinary prefix indent d = Ok text -> asBinary = true -> glb_size text d < 2 ^ 32) ->
  exists j text w' fs', text_of j text /\
    Encode F X go_url asBinary prefix indent d w (Some fs) = (Ok tt, w', Some fs') /\
    cf_files fs' = rev (buffer_files (doc_Buffers d)) ++ cf_files fs /\
    (if asBinary then glb_file text (option_map buf_Data (glb_buffer d)) (wr_out w') else wr_out w' = text) /\
    forall rf r, (forall name data, In (name, data) (buffer_files (doc_Buffers d)) -> rf name = (data, None)) ->
      reads_to_eof r -> stream r = wr_out w' -> asBinary = false \/ Forall (fun p => zlen p mod 4 = 0) (rd_pieces r) ->
      Z.of_nat (nesting j) <= 10000 -> typed d = true ->
      exists d2, snd (Decode F X go_url (Some rf) zero_Document (NewReader r)) = Ok d2 /\ d2 = back X rep asBinary d /\ same_addresses d d2.
Proof.
  intros HF HT HR G S HB HI Hp Hi NF SZ.
  destruct (C81_encode_decode_images F X go_url rep asBinary prefix indent d w fs HF HT HR G S HB (located_some _ HI) Hp Hi NF SZ) as (j & text & w' & fs' & H1 & H2 & H3 & H4 & D).
  exists j, text, w', fs'. do 4 (split; [assumption|]). intros rf r RF RE ST AL N TY. exists (back X rep asBinary d).
  rewrite (D rf r RF RE ST AL), TY, (located_back X rep asBinary d HR HI). destruct (Z.ltb_spec 10000 (Z.of_nat (nesting j))); [lia|].
  split; [reflexivity|]. split; [reflexivity|exact (back_addresses X rep asBinary d HR HI)].
Qed.
Print Assumptions C89_encode_decode_partial.

Theorem C89_save_open_partial F X rep dir name asBinary d disk :
  float_contract F -> registry_total X -> repairs rep -> go_Document X d -> savable_Document X d ->
  Forall plain_buffer (doc_Buffers d) -> Forall located_image (doc_Images d) ->
  (forall text, marshalJSONDoc F X asBinary [] [] d = Ok text -> asBinary = true -> glb_size text d < 2 ^ 32) ->
  NoDup (map fst (buffer_files (doc_Buffers d))) ->
  (forall m, In m (map fst (buffer_files (doc_Buffers d))) -> dir ++ "/"%char :: m <> name) ->
  exists j text disk', text_of j text /\
    save F X go_url dir name asBinary d (mkFaults None [] [] None) disk = (Ok tt, disk') /\
    forall rd, (forall c, reads_to_eof (rd c) /\ stream (rd c) = c /\ (asBinary = true -> Forall (fun p => zlen p mod 4 = 0) (rd_pieces (rd c)))) ->
    Z.of_nat (nesting j) <= 10000 -> typed d = true ->
    exists d2, snd (Open F X go_url dir name disk' rd) = Ok d2 /\ d2 = back X rep asBinary d /\ same_addresses d d2.
Proof.
  intros HF HT HR G S HB HI SZ ND NN.
  destruct (C81_save_open_images F X go_url rep dir name asBinary d disk HF HT HR G S HB (located_some _ HI) SZ ND NN) as (j & text & disk' & H1 & H2 & D).
  exists j, text, disk'. do 2 (split; [assumption|]). intros rd R N TY. exists (back X rep asBinary d).
  rewrite (D rd R), TY, (located_back X rep asBinary d HR HI). destruct (Z.ltb_spec 10000 (Z.of_nat (nesting j))); [lia|].
  split; [reflexivity|]. split; [reflexivity|exact (back_addresses X rep asBinary d HR HI)].
Qed.
Print Assumptions C89_save_open_partial.

(** ** What is missing *)
(** Absolute URIs with "/./" change, also where that is not a dot segment but
    part of a query; and cleaning a second time changes them again. *)
Lemma enc_chars ok l : Forall ok l -> encoded ok l.
Proof. induction 1; constructor; assumption. Qed.
Definition ub (s : string) : bytes := str_bytes s.
Lemma lower_host l : Forall (fun c => 97 <= b2z c <= 122) l -> host l.
Proof. intros H. left. eapply Forall_impl; [|exact H]. intros c B. left. left. left. exact B. Qed.
Theorem C89_unchanged_refuted :
  absolute_uri (ub "http://h/?p=/./x") /\ sanitizeURI go_url (ub "http://h/?p=/./x") = Some (ub "http://h/?p=/x") /\
  absolute_uri (ub "http://h/././x") /\ sanitizeURI go_url (ub "http://h/././x") = Some (ub "http://h/./x") /\
  sanitizeURI go_url (ub "http://h/./x") = Some (ub "http://h/x").
Proof.
  assert (PC : forall c, one_of "/.x?p=" c = true -> path_char c \/ c = "?"%char).
  { intros c H. unfold one_of, contains in H. apply existsb_exists in H as (x & I & E). apply Ascii.eqb_eq in E. subst x.
    cbn in I. destruct I as [<-|[<-|[<-|[<-|[<-|[<-|[]]]]]]].
    - left. right. left. reflexivity.
    - left. left. left. right. right. cbn. tauto.
    - left. left. left. left. left. vm_compute. split; discriminate.
    - right. reflexivity.
    - left. left. left. left. left. vm_compute. split; discriminate.
    - left. left. right. left. unfold sub_delims, chars. cbn. tauto. }
  assert (PE : forall l, forallb (one_of "/.x?p=") l = true -> ~ In "?"%char l -> encoded path_char l).
  { intros l H N. apply enc_chars. rewrite Forall_forall. rewrite forallb_forall in H. intros c I. destruct (PC c (H c I)) as [P| ->]; [exact P|contradiction]. }
  assert (QE : forall l, forallb (one_of "/.x?p=") l = true -> encoded query_char l).
  { intros l H. apply enc_chars. rewrite Forall_forall. rewrite forallb_forall in H. intros c I. destruct (PC c (H c I)) as [[P|P]| ->].
    - left. exact P.
    - right. destruct P as [<-|[]]. left. reflexivity.
    - right. right. left. reflexivity. }
  assert (SC : scheme (ub "http")).
  { exists "h"%char, (ub "ttp"). split; [reflexivity|]. split; [vm_compute; split; discriminate|]. repeat (constructor; [left; vm_compute; split; discriminate|]). constructor. }
  assert (HO : host (ub "h")) by (apply lower_host; constructor; [vm_compute; split; discriminate|constructor]).
  assert (HP : forall r, encoded path_char ("/"%char :: r) -> hier_part (ub "//h" ++ "/"%char :: r)).
  { intros r E. apply (hp_authority (ub "h") [] ("/"%char :: r)); [exact HO|left; reflexivity|left; discriminate|right; exists r; reflexivity|exact E]. }
  split; [|split; [vm_compute; reflexivity|split; [|split; vm_compute; reflexivity]]].
  - exists (ub "http"), (ub "//h/"), (ub "?p=/./x"), []. split; [reflexivity|]. split; [exact SC|]. split; [|split; [|left; reflexivity]].
    + apply (HP []). apply PE; [reflexivity|]. intros [E|[]]. discriminate.
    + right. exists (ub "p=/./x"). split; [reflexivity|]. apply QE. reflexivity.
  - exists (ub "http"), (ub "//h/././x"), [], []. split; [reflexivity|]. split; [exact SC|]. split; [|split; left; reflexivity].
    apply (HP (ub "././x")). apply PE; [reflexivity|]. intros I. cbn in I. intuition discriminate.
Qed.
Print Assumptions C89_unchanged_refuted.

(** ** Examples *)
Definition cdn : bytes := ub "https://cdn.example.com:8080/a%20b/c.png?v=/x?#f%2F".
Lemma cdn_absolute : absolute_uri cdn.
Proof.
  assert (LO : forall c, (97 <=? b2z c) && (b2z c <=? 122) || (48 <=? b2z c) && (b2z c <=? 57) || one_of "-._~" c = true -> unreserved c).
  { intros c H. apply orb_true_iff in H as [H|H].
    - apply orb_true_iff in H as [H|H]; [left; left; lia|right; left; unfold digit; lia].
    - right. right. unfold one_of, contains in H. apply existsb_exists in H as (x & I & E). apply Ascii.eqb_eq in E. subst x. exact I. }
  assert (PC : forall c, unreserved c -> path_char c) by (intros c H; left; left; exact H).
  exists (ub "https"), (ub "//cdn.example.com:8080/a%20b/c.png"), (ub "?v=/x?"), (ub "#f%2F"). split; [reflexivity|]. split; [|split; [|split]].
  - exists "h"%char, (ub "ttps"). split; [reflexivity|]. split; [vm_compute; split; discriminate|]. repeat (constructor; [left; vm_compute; split; discriminate|]). constructor.
  - apply (hp_authority (ub "cdn.example.com") (ub ":8080") (ub "/a%20b/c.png")).
    + left. repeat (constructor; [left; apply LO; reflexivity|]). constructor.
    + right. exists (ub "8080"). split; [reflexivity|]. repeat (constructor; [vm_compute; split; discriminate|]). constructor.
    + left. discriminate.
    + right. eexists. reflexivity.
    + apply enc_char; [right; left; reflexivity|]. apply enc_char; [apply PC, LO; reflexivity|]. apply enc_pct; [left; vm_compute; split; discriminate|left; vm_compute; split; discriminate|].
      apply enc_char; [apply PC, LO; reflexivity|]. apply enc_char; [right; left; reflexivity|]. repeat (apply enc_char; [apply PC, LO; reflexivity|]). apply enc_nil.
  - right. exists (ub "v=/x?"). split; [reflexivity|]. apply enc_chars. constructor; [left; left; apply LO; reflexivity|]. constructor; [left; right; left; unfold sub_delims, chars; cbn; tauto|].
    constructor; [right; left; reflexivity|]. constructor; [left; left; apply LO; reflexivity|]. constructor; [right; right; left; reflexivity|constructor].
  - right. exists (ub "f%2F"). split; [reflexivity|]. split; [discriminate|]. apply enc_char; [left; left; apply LO; reflexivity|].
    apply enc_pct; [left; vm_compute; split; discriminate|right; right; vm_compute; split; discriminate|apply enc_nil].
Qed.
Lemma no_dots (l : bytes) : drop_dots l = l -> no_dot_segment l.
Proof.
  intros H p q E. subst l. assert (G : forall n (p : bytes), (List.length p <= n)%nat -> forall q, (List.length (drop_dots (p ++ slash :: dot :: slash :: q)) < List.length (p ++ slash :: dot :: slash :: q))%nat).
  { assert (LE : forall n (l : bytes), (List.length l <= n)%nat -> (List.length (drop_dots l) <= List.length l)%nat).
    { clear. induction n as [|n IH]; intros [|a [|b [|c l]]] L; try (cbn in *; lia). rewrite drop_dots_cons3. cbn [List.length] in L. destruct (_ && _ && _).
      - cbn [List.length]. specialize (IH l ltac:(lia)). lia.
      - cbn [List.length]. specialize (IH (b :: c :: l) ltac:(cbn [List.length]; lia)). cbn [List.length] in IH. lia. }
    clear H p q. induction n as [|n IH]; intros p L q'.
    - destruct p; [|cbn in L; lia]. cbn [app]. rewrite drop_dots_cons3. rewrite !Ascii.eqb_refl. cbn [andb List.length]. pose proof (LE _ q' (le_n _)). lia.
    - destruct p as [|a p]; [cbn [app]; rewrite drop_dots_cons3, !Ascii.eqb_refl; cbn [andb List.length]; pose proof (LE _ q' (le_n _)); lia|]. cbn [List.length] in L.
      assert (S1 : exists b c t, p ++ slash :: dot :: slash :: q' = b :: c :: t) by (destruct p as [|b [|c p]]; cbn [app]; eauto). destruct S1 as (b & c & t & S1).
      cbn [app]. rewrite S1, drop_dots_cons3. destruct (_ && _ && _).
      + cbn [List.length]. pose proof (LE _ t (le_n _)). lia.
      + specialize (IH p ltac:(lia) q'). rewrite S1 in IH. cbn [List.length] in *. lia. }
  specialize (G _ p (le_n _) q). change ("/"%char) with slash in H. change ("."%char) with dot in H. rewrite H in G. lia.
Qed.
Example C89_example : absolute_uri cdn /\ no_dot_segment cdn /\ sanitizeURI go_url cdn = Some cdn.
Proof. split; [exact cdn_absolute|]. split; [apply no_dots; vm_compute; reflexivity|vm_compute; reflexivity]. Qed.
(** Other texts: the escape of a slash is lost when another byte is not allowed
    in a URI; the scheme is written in lower case; user information, zones and
    relative references. *)
Definition cleaned (s : string) : option bytes := sanitizeURI go_url (ub s).
Example C89_others :
  cleaned "http://h/a%2Fb|c" = Some (ub "http://h/a/b%7Cc") /\ cleaned "http://h/a%2Fb" = Some (ub "http://h/a%2Fb") /\
  cleaned "HTTP://H/x" = Some (ub "http://H/x") /\ cleaned "http://u:p%40@h:80" = Some (ub "http://u:p%40@h:80") /\
  cleaned "http://[fe80::1%25en0]:8/x" = Some (ub "http://[fe80::1%25en0]:8/x") /\ cleaned "http://h:x/" = None /\ cleaned "http://%41/" = None /\
  cleaned "urn:a:b?c" = Some (ub "urn:a:b?c") /\ cleaned "file:///a/b" = Some (ub "file:///a/b") /\ cleaned "file:/a" = Some (ub "file:/a") /\
  cleaned "http://h/#" = Some (ub "http://h/") /\ cleaned "http://h/a?" = Some (ub "http://h/a?") /\ cleaned "//h/x" = Some (ub "//h/x") /\ cleaned "a:b/c%20" = Some (ub "a:b/c%20").
Proof. vm_compute. repeat split. Qed.

(** A document that meets the hypotheses, and what comes back. *)
Definition addressed : Document :=
  set_doc_Images [Some (mkImage [] VNull "logo" (bytes_str cdn) "image/png" None)] odd_saved.
Example C89_hypotheses :
  go_Document sample_exts addressed /\ savable_Document sample_exts addressed /\ Forall plain_buffer (doc_Buffers addressed) /\ Forall located_image (doc_Images addressed) /\ typed addressed = true.
Proof.
  destruct C81_hypotheses as (G & S & B & _ & T & _).
  assert (GA : go_Document sample_exts addressed).
  { unfold go_Document, addressed in *. cbn [set_doc_Images doc_Images doc_Buffers doc_Extensions doc_Extras doc_Accessors doc_Animations doc_Asset doc_BufferViews doc_Cameras
      doc_Materials doc_Meshes doc_Nodes doc_Samplers doc_Scene doc_Scenes doc_Skins doc_Textures]. decompose [and] G. repeat match goal with |- _ /\ _ => split end; try assumption.
    repeat constructor. }
  split; [exact GA|]. split.
  { assert (M : exists t, marshalJSONDoc sample_floats sample_exts true [] [] addressed = Ok t) by (eexists; vm_compute; reflexivity).
    exact (proj1 (proj1 (C77_succeeds_iff sample_floats sample_exts true [] [] addressed sample_float_contract GA ltac:(constructor) ltac:(constructor)) M)). }
  split; [exact B|]. split; [|exact T]. constructor; [|constructor]. right. eexists _, cdn. split; [reflexivity|]. split; [reflexivity|]. split; [exact cdn_absolute|apply no_dots; vm_compute; reflexivity].
Qed.
Example C89_save_example : exists disk' doc,
  save sample_floats sample_exts go_url (str_bytes "out") (str_bytes "out/m.glb") true addressed (mkFaults None [] [] None) [] = (Ok tt, disk') /\
  snd (Open sample_floats sample_exts go_url (str_bytes "out") (str_bytes "out/m.glb") disk' (fun c => mkReader [c] ErrEOF false)) = Ok doc /\
  map (option_map img_URI) (doc_Images doc) = [Some (bytes_str cdn)].
Proof. do 2 eexists. split; [vm_compute; reflexivity|]. split; vm_compute; reflexivity. Qed.
