(** What Encode writes is an asset in the sense of the specification: C92. *)
From Verif Require Import Base BaseFacts Types Doc F64 Base64 Url UrlProofs GoUrl GoUrlProofs SpecText SpecString SpecPath SpecData SpecUrl JsonText JsonTextProofs JsonStringProofs ScanSound Codec DocCodec SpecJson SpecJsonDoc
  CodecProofs CodecInv DocCodecBase DocCodecProofs DocInvBase Marshal SpecMarshal MarshalProofs Stream StreamProofs File SpecFile DecodeProofs EncodeProofs PropsJson PropsFile PropsRoundTrip
  SpecSchema SchemaProofs SchemaAccept PropsSchema SpecMeaning MeaningProofs MeaningUnique PropsMeaning ConformProofs PropsConform SpecAsset AssetProofs PropsAsset PropsUrl.

(** ** Names *)
Lemma spells_dotdot u n : spells u n -> n <> str_bytes ".." -> u <> str_bytes "..".
Proof. intros S N ->. apply N. inversion S as [|c u' n' _ S'|]; subst. inversion S' as [|c' u2 n2 _ S2|]; subst. inversion S2; subst. reflexivity. Qed.
Lemma relative_local uri name : relative uri name -> local_path uri.
Proof.
  intros (u & n & segs & S & FE & NC & FS & E & _). destruct FE as (F1 & F2 & F3 & F4).
  assert (Hs : Forall seg ((u, n) :: segs)) by (constructor; [split; [exact S|unfold file_element; auto]|exact FS]).
  assert (NS : Forall (fun e => ~ In "/"%char e) (u :: map fst segs)).
  { change (u :: map fst segs) with (map fst ((u, n) :: segs)). apply Forall_map. eapply Forall_impl; [|exact Hs]. intros q [Q _] I. apply spells_chars in Q. rewrite Forall_forall in Q.
    destruct (Q _ I) as (_ & _ & R). apply R. cbn. tauto. }
  assert (ND : Forall (fun e => no_dotdot e) (u :: map fst segs)).
  { change (u :: map fst segs) with (map fst ((u, n) :: segs)). apply Forall_map. eapply Forall_impl; [|exact Hs]. intros q [Q (_ & _ & R & _)]. unfold no_dotdot.
    destruct (is_dotdot (fst q)) eqn:D; [|reflexivity]. apply is_dotdot_eq in D. destruct (spells_dotdot _ _ Q R D). }
  assert (U0 : u <> []) by exact (spells_empty u n S F1).
  assert (Q : exists rest, joined (u :: map fst segs) = u ++ rest).
  { destruct (map fst segs) as [|a l]; [exists []; cbn; rewrite app_nil_r; reflexivity|]. rewrite joined_cons by discriminate. eexists. reflexivity. }
  destruct Q as [rest Q]. destruct E as [-> | ->].
  - split; [rewrite Q; destruct u; [contradiction|discriminate]|]. split.
    + intros q E. rewrite Q in E. destruct u as [|c m]; [contradiction|]. injection E as -> _. apply (Forall_inv NS). left. reflexivity.
    + exists (u :: map fst segs). split; [exact NS|]. split; [reflexivity|]. apply walk_no_dots. exact ND.
  - split; [discriminate|]. split; [discriminate|]. exists (str_bytes "." :: u :: map fst segs). split; [constructor; [cbn; intuition discriminate|exact NS]|].
    split; [reflexivity|]. apply walk_no_dots. constructor; [reflexivity|exact ND].
Qed.
Lemma located_accepted uri name : located uri name -> accepted go_url uri name.
Proof.
  intros [[R P]|(A & D & P & ->)].
  - destruct (relative_facts go_url _ _ R) as (S & L & V & ND). unfold accepted. split.
    { destruct (String.prefix octet_prefix uri) eqn:Q; [|reflexivity]. destruct (data_prefix _ _ Q) as [t T]. destruct (ND t T). }
    split; [apply validate_local; exact (relative_local _ _ R)|]. split; [exact S|]. split; [exact (proj1 L)|]. split; [exact P|exact V].
  - assert (V : validateBufferURI go_url (str_bytes uri) = Ok tt).
    { destruct (Parse_kept _ A) as (u & Pu & Nu & _). unfold validateBufferURI. rewrite url_parse_go, Pu. cbn [bind]. destruct (u_Scheme u); [contradiction|reflexivity]. }
    unfold accepted. rewrite bytes_str_bytes. split; [exact P|]. split; [exact V|]. split; [exact (sanitize_kept _ A D)|]. split; [|split; [exact P|exact V]].
    intros E. rewrite E in A. destruct A as (s & h & q & f & A & _). destruct s; discriminate A.
Qed.
Lemma places_stored l files : places l files -> Forall (stored go_url) l.
Proof.
  induction 1 as [|b l files B N U _ IH|b l name files B N U _ IH]; constructor; try exact IH; cbn [stored]; (split; [exact B|split; [exact N|]]).
  - destruct U as [U|U]; [left; exact U|right; left; exact U].
  - right. right. exists name. exact (located_accepted _ _ U).
Qed.
Lemma places_outs l files : places l files -> outs go_url l = files.
Proof.
  induction 1 as [|b l files B N U _ IH|b l name files B N U _ IH]; [reflexivity|unfold outs in *; cbn [flat_map]; rewrite IH..].
  - cbn [out_of]. unfold skipped, buf_IsEmbeddedResource. destruct U as [U|U]; rewrite U; [rewrite orb_true_r; reflexivity|].
    change mimetypeApplicationOctet with octet_prefix. change (String.prefix octet_prefix (data_uri "application/octet-stream" (buf_Data b))) with true. rewrite orb_true_r. reflexivity.
  - cbn [out_of]. destruct (located_accepted _ _ U) as (A1 & _ & A3 & A4 & _). unfold skipped, buf_IsEmbeddedResource. change mimetypeApplicationOctet with octet_prefix.
    rewrite A1, A3. replace (is_nil (buf_Data b)) with false by (destruct (buf_Data b); [congruence|reflexivity]).
    replace (str_empty (buf_URI b)) with false; [reflexivity|]. destruct (buf_URI b); [|reflexivity]. exfalso. injection A3 as <-. apply A4. reflexivity.
Qed.

(** ** Contents *)
Lemma glb_container text bin out : glb_file text bin out ->
  exists bin', container_of text bin' out /\
    match bin with Some data => exists k, (k < 4)%nat /\ (zlen data + Z.of_nat k) mod 4 = 0 /\ bin' = Some (data ++ repeat (z2b 0) k) | None => bin' = None end.
Proof.
  intros (jc & bc & (k & K1 & K2 & ->) & B & E & L). destruct bin as [data|].
  - destruct B as (kb & B1 & B2 & ->). exists (Some (data ++ repeat (z2b 0) kb)). split; [|exists kb; auto].
    apply (co_glb _ k _ [] _ K1 K2 L). rewrite E at 1. rewrite zlen_app. replace (zlen (repeat (z2b 0) kb)) with (Z.of_nat kb) by (unfold zlen; rewrite repeat_length; reflexivity).
    rewrite <- !app_assoc, app_nil_r. reflexivity.
  - subst bc. exists None. split; [|reflexivity]. apply (co_glb _ k _ [] _ K1 K2 L). rewrite E at 1. rewrite <- !app_assoc. reflexivity.
Qed.
Lemma places_resources X a rf bin l files : places l files -> (forall m c, In (m, c) files -> rf m = (c, None)) ->
  forall i, (a = true -> i = 0%nat -> match l with Some b :: _ => buf_URI b = ""%string -> exists rest, bin = Some (buf_Data b ++ rest) | _ => True end) ->
  exists bufs, resources rf bin i (map (option_map (norm_Buffer X)) (map (fun p => option_map (embedded_buffer a (fst p)) (snd p)) (combine (seq i (List.length l)) l))) (map fst files) bufs /\
    map (option_map buf_Data) bufs = map (option_map buf_Data) l.
Proof.
  induction 1 as [|b l files B N U P IH|b l name files B N U P IH]; intros RF i Hb.
  - exists []. split; [constructor|reflexivity].
  - destruct (IH RF (S i) ltac:(discriminate)) as (bufs & R & M). cbn [List.length seq combine map fst snd option_map]. set (e := norm_Buffer X (embedded_buffer a i b)).
    assert (EL : buf_ByteLength e = buf_ByteLength b). { unfold e, embedded_buffer. destruct (buf_Data b), (buf_URI b); try reflexivity. destruct (a && (i =? 0)%nat); reflexivity. }
    assert (Q : exists uri, resource rf bin i e [] uri (buf_Data b)).
    { destruct U as [U|U].
      - destruct (a && (i =? 0)%nat) eqn:AI.
        + apply andb_prop in AI. destruct AI as [-> AI]. apply Nat.eqb_eq in AI. subst i. destruct (Hb eq_refl eq_refl U) as [rest ->]. exists ""%string. apply (rs_chunk _ _ _ _ rest); [|reflexivity].
          unfold e, embedded_buffer. rewrite U. destruct (buf_Data b); exact U.
        + exists (buf_URI e). apply rs_inline. unfold e, embedded_buffer. rewrite U, AI. destruct (buf_Data b) as [|c t] eqn:ED; [congruence|]. reflexivity.
      - exists (buf_URI e). apply rs_inline. unfold e, embedded_buffer. destruct (buf_Data b) as [|c t] eqn:ED; [congruence|]. destruct (buf_URI b) eqn:EU; [discriminate U|]. rewrite <- EU in U. exact U. }
    destruct Q as [uri Q]. eexists. split; [exact (rl_cons _ _ _ _ _ _ _ _ _ _ Q ltac:(congruence) R)|]. cbn [map option_map buf_Data]. rewrite M. reflexivity.
  - destruct (IH ltac:(intros m c I; apply RF; right; exact I) (S i) ltac:(discriminate)) as (bufs & R & M). cbn [List.length seq combine map fst snd option_map]. set (e := norm_Buffer X (embedded_buffer a i b)).
    assert (NE : buf_URI b <> ""%string).
    { destruct (located_accepted _ _ U) as (_ & _ & A3 & A4 & _). intros E. rewrite E in A3. injection A3 as <-. apply A4. reflexivity. }
    assert (Ee : e = norm_Buffer X b). { unfold e, embedded_buffer. destruct (buf_Data b), (buf_URI b); try reflexivity. congruence. }
    assert (Q : exists uri, resource rf bin i e [name] uri (buf_Data b)).
    { rewrite Ee. pose proof (RF name (buf_Data b) (or_introl eq_refl)) as RN. rewrite <- (app_nil_r (buf_Data b)) in RN. destruct U as [[U1 U2]|(U1 & U2 & U3 & U4)].
      - exists (bytes_str name). exact (rs_file _ _ _ (norm_Buffer X b) name (buf_Data b) [] U1 U2 RN).
      - exists (buf_URI b). subst name. exact (rs_far _ _ _ (norm_Buffer X b) (buf_Data b) [] U1 U2 U3 RN). }
    destruct Q as [uri Q]. eexists. split; [refine (rl_cons _ _ _ _ _ _ _ _ _ _ Q _ R); rewrite Ee; cbn [norm_Buffer buf_ByteLength]; congruence|]. cbn [map option_map buf_Data]. rewrite M. reflexivity.
Qed.

Lemma written_tree F X n asBinary d m : float_contract F -> wf_Document X n d -> Z.of_nat n + 7 <= 10000 -> ready d -> wf_json (n + 7) (JObj m) ->
  marshal_tree F X asBinary d = Ok (JObj m) -> conforms (fun s => json_number (str_bytes s)) (fun _ _ => False) s_gltf (JObj m).
Proof.
  intros HF W D R Wm E. destruct (C62_schema F X n asBinary [] [] d HF W R (Forall_nil _) (Forall_nil _)) as (text & v & M & T & Wv & C).
  unfold marshalJSONDoc in M. rewrite E in M. injection M as <-.
  pose proof (printed_text [] [] (JObj m) (Forall_nil _) (Forall_nil _)) as T'.
  change (text_of (JObj m) (print_compact (JObj m))) in T'.
  assert (K : container v) by (inversion C; exact I).
  assert (D' : Z.of_nat (n + 7) <= max_depth) by (unfold max_depth; lia).
  pose proof (scan_container _ _ _ [] T' I Wm D') as S1. rewrite (scan_container _ _ _ [] T K Wv D') in S1. injection S1 as ->. exact C.
Qed.
Lemma written_means F X n d m : wf_json n (JObj m) -> conforms (fun s => json_number (str_bytes s)) (fun _ _ => False) s_gltf (JObj m) ->
  dec (c_Document F X) zero_Document (JObj m) = Ok d -> m_gltf F X d (JObj m).
Proof.
  intros W C D. apply (rd_Document F X n _ _ W); [|exact D].
  apply (conforms_mono (fun s => json_number (str_bytes s)) (fun _ => True) (fun _ _ => False) unrelated); [tauto|intros l k []|exact C].
Qed.
Lemma written_parts F X n asBinary prefix indent d : float_contract F -> wf_Document X n d -> Z.of_nat n + 7 <= 10000 -> ready d -> ws prefix -> ws indent ->
  exists text v, marshalJSONDoc F X asBinary prefix indent d = Ok text /\ text_of v text /\ wf_json (n + 7) v /\
    conforms (fun s => json_number (str_bytes s)) (fun _ _ => False) s_gltf v /\ m_gltf F X (norm_Document X (embedded asBinary d)) v.
Proof.
  intros HF W D R Hp Hi. destruct (marshal_tree_spec F X n asBinary d HF W (ready_buffers d R)) as (m & E & Wm & Dm).
  pose proof (written_tree F X n asBinary d m HF W D R Wm E) as C.
  exists (printed prefix indent (JObj m)), (JObj m). split; [unfold marshalJSONDoc; rewrite E; reflexivity|].
  split; [apply printed_text; assumption|]. split; [exact Wm|]. split; [exact C|]. exact (written_means F X _ _ m Wm C Dm).
Qed.
Lemma written_chunk asBinary text d files out : places (doc_Buffers d) files ->
  (asBinary = false -> out = text) -> (asBinary = true -> glb_file text (option_map buf_Data (bin_buffer d)) out) ->
  exists bin, container_of text bin out /\ (asBinary = false -> bin = None) /\ chunk_fits bin (embedded_buffers asBinary (doc_Buffers d)) /\
    (asBinary = true -> match doc_Buffers d with Some b :: _ => buf_URI b = ""%string -> exists rest, bin = Some (buf_Data b ++ rest) | _ => True end).
Proof.
  intros P O1 O2. unfold bin_buffer in O2. revert P O2. generalize (doc_Buffers d). clear d. intros bl P O2. destruct asBinary.
  - destruct (glb_container _ _ _ (O2 eq_refl)) as (bin & K & B). exists bin. split; [exact K|]. split; [discriminate|]. clear K O1 O2.
    unfold embedded_buffers. destruct P as [|b l fl L N _ _|b l name fl L N _ _]; cbn [List.length seq combine map fst snd option_map] in *.
    + subst bin. split; [discriminate|trivial].
    + destruct (buf_URI b) eqn:EU; cbn [str_empty option_map] in B.
      * destruct B as (k & K1 & K2 & ->). split; [|intros _ _; eexists; reflexivity]. intros chunk [= <-]. exists b. eexists. split.
        { unfold embedded_buffer. rewrite EU. destruct (buf_Data b); reflexivity. }
        split; [exact EU|]. rewrite L, zlen_app. replace (zlen (repeat (z2b 0) k)) with (Z.of_nat k) by (unfold zlen; rewrite repeat_length; reflexivity). lia.
      * cbn in B. subst bin. split; [discriminate|]. intros _ Q. discriminate Q.
    + destruct (buf_URI b) eqn:EU; cbn [str_empty option_map] in B.
      * destruct B as (k & K1 & K2 & ->). split; [|intros _ _; eexists; reflexivity]. intros chunk [= <-]. exists b. eexists. split.
        { unfold embedded_buffer. rewrite EU. destruct (buf_Data b); reflexivity. }
        split; [exact EU|]. rewrite L, zlen_app. replace (zlen (repeat (z2b 0) k)) with (Z.of_nat k) by (unfold zlen; rewrite repeat_length; reflexivity). lia.
      * cbn in B. subst bin. split; [discriminate|]. intros _ Q. discriminate Q.
  - exists None. rewrite (O1 eq_refl). split; [|split; [reflexivity|split; [discriminate|discriminate]]].
    rewrite <- (app_nil_r text) at 2. exact (co_text text [] [] (Forall_nil _)).
Qed.
Lemma ready_images d : ready d -> Forall (fun o => o <> None) (doc_Images d).
Proof. intros (_ & _ & _ & _ & _ & RI & _). eapply Forall_impl; [|exact RI]. intros [b|] Q; [discriminate|destruct Q]. Qed.

(** What Encode writes, text or binary, is an asset: the file is a container
    with a JSON that conforms to the schema and says what the document says,
    the BIN chunk fits the first buffer, and the bytes of every buffer are where
    its URI says they are. *)
Theorem C92_written_partial F X n asBinary prefix indent d w fs files :
  float_contract F -> wf_Document X n d -> Z.of_nat n + 7 <= 10000 -> ready d -> ws prefix -> ws indent -> no_failures w fs ->
  places (doc_Buffers d) files -> NoDup (map fst files) ->
  (forall text, marshalJSONDoc F X asBinary prefix indent d = Ok text -> asBinary = true -> glb_size text d < 2 ^ 32) ->
  exists w' fs' text v bin bufs, Encode F X go_url asBinary prefix indent d w (Some fs) = (Ok tt, w', Some fs') /\
    text_of v text /\ wf_json (n + 7) v /\ container_of text bin (wr_out w') /\ (asBinary = false -> bin = None) /\ chunk_fits bin (doc_Buffers (embedded asBinary d)) /\
    conforms (fun s => json_number (str_bytes s)) (fun _ _ => False) s_gltf v /\ m_gltf F X (norm_Document X (embedded asBinary d)) v /\
    cf_files fs' = rev files ++ cf_files fs /\
    resources (file_reader (cf_files fs')) bin 0 (doc_Buffers (norm_Document X (embedded asBinary d))) (map fst files) bufs /\
    map (option_map buf_Data) bufs = map (option_map buf_Data) (doc_Buffers d).
Proof.
  intros HF W D R Hp Hi NF P ND SZ.
  destruct (written_parts F X n asBinary prefix indent d HF W D R Hp Hi) as (text & v & M & T & Wv & C & G).
  specialize (SZ text M). unfold glb_size in SZ. rewrite <- bin_glb in SZ.
  destruct (encode_decode F X go_url n asBinary prefix indent d w fs text HF W D Hp Hi (places_stored _ _ P) (ready_images d R) NF M SZ) as (w' & fs' & En & Ef & _ & O1 & O2 & _).
  rewrite (places_outs _ _ P) in Ef.
  assert (RF : forall name c, In (name, c) files -> file_reader (cf_files fs') name = (c, None)).
  { intros name c I. unfold file_reader. rewrite Ef, (disk_get_rev name c _ _ ND I). reflexivity. }
  destruct (written_chunk asBinary text d files (wr_out w') P O1 O2) as (bin & K1 & K2 & K3 & K4).
  destruct (places_resources X asBinary (file_reader (cf_files fs')) bin _ _ P RF 0) as (bufs & RS & DS); [intros A _; exact (K4 A)|].
  exists w', fs', text, v, bin, bufs. split; [exact En|]. split; [exact T|]. split; [exact Wv|]. split; [exact K1|]. split; [exact K2|]. split; [exact K3|]. split; [exact C|]. split; [exact G|].
  split; [exact Ef|]. split; [exact RS|exact DS].
Qed.
Print Assumptions C92_written_partial.

(** Not of every document Encode accepts: the data may be shorter than the
    length says, and two URIs may stand for one file. *)
Definition two_files (u1 : string) (l1 : Z) (d1 : bytes) (u2 : string) (l2 : Z) (d2 : bytes) : Document :=
  set_doc_Buffers [Some (mkBuffer [] VNull "" u1 l1 d1); Some (mkBuffer [] VNull "" u2 l2 d2)] zero_Document.
Lemma file_only rf bin i b name c names uri data : sanitizeURI go_url (str_bytes (buf_URI b)) = Some name ->
  buf_URI b <> ""%string -> (forall x, buf_URI b <> data_uri "application/octet-stream" x) ->
  rf name = (c, None) -> resource rf bin i b names uri data -> exists rest, c = data ++ rest.
Proof.
  intros S NE NI RN R. destruct R as [b data rest U|i b data U|i b nm data rest RL _ Q|i b data rest A D _ Q].
  - contradiction.
  - destruct (NI _ U).
  - destruct (relative_facts go_url _ _ RL) as (S' & _). rewrite S in S'. injection S' as <-. exists rest. congruence.
  - rewrite (sanitize_kept _ A D) in S. injection S as <-. exists rest. congruence.
Qed.
Theorem C92_written_refuted :
  (exists F X d w' fs', float_contract F /\ ready d /\
    Encode F X go_url false [] [] d (mkWriter [] []) (Some no_files) = (Ok tt, w', Some fs') /\
    forall bin names bufs, ~ resources (file_reader (cf_files fs')) bin 0 (doc_Buffers d) names bufs) /\
  (exists F X d w' fs', float_contract F /\ ready d /\ Forall (fun o => match o with Some b => buf_ByteLength b = zlen (buf_Data b) | None => False end) (doc_Buffers d) /\
    Encode F X go_url false [] [] d (mkWriter [] []) (Some no_files) = (Ok tt, w', Some fs') /\
    forall bin names bufs, resources (file_reader (cf_files fs')) bin 0 (doc_Buffers d) names bufs ->
      map (option_map buf_Data) bufs <> map (option_map buf_Data) (doc_Buffers d)).
Proof.
  split.
  - exists sample_floats, sample_exts, (two_files "a.bin" 5 (str_bytes "abc") "b.bin" 1 (str_bytes "b")). do 2 eexists. split; [exact sample_float_contract|]. split; [|split; [vm_compute; reflexivity|]].
    + unfold ready, r_buffer. cbn. repeat first [exact I|apply Forall_nil|apply Forall_cons|(cbn; lia)|apply conj].
    + intros bin names bufs R. inversion R as [|? b l nm uri data ns r RS L RL]; subst. cbn [buf_ByteLength] in L.
      assert (Q : exists rest, str_bytes "abc" = data ++ rest).
      { eapply (file_only _ _ _ _ (str_bytes "a.bin")); [| | | |exact RS]; [vm_compute; reflexivity|discriminate|discriminate|vm_compute; reflexivity]. }
      destruct Q as [rest E].
      apply (f_equal zlen) in E. rewrite zlen_app, L in E. pose proof (zlen_nonneg rest). change (zlen (str_bytes "abc")) with 3 in E. lia.
  - exists sample_floats, sample_exts, (two_files "a.bin" 1 (str_bytes "a") "./%61.bin" 1 (str_bytes "b")). do 2 eexists. split; [exact sample_float_contract|]. split; [|split; [|split; [vm_compute; reflexivity|]]].
    + unfold ready, r_buffer. cbn. repeat first [exact I|apply Forall_nil|apply Forall_cons|(cbn; lia)|apply conj].
    + repeat constructor.
    + intros bin names bufs R. inversion R as [|? b l nm uri data ns r RS L RL]; subst. cbn [buf_ByteLength] in L.
      assert (Q : exists rest, str_bytes "b" = data ++ rest).
      { eapply (file_only _ _ _ _ (str_bytes "a.bin")); [| | | |exact RS]; [vm_compute; reflexivity|discriminate|discriminate|vm_compute; reflexivity]. }
      destruct Q as [rest E].
      destruct data as [|c data]; [discriminate L|]. injection E as <- _. discriminate.
Qed.
Print Assumptions C92_written_refuted.

(** The hypotheses: a buffer for the BIN chunk, one in the JSON, one in a file
    whose name has a space and one on a server. *)
Definition four_places : Document :=
  set_doc_Buffers [Some (mkBuffer [] VNull "" "" 3 (str_bytes "abc"));
                   Some (mkBuffer [] VNull "" "data:application/octet-stream;base64,aGk=" 2 (str_bytes "hi"));
                   Some (mkBuffer [] VNull "" "./my%20files/%c3%A9.bin" 4 (str_bytes "wxyz"));
                   Some (mkBuffer [] VNull "" (bytes_str cdn) 1 (str_bytes "q"))] zero_Document.
Definition four_files : list (bytes * bytes) := [(full_name, str_bytes "wxyz"); (cdn, str_bytes "q")].
Example C92_example :
  wf_Document sample_exts 0 four_places /\ ready four_places /\ places (doc_Buffers four_places) four_files /\ NoDup (map fst four_files) /\
  exists w' fs' text v bin bufs, Encode sample_floats sample_exts go_url true [] [] four_places (mkWriter [] []) (Some no_files) = (Ok tt, w', Some fs') /\
    text_of v text /\ container_of text bin (wr_out w') /\ bin <> None /\
    conforms (fun s => json_number (str_bytes s)) (fun _ _ => False) s_gltf v /\
    resources (file_reader (cf_files fs')) bin 0 (doc_Buffers (norm_Document sample_exts (embedded true four_places))) [full_name; cdn] bufs /\
    map (option_map buf_Data) bufs = [Some (str_bytes "abc"); Some (str_bytes "hi"); Some (str_bytes "wxyz"); Some (str_bytes "q")].
Proof.
  assert (W : wf_Document sample_exts 0 four_places).
  { unfold wf_Document, wf_Buffer, wf_Asset. cbn.
    assert (U : forall s, forallb (fun b => b2z b <? 128) (str_bytes s) = true -> utf8_str s) by exact ascii_utf8.
    repeat first [ exact I | apply wf_ext_nil | apply wa_null | apply Forall_nil | apply Forall_cons | (apply U; reflexivity) | reflexivity
      | (unfold in_i64, range; cbn -[Z.pow Z.opp]; rewrite ?p63; lia) | apply conj ]. }
  assert (R : ready four_places).
  { unfold ready, r_buffer. cbn. repeat first [exact I|apply Forall_nil|apply Forall_cons|(cbn; lia)|apply conj]. }
  assert (P : places (doc_Buffers four_places) four_files).
  { unfold four_places, four_files. cbn [doc_Buffers set_doc_Buffers]. apply pl_inside; [reflexivity|discriminate|left; reflexivity|].
    apply pl_inside; [reflexivity|discriminate|right; vm_compute; reflexivity|].
    apply (pl_file (mkBuffer [] VNull "" "./my%20files/%c3%A9.bin" 4 (str_bytes "wxyz"))); [reflexivity|discriminate|left; split; [exact (proj1 full_relative)|vm_compute; reflexivity]|].
    apply (pl_file (mkBuffer [] VNull "" (bytes_str cdn) 1 (str_bytes "q"))); [reflexivity|discriminate| |constructor].
    right. cbn [buf_URI]. rewrite str_bytes_bytes. split; [exact cdn_absolute|]. split; [exact (proj1 (proj2 C89_example))|]. split; vm_compute; reflexivity. }
  assert (ND : NoDup (map fst four_files)) by (repeat constructor; cbn; intuition discriminate).
  split; [exact W|]. split; [exact R|]. split; [exact P|]. split; [exact ND|].
  destruct (C92_written_partial sample_floats sample_exts 0 true [] [] four_places (mkWriter [] []) no_files four_files sample_float_contract W ltac:(cbn; lia) R (Forall_nil _) (Forall_nil _)
    ltac:(split; [constructor|split; [reflexivity|constructor]]) P ND) as (w' & fs' & text & v & bin & bufs & E & T & _ & K & _ & CF & C & _ & _ & RS & DS).
  { assert (B : match marshalJSONDoc sample_floats sample_exts true [] [] four_places with Ok t => glb_size t four_places <? 2 ^ 32 | _ => false end = true) by (vm_compute; reflexivity).
    intros text E _. rewrite E in B. apply Z.ltb_lt. exact B. }
  exists w', fs', text, v, bin, bufs. split; [exact E|]. split; [exact T|]. split; [exact K|]. split; [|split; [exact C|split; [exact RS|exact DS]]].
  intros ->. inversion RS as [|? b l nm uri data ns r RS1 L RL]; subst. inversion RS1 as [? ? ? ? Q|? ? ? Q|? ? ? ? ? Q|? ? ? ? Q]; subst; try discriminate Q.
  - destruct (relative_facts go_url _ _ Q) as (S & (N & _) & _). injection S as <-. apply N. reflexivity.
  - destruct Q as (s & h & q & f & Q & _). destruct s; discriminate Q.
Qed.
