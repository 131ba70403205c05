(** Reading back what was written: C28, C30 - C32, C55, C58. *)
From Coq Require Import FinFun.
From Verif Require Import Base BaseFacts Types Doc F64 Base64 Url UrlProofs SpecText SpecPath SpecData JsonText JsonTextProofs Codec SpecJson CodecProofs CodecInv
  DocCodec SpecJsonDoc DocCodecBase DocInvBase DocCodecInv Marshal SpecMarshal MarshalProofs PropsUri PropsJson Stream StreamProofs File SpecFile DecodeProofs EncodeProofs PlainProofs PropsFile.

(** ** Plain documents *)
Lemma plain_accepted U p : plain_name p -> accepted U (bytes_str p) p.
Proof.
  intros H. unfold accepted. rewrite str_bytes_bytes. sp.
  - apply plain_not_data; [exact H|vm_compute; tauto].
  - exact (plain_validate p H U).
  - exact (plain_sanitize p H U).
  - exact (plain_nonempty p H).
  - apply plain_not_data; [exact H|vm_compute; tauto].
  - exact (plain_validate p H U).
Qed.
Lemma plain_clean U u : plain_uri u -> clean_uri U u = u.
Proof. intros (p & H & ->). unfold clean_uri. rewrite str_bytes_bytes, (plain_sanitize p H U). reflexivity. Qed.
Lemma plain_stored U l : Forall plain_buffer l -> Forall (stored U) l.
Proof.
  intros H. eapply Forall_impl; [|exact H]. intros [b|] Hb; [|exact Hb]. destruct Hb as (H1 & H2 & H3). split; [exact H1|]. split; [exact H2|].
  destruct H3 as [H3|[H3|(p & P & H3)]]; [left; exact H3|right; left; exact H3|]. right. right. exists p. rewrite H3. exact (plain_accepted U p P).
Qed.
Lemma plain_images l : Forall plain_image l -> Forall (fun o => o <> None) l.
Proof. intros H. eapply Forall_impl; [|exact H]. intros [im|] Hi; [discriminate|destruct Hi]. Qed.

Lemma plain_outs U l : Forall plain_buffer l -> outs U l = buffer_files l.
Proof.
  induction 1 as [|o l Ho _ IH]; [reflexivity|]. unfold outs, buffer_files in *. cbn [flat_map]. rewrite IH. f_equal.
  destruct o as [b|]; [|destruct Ho]. destruct Ho as (_ & N & S). cbn [out_of]. unfold skipped, is_file, buf_IsEmbeddedResource.
  change mimetypeApplicationOctet with octet_prefix. replace (is_nil (buf_Data b)) with false by (destruct (buf_Data b); [congruence|reflexivity]).
  replace (str_empty (buf_URI b)) with (String.eqb (buf_URI b) "") by (destruct (buf_URI b); reflexivity). cbn [orb].
  destruct S as [S|[S|(p & P & S)]]; rewrite S; [reflexivity|reflexivity|].
  destruct (plain_accepted U p P) as (A1 & _ & A3 & A4 & _). rewrite A1. destruct (String.eqb (bytes_str p) "") eqn:E.
  { apply String.eqb_eq in E. destruct p; [congruence|discriminate]. }
  cbn [negb andb orb]. rewrite A3, str_bytes_bytes. reflexivity.
Qed.
Lemma bin_glb d : bin_buffer d = glb_buffer d.
Proof. unfold bin_buffer, glb_buffer. destruct (doc_Buffers d) as [|[b|] l]; reflexivity. Qed.

Lemma restored_plain X U a d : Forall plain_buffer (doc_Buffers d) -> Forall plain_image (doc_Images d) ->
  restored X (clean_uri U) a d = restored X (fun u => u) a d.
Proof.
  intros HB HI. unfold restored.
  assert (E1 : restored_buffers X (clean_uri U) a (doc_Buffers d) = restored_buffers X (fun u => u) a (doc_Buffers d)).
  { unfold restored_buffers. apply map_ext_in. intros [i o] I. apply in_combine_r in I. cbn [fst snd]. rewrite Forall_forall in HB. specialize (HB o I).
    destruct o as [b|]; [|reflexivity]. cbn [option_map]. f_equal. unfold restored_buffer. destruct (String.prefix octet_prefix (buf_URI (embedded_buffer a i b))) eqn:P; [reflexivity|].
    f_equal. destruct HB as (_ & N & S). unfold embedded_buffer in *. destruct (buf_Data b); [congruence|]. destruct (buf_URI b) as [|c u] eqn:Eu.
    - destruct (a && (i =? 0)%nat); [rewrite Eu; reflexivity|discriminate].
    - rewrite Eu in *. destruct S as [S|[S|S]]; [discriminate| |exact (plain_clean U _ S)]. rewrite S in P. discriminate. }
  rewrite E1.
  assert (E2 : map (option_map (restored_image (clean_uri U))) (doc_Images (norm_Document X d)) = map (option_map (restored_image (fun u => u))) (doc_Images (norm_Document X d))).
  { apply map_ext_in. intros o I. cbn [norm_Document doc_Images] in I. apply in_map_iff in I. destruct I as (o' & <- & I). rewrite Forall_forall in HI. specialize (HI o' I).
    destruct o' as [im|]; [|reflexivity]. cbn [option_map]. f_equal. unfold restored_image. cbn [norm_Image img_URI].
    destruct (String.prefix "data:image/png;base64" (img_URI im)) eqn:P1; [reflexivity|]. destruct (String.prefix "data:image/jpeg;base64" (img_URI im)) eqn:P2; [reflexivity|]. cbn [orb].
    f_equal. destruct HI as [HI|[HI|[HI|HI]]]; [rewrite HI; reflexivity|exact (plain_clean U _ HI)|congruence|congruence]. }
  rewrite E2. reflexivity.
Qed.

(** The general form, for plain documents. *)
Definition storable_doc (X : ext_lib) (n : nat) (d : Document) : Prop :=
  wf_Document X n d /\ Z.of_nat n + 7 <= 10000 /\
  Forall plain_buffer (doc_Buffers d) /\ Forall plain_image (doc_Images d).
Definition no_failures (w : writer) (fs : createfs) : Prop :=
  Forall (fun o => o = None) (wr_script w) /\ wr_out w = [] /\ Forall (fun o => o = Creates None None) (cf_script fs).
Lemma round_trip F X U n asBinary prefix indent d w fs :
  float_contract F -> storable_doc X n d -> ws prefix -> ws indent -> no_failures w fs ->
  (forall text, marshalJSONDoc F X asBinary prefix indent d = Ok text -> asBinary = true -> glb_size text d < 2 ^ 32) ->
  exists text w' fs', marshalJSONDoc F X asBinary prefix indent d = Ok text /\
    Encode F X U asBinary prefix indent d w (Some fs) = (Ok tt, w', Some fs') /\
    cf_files fs' = rev (buffer_files (doc_Buffers d)) ++ cf_files fs /\
    cf_created fs' = rev (map fst (buffer_files (doc_Buffers d))) ++ cf_created fs /\
    (asBinary = false -> wr_out w' = text) /\
    (asBinary = true -> glb_file text (option_map buf_Data (glb_buffer d)) (wr_out w')) /\
    forall rf r, (forall m c, In (m, c) (buffer_files (doc_Buffers d)) -> rf m = (c, None)) ->
      reads_to_eof r -> stream r = wr_out w' -> (asBinary = false \/ r_aligned r \/ zlen text mod 4 = 0 \/ glb_buffer d = None) ->
      Decode F X U (Some rf) zero_Document (NewReader r) =
      (map fst (buffer_files (doc_Buffers d)), Ok (restored X (fun u => u) asBinary d)).
Proof.
  intros HF (W & D & HB & HI) Hp Hi NF SZ. pose proof (plain_stored U _ HB) as SB.
  destruct (marshal_tree_spec F X n asBinary d HF W (stored_some U _ SB)) as (m & E & _).
  assert (M : marshalJSONDoc F X asBinary prefix indent d = Ok (printed prefix indent (JObj m))) by (unfold marshalJSONDoc; rewrite E; reflexivity).
  exists (printed prefix indent (JObj m)). specialize (SZ _ M). unfold glb_size in SZ. rewrite <- bin_glb in SZ.
  destruct (encode_decode F X U n asBinary prefix indent d w fs _ HF W D Hp Hi SB (plain_images _ HI) NF M SZ) as (w' & fs' & R).
  rewrite (plain_outs U _ HB), (restored_plain X U asBinary d HB HI), bin_glb in R. exists w', fs'. split; [exact M|exact R].
Qed.

(** ** C30 *)
Theorem C30_glb_roundtrip_partial F X U n prefix indent d w fs :
  float_contract F -> storable_doc X n d -> ws prefix -> ws indent -> no_failures w fs ->
  (forall text, marshalJSONDoc F X true prefix indent d = Ok text -> glb_size text d < 2 ^ 32) ->
  exists w' fs', Encode F X U true prefix indent d w (Some fs) = (Ok tt, w', Some fs') /\
    forall rf r, (forall name data, In (name, data) (buffer_files (doc_Buffers d)) -> rf name = (data, None)) ->
      reads_to_eof r -> stream r = wr_out w' ->
      (* the reader hands out multiples of four bytes *)
      Forall (fun p => zlen p mod 4 = 0) (rd_pieces r) ->
      snd (Decode F X U (Some rf) zero_Document (NewReader r)) = Ok (restored X (fun u => u) true d).
Proof.
  intros HF SD Hp Hi NF SZ. destruct (round_trip F X U n true prefix indent d w fs HF SD Hp Hi NF (fun t H _ => SZ t H)) as (text & w' & fs' & _ & E & _ & _ & _ & _ & R).
  exists w', fs'. split; [exact E|]. intros rf r HR HE ES AL. rewrite (R rf r HR HE ES); [reflexivity|]. right. left. exact AL.
Qed.
Print Assumptions C30_glb_roundtrip_partial.
(** The same without the alignment of the reader: when there is no binary
    chunk, or nothing to pad. *)
Theorem C30_glb_unpadded_partial F X U n prefix indent d w fs :
  float_contract F -> storable_doc X n d -> ws prefix -> ws indent -> no_failures w fs ->
  (forall text, marshalJSONDoc F X true prefix indent d = Ok text ->
     glb_size text d < 2 ^ 32 /\ (zlen text mod 4 = 0 \/ glb_buffer d = None)) ->
  exists w' fs', Encode F X U true prefix indent d w (Some fs) = (Ok tt, w', Some fs') /\
    forall rf r, (forall name data, In (name, data) (buffer_files (doc_Buffers d)) -> rf name = (data, None)) ->
      reads_to_eof r -> stream r = wr_out w' ->
      snd (Decode F X U (Some rf) zero_Document (NewReader r)) = Ok (restored X (fun u => u) true d).
Proof.
  intros HF SD Hp Hi NF SZ. destruct (round_trip F X U n true prefix indent d w fs HF SD Hp Hi NF (fun t H _ => proj1 (SZ t H))) as (text & w' & fs' & M & E & _ & _ & _ & _ & R).
  exists w', fs'. split; [exact E|]. intros rf r HR HE ES. rewrite (R rf r HR HE ES); [reflexivity|]. right. right. exact (proj2 (SZ text M)).
Qed.
Print Assumptions C30_glb_unpadded_partial.

(** Counterexamples: a reader that stops after the closing brace makes the
    padding look like the next chunk; a buffer without data is written and not
    read. *)
Definition simple_doc (used : list string) (bufs : list (option Buffer)) : Document :=
  set_doc_ExtensionsUsed used (set_doc_Buffers bufs zero_Document).
Lemma simple_wf X n used bufs : Forall utf8_str used -> Forall (opt (wf_Buffer X n)) bufs -> wf_Document X n (simple_doc used bufs).
Proof.
  intros H1 H2. assert (Uf : forall s, forallb (fun b => b2z b <? 128) (str_bytes s) = true -> utf8_str s) by exact ascii_utf8.
  unfold wf_Document, simple_doc. cbn. split; [apply wf_ext_nil|]. split; [apply wa_null|]. split; [exact H1|]. split; [constructor|]. split; [constructor|]. split; [constructor|].
  split. { unfold wf_Asset. cbn. split; [apply wf_ext_nil|]. split; [apply wa_null|]. repeat (split; [apply Uf; reflexivity|]). apply Uf; reflexivity. }
  split; [exact H2|]. do 7 (split; [constructor|]). split; [exact I|]. split; [constructor|]. split; constructor.
Qed.
Definition simple_buffer (uri : string) (data : bytes) : Buffer := mkBuffer [] VNull "" uri (zlen data) data.
Lemma simple_buffer_wf X n uri data : utf8_str uri -> zlen data < 2 ^ 32 -> wf_Buffer X n (simple_buffer uri data).
Proof.
  intros H1 H2. unfold wf_Buffer, simple_buffer. cbn [buf_Extensions buf_Extras buf_Name buf_URI buf_ByteLength].
  split; [apply wf_ext_nil|]. split; [apply wa_null|]. split; [apply ascii_utf8; reflexivity|]. split; [exact H1|].
  pose proof (zlen_nonneg data). unfold in_i64. change (2 ^ 63) with 9223372036854775808. change (2 ^ 32) with 4294967296 in H2. lia.
Qed.
Definition padded_doc : Document := simple_doc ["ext"%string] [Some (simple_buffer "" (str_bytes "abc"))].
Lemma padded_doc_ok X : storable_doc X 2 padded_doc.
Proof.
  split; [apply simple_wf|split; [lia|split; [|constructor]]].
  - constructor; [apply ascii_utf8; reflexivity|constructor].
  - constructor; [|constructor]. apply simple_buffer_wf; [apply ascii_utf8; reflexivity|reflexivity].
  - constructor; [|constructor]. split; [reflexivity|]. split; [discriminate|left; reflexivity].
Qed.
Theorem C30_glb_roundtrip_refuted :
  exists F X U out, float_contract F /\ storable_doc X 2 padded_doc /\
    Encode F X U true [] [] padded_doc (mkWriter [] []) None = (Ok tt, mkWriter out [], None) /\
    exists r e, reads_to_eof r /\ stream r = out /\ snd (Decode F X U None zero_Document (NewReader r)) = Err e.
Proof.
  exists sample_floats, sample_exts, sample_url. eexists. split; [exact sample_float_contract|]. split; [apply padded_doc_ok|].
  split; [vm_compute; reflexivity|].
  match goal with |- exists r e, _ /\ stream r = ?o /\ _ => set (out := o) end.
  exists (mkReader [firstn 102 out; skipn 102 out] ErrEOF false). eexists.
  split. { split; [|reflexivity]. repeat constructor; vm_compute; discriminate. }
  split. { unfold stream. cbn [rd_pieces List.concat]. rewrite app_nil_r. apply firstn_skipn. }
  vm_compute. reflexivity.
Qed.
Print Assumptions C30_glb_roundtrip_refuted.

(** A document meeting the hypotheses: one buffer for the binary chunk, one to
    embed, one with a file; the JSON needs padding. *)
Definition three_doc : Document :=
  simple_doc ["ext"%string] [Some (simple_buffer "" (str_bytes "abc")); Some (simple_buffer "" (str_bytes "defg")); Some (simple_buffer "data/b_1.bin" (str_bytes "h"))].
Lemma plain_example : plain_name (str_bytes "data/b_1.bin").
Proof.
  split.
  - vm_compute str_bytes. repeat (constructor; [split; [vm_compute; split; reflexivity|cbn; intros H; decompose [or] H; discriminate || assumption]|]). constructor.
  - exists [str_bytes "data"; str_bytes "b_1.bin"]. split; [discriminate|]. split; [reflexivity|].
    repeat (constructor; [split; [discriminate|]; split; [cbn; intros H; decompose [or] H; discriminate || assumption|]; split; discriminate|]). constructor.
Qed.
Lemma three_doc_ok X : storable_doc X 2 three_doc.
Proof.
  split; [apply simple_wf|split; [lia|split; [|constructor]]].
  - constructor; [apply ascii_utf8; reflexivity|constructor].
  - repeat (constructor; [apply simple_buffer_wf; [apply ascii_utf8; reflexivity|reflexivity]|]). constructor.
  - do 2 (constructor; [split; [reflexivity|]; split; [discriminate|left; reflexivity]|]).
    constructor; [|constructor]. split; [reflexivity|]. split; [discriminate|]. right. right. exists (str_bytes "data/b_1.bin"). split; [exact plain_example|reflexivity].
Qed.
Definition rf_h (n : bytes) : bytes * option error := (str_bytes "h", None).
Example C30_example :
  exists w' fs', Encode sample_floats sample_exts sample_url true [] (str_bytes " ") three_doc (mkWriter [] []) (Some no_files) = (Ok tt, w', Some fs') /\
    cf_files fs' = [(str_bytes "data/b_1.bin", str_bytes "h")] /\
    exists doc, snd (Decode sample_floats sample_exts sample_url (Some rf_h) zero_Document (NewReader (mkReader [wr_out w'] ErrEOF false))) = Ok doc /\
      map (option_map buf_Data) (doc_Buffers doc) = [Some (str_bytes "abc"); Some (str_bytes "defg"); Some (str_bytes "h")].
Proof.
  destruct (C30_glb_roundtrip_partial sample_floats sample_exts sample_url 2 [] (str_bytes " ") three_doc (mkWriter [] []) no_files sample_float_contract (three_doc_ok _)) as (w' & fs' & E & R).
  - constructor.
  - repeat (constructor; [cbn; tauto|]). constructor.
  - split; [constructor|]. split; [reflexivity|constructor].
  - intros text H. vm_compute in H. injection H as <-. vm_compute. reflexivity.
  - exists w', fs'. split; [exact E|]. vm_compute in E. injection E as <- <-. split; [reflexivity|].
    exists (restored sample_exts (fun u => u) true three_doc). split; [|reflexivity].
    apply R.
    + intros name data H. vm_compute in H. destruct H as [[= <- <-]|[]]. reflexivity.
    + split; [|reflexivity]. constructor; [discriminate|constructor].
    + unfold stream. cbn [rd_pieces List.concat]. rewrite app_nil_r. reflexivity.
    + constructor; [vm_compute; reflexivity|constructor].
Qed.

(** ** C32 *)
Theorem C32_json_roundtrip_partial F X U n prefix indent d w fs :
  float_contract F -> storable_doc X n d -> ws prefix -> ws indent -> no_failures w fs ->
  exists w' fs', Encode F X U false prefix indent d w (Some fs) = (Ok tt, w', Some fs') /\
    forall rf r, (forall name data, In (name, data) (buffer_files (doc_Buffers d)) -> rf name = (data, None)) ->
      reads_to_eof r -> stream r = wr_out w' ->
      snd (Decode F X U (Some rf) zero_Document (NewReader r)) = Ok (restored X (fun u => u) false d).
Proof.
  intros HF SD Hp Hi NF. destruct (round_trip F X U n false prefix indent d w fs HF SD Hp Hi NF) as (text & w' & fs' & _ & E & _ & _ & _ & _ & R); [discriminate|].
  exists w', fs'. split; [exact E|]. intros rf r HR HE ES. rewrite (R rf r HR HE ES); [reflexivity|left; reflexivity].
Qed.
Print Assumptions C32_json_roundtrip_partial.
(** What [restored] keeps: contents, lengths, names of all buffers. *)
Theorem C32_contents X asBinary d :
  map (option_map buf_Data) (doc_Buffers (restored X (fun u => u) asBinary d)) = map (option_map buf_Data) (doc_Buffers d) /\
  map (option_map buf_ByteLength) (doc_Buffers (restored X (fun u => u) asBinary d)) = map (option_map buf_ByteLength) (doc_Buffers d) /\
  map (option_map buf_Name) (doc_Buffers (restored X (fun u => u) asBinary d)) = map (option_map buf_Name) (doc_Buffers d).
Proof.
  cbn [restored doc_Buffers]. unfold restored_buffers. rewrite !map_map.
  assert (G : forall A (f : Buffer -> A), (forall i b, f (restored_buffer X (fun u => u) asBinary i b) = f b) ->
    forall l k, map (fun p => option_map f (option_map (restored_buffer X (fun u => u) asBinary (fst p)) (snd p))) (combine (seq k (List.length l)) l) = map (option_map f) l).
  { intros A f Hf. induction l as [|o l IH]; intros k; [reflexivity|]. cbn [List.length seq combine map fst snd]. rewrite IH. destruct o; cbn [option_map]; [rewrite Hf|]; reflexivity. }
  split; [|split]; apply G; reflexivity.
Qed.
(** A buffer of length zero is written and then refused. *)
Theorem C32_json_roundtrip_refuted :
  exists F X U d out, float_contract F /\ wf_Document X 2 d /\
    Encode F X U false [] [] d (mkWriter [] []) None = (Ok tt, mkWriter out [], None) /\
    exists e, snd (Decode F X U None zero_Document (NewReader (mkReader [out] ErrEOF false))) = Err e.
Proof.
  exists sample_floats, sample_exts, sample_url, (simple_doc [] [Some (simple_buffer "" [])]). eexists. split; [exact sample_float_contract|].
  split; [apply simple_wf; [constructor|constructor; [apply simple_buffer_wf; [apply ascii_utf8; reflexivity|reflexivity]|constructor]]|].
  split; [vm_compute; reflexivity|]. eexists. vm_compute. reflexivity.
Qed.
Print Assumptions C32_json_roundtrip_refuted.
Example C32_example :
  exists w' fs', Encode sample_floats sample_exts sample_url false [] [] three_doc (mkWriter [] []) (Some no_files) = (Ok tt, w', Some fs') /\
    exists doc, snd (Decode sample_floats sample_exts sample_url (Some rf_h) zero_Document
      (NewReader (mkReader (map (fun b => [b]) (wr_out w')) ErrEOF true))) = Ok doc /\
      map (option_map buf_Data) (doc_Buffers doc) = [Some (str_bytes "abc"); Some (str_bytes "defg"); Some (str_bytes "h")].
Proof. do 2 eexists. split; [vm_compute; reflexivity|]. eexists. split; [vm_compute; reflexivity|]. vm_compute. reflexivity. Qed.

(** ** C28 *)
(** Nothing is written for a URI that sanitizeURI refuses, while Decode opens
    the file of that name. *)
Theorem C28_found_refuted :
  exists F X U d out fs, float_contract F /\
    Encode F X U false [] [] d (mkWriter [] []) (Some no_files) = (Ok tt, mkWriter out [], Some fs) /\
    fst (Decode F X U (Some (file_reader (cf_files fs))) zero_Document (NewReader (mkReader [out] ErrEOF false))) = [str_bytes "100%.bin"] /\
    cf_created fs = [] /\
    exists b, doc_Buffers d = [Some b] /\ buf_Data b <> [] /\ buf_URI b = "100%.bin"%string.
Proof.
  exists sample_floats, sample_exts, sample_url, (one_buffer "100%.bin" 1 (str_bytes "a")). do 2 eexists. split; [exact sample_float_contract|].
  split; [vm_compute; reflexivity|]. split; [vm_compute; reflexivity|]. split; [reflexivity|]. eexists. split; [reflexivity|]. split; [discriminate|reflexivity].
Qed.
Print Assumptions C28_found_refuted.
(** Encode creates exactly the names Decode opens, in the same order, and what
    Decode reads there is the data. *)
Theorem C28_found_partial F X U n asBinary prefix indent d w fs :
  float_contract F -> storable_doc X n d -> ws prefix -> ws indent -> no_failures w fs ->
  (forall text, marshalJSONDoc F X asBinary prefix indent d = Ok text -> asBinary = true -> glb_size text d < 2 ^ 32) ->
  NoDup (map fst (buffer_files (doc_Buffers d))) ->
  exists w' fs', Encode F X U asBinary prefix indent d w (Some fs) = (Ok tt, w', Some fs') /\
    forall r, reads_to_eof r -> stream r = wr_out w' -> Forall (fun p => zlen p mod 4 = 0) (rd_pieces r) \/ asBinary = false ->
    exists names doc, Decode F X U (Some (file_reader (cf_files fs'))) zero_Document (NewReader r) = (names, Ok doc) /\
      cf_created fs' = rev names ++ cf_created fs /\ names = map fst (buffer_files (doc_Buffers d)) /\
      map (option_map buf_Data) (doc_Buffers doc) = map (option_map buf_Data) (doc_Buffers d).
Proof.
  intros HF SD Hp Hi NF SZ ND. destruct (round_trip F X U n asBinary prefix indent d w fs HF SD Hp Hi NF SZ) as (text & w' & fs' & _ & E & Ef & Ec & _ & _ & R).
  exists w', fs'. split; [exact E|]. intros r HE ES AL. exists (map fst (buffer_files (doc_Buffers d))), (restored X (fun u => u) asBinary d).
  split; [|split; [exact Ec|split; [reflexivity|apply C32_contents]]].
  apply R; [|exact HE|exact ES|destruct AL as [AL|AL]; [right; left; exact AL|left; exact AL]].
  intros m c I. unfold file_reader. rewrite Ef, (disk_get_rev m c _ _ ND I). reflexivity.
Qed.
Print Assumptions C28_found_partial.
(** Also for URIs with escapes, as long as both the URI and its cleaned form
    pass the validation. *)
Theorem C28_escaped_partial F X U n asBinary prefix indent d w fs text :
  float_contract F -> wf_Document X n d -> Z.of_nat n + 7 <= 10000 -> ws prefix -> ws indent -> no_failures w fs ->
  Forall (fun o => match o with
    | Some b => buf_ByteLength b = zlen (buf_Data b) /\ buf_Data b <> [] /\
        (buf_URI b = ""%string \/ buf_URI b = data_uri "application/octet-stream" (buf_Data b) \/
         String.prefix octet_prefix (buf_URI b) = false /\ validateBufferURI U (str_bytes (buf_URI b)) = Ok tt /\
         exists name, sanitizeURI U (str_bytes (buf_URI b)) = Some name /\ name <> [] /\
           String.prefix octet_prefix (bytes_str name) = false /\ validateBufferURI U name = Ok tt)
    | None => False end) (doc_Buffers d) ->
  Forall (fun o => o <> None) (doc_Images d) ->
  marshalJSONDoc F X asBinary prefix indent d = Ok text -> (asBinary = true -> glb_size text d < 2 ^ 32) ->
  exists w' fs' new names, Encode F X U asBinary prefix indent d w (Some fs) = (Ok tt, w', Some fs') /\
    cf_files fs' = new ++ cf_files fs /\ cf_created fs' = rev names ++ cf_created fs /\ map fst new = rev names /\
    (NoDup names -> forall r, reads_to_eof r -> stream r = wr_out w' -> Forall (fun p => zlen p mod 4 = 0) (rd_pieces r) \/ asBinary = false ->
     Decode F X U (Some (file_reader (cf_files fs'))) zero_Document (NewReader r) = (names, Ok (restored X (clean_uri U) asBinary d))).
Proof.
  intros HF W D Hp Hi NF SB SI M SZ.
  assert (SB' : Forall (stored U) (doc_Buffers d)).
  { eapply Forall_impl; [|exact SB]. intros [b|] H; [|exact H]. destruct H as (H1 & H2 & H3). split; [exact H1|]. split; [exact H2|].
    destruct H3 as [H3|[H3|(H3 & H4 & name & H5 & H6 & H7 & H8)]]; [left; exact H3|right; left; exact H3|]. right. right. exists name. unfold accepted. sp; assumption. }
  unfold glb_size in SZ. rewrite <- bin_glb in SZ.
  destruct (encode_decode F X U n asBinary prefix indent d w fs text HF W D Hp Hi SB' SI NF M SZ) as (w' & fs' & E & Ef & Ec & _ & _ & R).
  exists w', fs', (rev (outs U (doc_Buffers d))), (map fst (outs U (doc_Buffers d))). split; [exact E|]. split; [exact Ef|]. split; [exact Ec|].
  split; [apply map_rev|]. intros ND r HE ES AL. apply R; [|exact HE|exact ES|destruct AL as [AL|AL]; [right; left; exact AL|left; exact AL]].
  intros m c I. unfold file_reader. rewrite Ef, (disk_get_rev m c _ _ ND I). reflexivity.
Qed.
Print Assumptions C28_escaped_partial.
Example C28_example :
  exists out fs, Encode sample_floats sample_exts sample_url false [] [] (one_buffer "my%20data\.\b.bin" 1 (str_bytes "a")) (mkWriter [] []) (Some no_files) = (Ok tt, mkWriter out [], Some fs) /\
    cf_created fs = [str_bytes "my data/b.bin"] /\
    fst (Decode sample_floats sample_exts sample_url (Some (file_reader (cf_files fs))) zero_Document (NewReader (mkReader [out] ErrEOF false))) = [str_bytes "my data/b.bin"].
Proof. do 2 eexists. split; [vm_compute; reflexivity|]. split; vm_compute; reflexivity. Qed.

(** ** C31 *)
Lemma word_of_val a b c e : le_val [a; b; c; e] = glbHeaderMagic -> [a; b; c; e] = str_bytes "glTF".
Proof.
  cbn [le_val]. unfold glbHeaderMagic. pose proof (b2z_range a). pose proof (b2z_range b). pose proof (b2z_range c). pose proof (b2z_range e). intros H3.
  assert (b2z a = 103 /\ b2z b = 108 /\ b2z c = 84 /\ b2z e = 70) as (A1 & A2 & A3 & A4) by lia.
  rewrite <- (z2b_b2z a), <- (z2b_b2z b), <- (z2b_b2z c), <- (z2b_b2z e), A1, A2, A3, A4. reflexivity.
Qed.
Lemma header_magic l h : header_of l = Some h -> exists t, l = str_bytes "glTF" ++ t.
Proof.
  unfold header_of. destruct (zlen l <? 20) eqn:L; [discriminate|]. destruct (gh_Magic (get_glbHeader (firstn 20 l)) =? glbHeaderMagic) eqn:M; [|discriminate]. intros _.
  destruct l as [|a [|b [|c [|e t]]]]; try discriminate. exists t. apply Z.eqb_eq in M. unfold get_glbHeader, field4 in M. cbn [gh_Magic] in M.
  change (le_val [a; b; c; e] = glbHeaderMagic) in M. apply word_of_val in M. rewrite <- M. reflexivity.
Qed.
(** A stream that is not a GLB: the pieces do not matter. *)
Theorem C31_text_partial F X U fsys old r1 r2 :
  reads_to_eof r1 -> reads_to_eof r2 -> stream r1 = stream r2 -> (forall t, stream r1 <> str_bytes "glTF" ++ t) ->
  Decode F X U fsys old (NewReader r1) = Decode F X U fsys old (NewReader r2).
Proof.
  intros R1 R2 E N. assert (H : header_of (stream r1) = None). { destruct (header_of (stream r1)) as [h|] eqn:H; [|reflexivity]. destruct (header_magic _ _ H) as [t Ht]. destruct (N t Ht). }
  rewrite (Decode_text F X U fsys old r1 R1 H). rewrite E in *. rewrite (Decode_text F X U fsys old r2 R2 H). reflexivity.
Qed.
Print Assumptions C31_text_partial.
(** A GLB whose first chunk is a JSON container: the same for all readers
    that deliver multiples of four bytes, and for all readers when the JSON is
    not padded. *)
Lemma Decode_file F X U fsys old json bin v n out r :
  glb_file json bin out -> text_of v json -> container v -> wf_json n v -> Z.of_nat n <= 10000 ->
  reads_to_eof r -> stream r = out -> Forall (fun p => zlen p mod 4 = 0) (rd_pieces r) \/ zlen json mod 4 = 0 ->
  Decode F X U fsys old (NewReader r) =
  match dec (c_Document F X) old v with
  | Ok doc => finish U fsys true doc (match header_of out with Some h => after_chunk h out | None => [] end)
  | Err e => ([], Err e)
  | Panic => ([], Panic)
  end.
Proof.
  intros G T C W D RE ES AL. destruct (glb_header _ _ _ G) as (h & k & bc & H1 & H2 & H3 & H4 & H5 & H6 & H7 & H8 & _). pose proof (zlen_nonneg json) as NJ.
  rewrite H1. rewrite <- ES in H1, H6, H7, H8.
  assert (LO : leftover (json_chunk h (stream r)) = repeat (z2b 32) k).
  { rewrite H6. unfold leftover. rewrite (scan_container v json n (repeat (z2b 32) k) T C W ltac:(unfold max_depth; lia)). reflexivity. }
  rewrite (Decode_glb F X U fsys old r h RE H1 H2 ltac:(lia)).
  - rewrite H6. rewrite (whole_container v json n (repeat (z2b 32) k) T C W) by (unfold max_depth; lia). rewrite ES. reflexivity.
  - left. destruct AL as [AL|AL].
    + right. rewrite LO, repeat_zlen. split; [exact AL|]. split; [exact H5|]. split; [lia|exact H8].
    + left. rewrite LO. replace k with 0%nat by lia. reflexivity.
Qed.
Theorem C31_glb_partial F X U fsys old json bin v n out r1 r2 :
  glb_file json bin out -> text_of v json -> container v -> wf_json n v -> Z.of_nat n <= 10000 ->
  reads_to_eof r1 -> reads_to_eof r2 -> stream r1 = out -> stream r2 = out ->
  (Forall (fun p => zlen p mod 4 = 0) (rd_pieces r1) /\ Forall (fun p => zlen p mod 4 = 0) (rd_pieces r2)) \/ zlen json mod 4 = 0 ->
  Decode F X U fsys old (NewReader r1) = Decode F X U fsys old (NewReader r2).
Proof.
  intros G T C W D R1 R2 E1 E2 AL.
  rewrite (Decode_file F X U fsys old json bin v n out r1 G T C W D R1 E1) by tauto.
  rewrite (Decode_file F X U fsys old json bin v n out r2 G T C W D R2 E2) by tauto. reflexivity.
Qed.
Print Assumptions C31_glb_partial.
Theorem C31_fragments_refuted :
  exists F X U r1 r2 doc e, reads_to_eof r1 /\ reads_to_eof r2 /\ stream r1 = stream r2 /\
    snd (Decode F X U None zero_Document (NewReader r1)) = Ok doc /\ snd (Decode F X U None zero_Document (NewReader r2)) = Err e.
Proof.
  exists sample_floats, sample_exts, sample_url.
  set (out := wr_out (snd (fst (Encode sample_floats sample_exts sample_url true [] [] padded_doc (mkWriter [] []) None)))).
  exists (mkReader [out] ErrEOF false), (mkReader [firstn 102 out; skipn 102 out] ErrEOF false). do 2 eexists.
  split. { split; [|reflexivity]. repeat constructor; vm_compute; discriminate. }
  split. { split; [|reflexivity]. repeat constructor; vm_compute; discriminate. }
  split. { unfold stream. cbn [rd_pieces List.concat]. rewrite !app_nil_r. symmetry. apply firstn_skipn. }
  split; [vm_compute; reflexivity|]. vm_compute. reflexivity.
Qed.
Print Assumptions C31_fragments_refuted.
Example C31_example :
  let s := str_bytes (q "{'scene':2,'nodes':[{'name':'n'}]}") in
  Decode sample_floats sample_exts sample_url None zero_Document (NewReader (mkReader (map (fun b => [b]) s) ErrEOF true)) =
  Decode sample_floats sample_exts sample_url None zero_Document (NewReader (mkReader [s] ErrEOF false)).
Proof.
  cbv zeta. apply C31_text_partial.
  - split; [|reflexivity]. repeat constructor; vm_compute; discriminate.
  - split; [|reflexivity]. repeat constructor; vm_compute; discriminate.
  - vm_compute. reflexivity.
  - intros t. vm_compute. discriminate.
Qed.

(** ** C55, binary and text, through the files *)
Theorem C55_files F X U n asBinary prefix1 indent1 prefix2 indent2 d w fs :
  float_contract F -> storable_doc X n d -> ws prefix1 -> ws indent1 -> ws prefix2 -> ws indent2 -> no_failures w fs ->
  (forall prefix indent text, marshalJSONDoc F X asBinary prefix indent d = Ok text -> asBinary = true -> glb_size text d < 2 ^ 32) ->
  exists w1 fs1 w2 fs2,
    Encode F X U asBinary prefix1 indent1 d w (Some fs) = (Ok tt, w1, Some fs1) /\
    Encode F X U asBinary prefix2 indent2 d w (Some fs) = (Ok tt, w2, Some fs2) /\
    cf_files fs1 = cf_files fs2 /\
    forall rf r1 r2, (forall name data, In (name, data) (buffer_files (doc_Buffers d)) -> rf name = (data, None)) ->
      reads_to_eof r1 -> reads_to_eof r2 -> stream r1 = wr_out w1 -> stream r2 = wr_out w2 ->
      asBinary = false \/ (Forall (fun p => zlen p mod 4 = 0) (rd_pieces r1) /\ Forall (fun p => zlen p mod 4 = 0) (rd_pieces r2)) ->
      Decode F X U (Some rf) zero_Document (NewReader r1) = Decode F X U (Some rf) zero_Document (NewReader r2).
Proof.
  intros HF SD P1 I1 P2 I2 NF SZ.
  destruct (round_trip F X U n asBinary prefix1 indent1 d w fs HF SD P1 I1 NF (SZ prefix1 indent1)) as (t1 & w1 & fs1 & _ & E1 & F1 & _ & _ & _ & R1).
  destruct (round_trip F X U n asBinary prefix2 indent2 d w fs HF SD P2 I2 NF (SZ prefix2 indent2)) as (t2 & w2 & fs2 & _ & E2 & F2 & _ & _ & _ & R2).
  exists w1, fs1, w2, fs2. split; [exact E1|]. split; [exact E2|]. split; [congruence|]. intros rf r1 r2 HR H1 H2 S1 S2 AL.
  rewrite (R1 rf r1 HR H1 S1), (R2 rf r2 HR H2 S2); [reflexivity|unfold r_aligned; tauto|unfold r_aligned; tauto].
Qed.
Print Assumptions C55_files.

(** ** C58: Save, then Open *)
Theorem C58_save_open_partial F X U n dir name asBinary d disk :
  float_contract F -> storable_doc X n d ->
  (forall text, marshalJSONDoc F X asBinary [] [] d = Ok text -> asBinary = true -> glb_size text d < 2 ^ 32) ->
  NoDup (map fst (buffer_files (doc_Buffers d))) ->
  (forall m, In m (map fst (buffer_files (doc_Buffers d))) -> dir ++ "/"%char :: m <> name) ->
  exists disk', save F X U dir name asBinary d (mkFaults None [] [] None) disk = (Ok tt, disk') /\
    forall rd, (forall c, reads_to_eof (rd c) /\ stream (rd c) = c /\ (asBinary = true -> Forall (fun p => zlen p mod 4 = 0) (rd_pieces (rd c)))) ->
    snd (Open F X U dir name disk' rd) = Ok (restored X (fun u => u) asBinary d).
Proof.
  intros HF SD SZ ND NN.
  destruct (round_trip F X U n asBinary [] [] d (mkWriter [] []) no_files HF SD) as (text & w' & fs' & _ & E & Ef & _ & _ & _ & R);
    [constructor|constructor|split; [constructor|split; [reflexivity|constructor]]|exact SZ|].
  unfold save. cbn [ft_create ft_writes ft_files ft_close]. change (mkCreateFS [] [] []) with no_files. rewrite E. eexists. split; [reflexivity|].
  intros rd HR. unfold Open. rewrite Ef. cbn [no_files cf_files]. rewrite app_nil_r.
  set (files := buffer_files (doc_Buffers d)) in *.
  assert (Mn : map fst (map (fun p : bytes * bytes => (os_path dir (fst p), snd p)) (rev files)) = rev (map (os_path dir) (map fst files))).
  { rewrite map_map, map_rev, map_map. reflexivity. }
  rewrite disk_get_skip.
  2:{ rewrite Mn. intros H. apply in_rev in H. apply in_map_iff in H. destruct H as (m & Em & Hm). exact (NN m Hm Em). }
  cbn [disk_get]. destruct (list_eq_dec ascii_dec name name) as [_|]; [|congruence].
  destruct (HR (wr_out w')) as (H1 & H2 & H3). rewrite R; [reflexivity| |exact H1|exact H2|destruct asBinary; [right; left; exact (H3 eq_refl)|left; reflexivity]].
  intros m c I. unfold dir_read.
  assert (PL : plain_name m).
  { destruct SD as (_ & _ & HB & _). unfold files, buffer_files in I. apply in_flat_map in I. destruct I as ([b|] & Ib & I); [|destruct I].
    rewrite Forall_forall in HB. destruct (HB _ Ib) as (_ & _ & S). destruct (is_file b) eqn:Fb; [|destruct I]. destruct I as [[= <- <-]|[]].
    destruct S as [S|[S|(p & P & S)]].
    - unfold is_file in Fb. rewrite S in Fb. discriminate.
    - unfold is_file in Fb. rewrite S in Fb. discriminate.
    - rewrite S, str_bytes_bytes. exact P. }
  rewrite (plain_ValidPath m PL). replace (map (fun p : bytes * bytes => (os_path dir (fst p), snd p)) (rev files)) with (rev (map (fun p : bytes * bytes => (os_path dir (fst p), snd p)) files)) by (rewrite map_rev; reflexivity).
  rewrite (disk_get_rev (os_path dir m) c).
  - reflexivity.
  - rewrite map_map. cbn [fst]. rewrite <- (map_map fst (os_path dir)). apply Injective_map_NoDup; [|exact ND].
    intros x y Exy. unfold os_path in Exy. apply app_inv_head in Exy. injection Exy as <-. reflexivity.
  - apply in_map_iff. exists (m, c). split; [reflexivity|exact I].
Qed.
Print Assumptions C58_save_open_partial.
Example C58_example :
  exists disk', save sample_floats sample_exts sample_url (str_bytes "out") (str_bytes "out/m.glb") true three_doc (mkFaults None [] [] None) [(str_bytes "out/m.glb", str_bytes "old")] = (Ok tt, disk') /\
    exists doc, snd (Open sample_floats sample_exts sample_url (str_bytes "out") (str_bytes "out/m.glb") disk' (fun c => mkReader [c] ErrEOF false)) = Ok doc /\
    map (option_map buf_Data) (doc_Buffers doc) = [Some (str_bytes "abc"); Some (str_bytes "defg"); Some (str_bytes "h")].
Proof. eexists. split; [vm_compute; reflexivity|]. eexists. split; [vm_compute; reflexivity|]. vm_compute. reflexivity. Qed.
(** A path that is no valid io/fs path is written and not found again. *)
Theorem C58_save_open_refuted :
  exists F X U d disk', float_contract F /\
    save F X U (str_bytes "out") (str_bytes "out/m.gltf") false d (mkFaults None [] [] None) [] = (Ok tt, disk') /\
    disk_get (str_bytes "out/a/../b.bin") disk' = Some (str_bytes "x") /\
    exists e, snd (Open F X U (str_bytes "out") (str_bytes "out/m.gltf") disk' (fun c => mkReader [c] ErrEOF false)) = Err e.
Proof.
  exists sample_floats, sample_exts, sample_url, (one_buffer "a/../b.bin" 1 (str_bytes "x")). eexists. split; [exact sample_float_contract|].
  split; [vm_compute; reflexivity|]. split; [vm_compute; reflexivity|]. eexists. vm_compute. reflexivity.
Qed.
Print Assumptions C58_save_open_refuted.
