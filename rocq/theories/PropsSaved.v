(** What is written with the modeler survives saving and loading: C68. *)
From Verif Require Import Base BaseFacts Types Binary SpecLayout Doc F64 Base64 Url SpecText SpecPath SpecData JsonText Codec SpecJson CodecProofs CodecInv
  DocCodec SpecJsonDoc DocCodecBase DocInvBase Marshal SpecMarshal PropsUri PropsJson Stream StreamProofs File SpecFile DecodeProofs EncodeProofs PropsFile PropsRoundTrip
  SpecDoc SpecSaved NewDoc ModelerWrite ModelerRead ModelerWriteProofs ModelerReadProofs ModelerShapeProofs PropsModelerWrite PropsTarget SavedProofs SavedReads SavedAgain.

(** ** Storable documents stay storable *)
Theorem C68_storable X n d ops d' :
  storable_doc X n d -> consistent d -> appendable d -> run_ops d ops = Ok d' -> Forall plain_op ops -> go_sized d' -> has_data d' ->
  storable_doc X n d'.
Proof.
  intros (W & D & PB & PI) C A R G S H. pose proof (run_ops_parts X n ops d d' (wf_parts X n d W PB PI A) G R) as P.
  pose proof (run_ops_extends _ _ _ R) as (_ & _ & _ & _ & E). pose proof (run_ops_consistent _ _ _ C R) as C'.
  destruct (parts_document X n d d' W E P C' S H) as (W' & PB' & PI'). split; [exact W'|]. split; [exact D|]. split; assumption.
Qed.
Print Assumptions C68_storable.

(** ** Saving and loading *)
(** [d] can be written as text or as a binary file, and from what was written
    a document with [Q] is read; the reader of a binary file hands out
    multiples of four bytes (see C30). *)
Definition survives F X U (asBinary : bool) (prefix indent : bytes) (d : Document) (Q : Document -> Prop) : Prop :=
  forall w fs, no_failures w fs ->
  exists w' fs', Encode F X U asBinary prefix indent d w (Some fs) = (Ok tt, w', Some fs') /\
    forall rf r, (forall name data, In (name, data) (buffer_files (doc_Buffers d)) -> rf name = (data, None)) ->
      reads_to_eof r -> stream r = wr_out w' -> (asBinary = false \/ Forall (fun p => zlen p mod 4 = 0) (rd_pieces r)) ->
      exists d2, snd (Decode F X U (Some rf) zero_Document (NewReader r)) = Ok d2 /\ Q d2.
Definition small_glb F X (asBinary : bool) (prefix indent : bytes) (d : Document) : Prop :=
  forall text, marshalJSONDoc F X asBinary prefix indent d = Ok text -> asBinary = true -> glb_size text d < 2 ^ 32.

(** What is read through [d2] is what is read through [d]: every accessor with
    every reader, every buffer view, and the images. *)
Definition typed_same (d d2 : Document) (a a2 : Accessor) : Prop :=
  (forall buffer pool p, ReadIndices d2 a2 buffer pool p = ReadIndices d a buffer pool p) /\
  (forall buffer pool p, ReadNormal d2 a2 buffer pool p = ReadNormal d a buffer pool p) /\
  (forall buffer pool p, ReadTangent d2 a2 buffer pool p = ReadTangent d a buffer pool p) /\
  (forall buffer pool p, ReadPosition d2 a2 buffer pool p = ReadPosition d a buffer pool p) /\
  (forall buffer pool p, ReadJoints d2 a2 buffer pool p = ReadJoints d a buffer pool p) /\
  (forall buffer pool p, ReadInverseBindMatrices d2 a2 buffer pool p = ReadInverseBindMatrices d a buffer pool p) /\
  forall cv,
  (forall buffer pool p, ReadTextureCoord cv d2 a2 buffer pool p = ReadTextureCoord cv d a buffer pool p) /\
  (forall buffer pool p, ReadWeights cv d2 a2 buffer pool p = ReadWeights cv d a buffer pool p) /\
  (forall buffer pool p, ReadColor cv d2 a2 buffer pool p = ReadColor cv d a buffer pool p) /\
  (forall buffer pool p, ReadColor64 cv d2 a2 buffer pool p = ReadColor64 cv d a buffer pool p).
Definition reads_same (d d2 : Document) : Prop :=
  List.length (doc_Accessors d2) = List.length (doc_Accessors d) /\
  (forall k a, nth_error (doc_Accessors d) k = Some (Some a) ->
     exists a2, nth_error (doc_Accessors d2) k = Some (Some a2) /\
       (forall buffer p, ReadAccessor d2 a2 buffer p = ReadAccessor d a buffer p) /\ typed_same d d2 a a2 /\
       acr_Normalized a2 = acr_Normalized a /\ acr_Min a2 = acr_Min a /\ acr_Max a2 = acr_Max a) /\
  (forall k, readBufferView d2 k = readBufferView d k) /\
  map (option_map (fun im => (img_Name im, img_MimeType im, img_BufferView im))) (doc_Images d2) =
  map (option_map (fun im => (img_Name im, img_MimeType im, img_BufferView im))) (doc_Images d).

Lemma restored_reads X asBinary d : reads_same d (restored X (fun u => u) asBinary d).
Proof.
  split; [unfold restored; cbn [doc_Accessors norm_Document]; apply map_length|]. split; [|split].
  - intros k a H. exists (norm_Accessor X a). split; [rewrite restored_accessor, H; reflexivity|]. split; [intros; apply ReadAccessor_restored|].
    split; [|repeat split]. split; [intros; apply ReadIndices_restored|]. do 5 (split; [intros; apply read_typed_restored|]).
    intros cv. do 3 (split; [intros; apply read_typed_restored|]). intros; apply read_typed_restored.
  - intros k. unfold readBufferView. destruct (restored_store X (fun u => u) asBinary d) as [HB HV]. rewrite <- (Forall2_zlen _ _ _ HV).
    destruct (zlen (doc_BufferViews d) <=? k); [reflexivity|]. destruct (index_rel _ _ _ k HV) as [[-> ->]|(x & y & -> & -> & E)]; [reflexivity|]. cbn [bind].
    symmetry. apply ReadBufferView_same; [split; assumption|exact E].
  - unfold restored. cbn [doc_Images norm_Document]. rewrite !map_map. apply map_ext. intros [im|]; reflexivity.
Qed.
Lemma storable_survives F X U n asBinary prefix indent d :
  float_contract F -> storable_doc X n d -> ws prefix -> ws indent -> small_glb F X asBinary prefix indent d ->
  survives F X U asBinary prefix indent d (reads_same d).
Proof.
  intros HF SD Hp Hi SZ w fs NF. destruct (round_trip F X U n asBinary prefix indent d w fs HF SD Hp Hi NF SZ) as (text & w' & fs' & _ & E & _ & _ & _ & _ & R).
  exists w', fs'. split; [exact E|]. intros rf r HR HE ES AL. exists (restored X (fun u => u) asBinary d). split; [|apply restored_reads].
  rewrite (R rf r HR HE ES); [reflexivity|]. destruct AL as [AL|AL]; [left; exact AL|right; left; exact AL].
Qed.

(** Any calls to the modeler, on a new document or on a storable one; then
    saving and loading; every read gives what it gave before saving. *)
Theorem C68_reads_partial F X U n asBinary prefix indent d ops d' :
  float_contract F -> ws prefix -> ws indent ->
  storable_doc X n d -> consistent d -> appendable d ->
  run_ops d ops = Ok d' -> Forall plain_op ops -> go_sized d' -> has_data d' -> small_glb F X asBinary prefix indent d' ->
  survives F X U asBinary prefix indent d' (reads_same d').
Proof.
  intros HF Hp Hi SD C A R G S H SZ. eapply storable_survives; try eassumption. exact (C68_storable X n d ops d' SD C A R G S H).
Qed.
Print Assumptions C68_reads_partial.

(** The data given to WriteAccessor is what is read after more calls, saving
    and loading. *)
Theorem C68_written_partial F X U n asBinary prefix indent d ops1 d1 t data d2 i ops2 d' :
  float_contract F -> ws prefix -> ws indent ->
  storable_doc X n d -> consistent d -> appendable d ->
  run_ops d ops1 = Ok d1 -> WriteAccessor d1 t data = Ok (d2, i) -> wf_slice data -> run_ops d2 ops2 = Ok d' ->
  Forall plain_op (ops1 ++ OpAccessor t data :: ops2) -> go_sized d' -> has_data d' -> small_glb F X asBinary prefix indent d' ->
  survives F X U asBinary prefix indent d' (fun loaded =>
    exists k a, i = Z.of_nat k /\ nth_error (doc_Accessors loaded) k = Some (Some a) /\
      forall buffer p, buffer = [] \/ sk data <> SK CUint AMat3 ->
        ReadAccessor loaded a buffer p = Ok (mkSlice (read_kind (sk data)) (els data))).
Proof.
  intros HF Hp Hi SD C A R1 W WF R2 G S H SZ.
  assert (R : run_ops d (ops1 ++ OpAccessor t data :: ops2) = Ok d').
  { clear -R1 W R2. revert d R1. induction ops1 as [|op ops IH]; intros d R1; cbn [run_ops app] in *.
    - injection R1 as ->. cbn [run_op]. rewrite W. cbn [fst_res bind]. exact R2.
    - apply bind_ok in R1 as (d0 & E & R1). rewrite E. cbn [bind]. exact (IH d0 R1). }
  pose proof (C68_reads_partial F X U n asBinary prefix indent d _ d' HF Hp Hi SD C A R G S H SZ) as SV.
  intros w fs NF. destruct (SV w fs NF) as (w' & fs' & E & Q). exists w', fs'. split; [exact E|]. intros rf r HR HE ES AL. destruct (Q rf r HR HE ES AL) as (l & EL & (_ & QA & _)).
  exists l. split; [exact EL|]. destruct (C09_write_later_read d1 t data d2 i ops2 d' [] fresh_pools W WF R2 (or_introl eq_refl)) as (k & a & Ei & Ha & _).
  destruct (QA k a Ha) as (a2 & Ha2 & QR & _). exists k, a2. split; [exact Ei|]. split; [exact Ha2|]. intros buffer p Hb. rewrite QR.
  destruct (C09_write_later_read d1 t data d2 i ops2 d' buffer p W WF R2 Hb) as (k' & a' & Ei' & Ha' & E2). assert (k' = k) by lia. subst k'. rewrite Ha in Ha'. injection Ha' as <-. exact E2.
Qed.
Print Assumptions C68_written_partial.

(** The typed writers and readers of C59, with saving and loading in between. *)
Theorem C68_typed d d2 i : reads_same d d2 ->
  (forall r, reads_back ReadIndices d i r -> reads_back ReadIndices d2 i r) /\
  (forall r, reads_back ReadNormal d i r -> reads_back ReadNormal d2 i r) /\
  (forall r, reads_back ReadTangent d i r -> reads_back ReadTangent d2 i r) /\
  (forall r, reads_back ReadPosition d i r -> reads_back ReadPosition d2 i r) /\
  (forall r, reads_back ReadJoints d i r -> reads_back ReadJoints d2 i r) /\
  (forall r, reads_back ReadInverseBindMatrices d i r -> reads_back ReadInverseBindMatrices d2 i r) /\
  forall cv,
  (forall r, reads_back (ReadTextureCoord cv) d i r -> reads_back (ReadTextureCoord cv) d2 i r) /\
  (forall r, reads_back (ReadWeights cv) d i r -> reads_back (ReadWeights cv) d2 i r) /\
  (forall r, reads_back (ReadColor cv) d i r -> reads_back (ReadColor cv) d2 i r) /\
  (forall r, reads_back (ReadColor64 cv) d i r -> reads_back (ReadColor64 cv) d2 i r).
Proof.
  intros (_ & QA & _).
  assert (G : forall A (read : Document -> Accessor -> list A -> bytes -> pools -> res (list A)),
    (forall a a2, typed_same d d2 a a2 -> forall buffer pool p, read d2 a2 buffer pool p = read d a buffer pool p) ->
    forall r, reads_back read d i r -> reads_back read d2 i r).
  { intros A read HT r (k & a & E & Ha & H). destruct (QA k a Ha) as (a2 & Ha2 & _ & T & _). exists k, a2. split; [exact E|]. split; [exact Ha2|].
    intros buffer pool p Hb. rewrite (HT a a2 T). exact (H buffer pool p Hb). }
  split; [apply G; intros a a2 (H & _); exact H|]. split; [apply G; intros a a2 (_ & H & _); exact H|]. split; [apply G; intros a a2 (_ & _ & H & _); exact H|].
  split; [apply G; intros a a2 (_ & _ & _ & H & _); exact H|]. split; [apply G; intros a a2 (_ & _ & _ & _ & H & _); exact H|]. split; [apply G; intros a a2 (_ & _ & _ & _ & _ & H & _); exact H|].
  intros cv. split; [|split; [|split]]; apply G; intros a a2 (_ & _ & _ & _ & _ & _ & H); destruct (H cv) as (H1 & H2 & H3 & H4); assumption.
Qed.
Print Assumptions C68_typed.

(** A new document is storable, so are the documents built from it. *)
Lemma new_storable X : storable_doc X 2 NewDocument /\ consistent NewDocument /\ appendable NewDocument.
Proof.
  split; [|split].
  - split; [|split; [lia|split; constructor]]. assert (Uf : forall s, forallb (fun b => b2z b <? 128) (str_bytes s) = true -> utf8_str s) by exact ascii_utf8.
    unfold wf_Document, NewDocument. cbn. split; [apply wf_ext_nil|]. split; [apply wa_null|]. do 4 (split; [constructor|]).
    split. { unfold wf_Asset. cbn. split; [apply wf_ext_nil|]. split; [apply wa_null|]. repeat (split; [apply Uf; reflexivity|]). apply Uf; reflexivity. }
    do 8 (split; [constructor|]). split; [vm_compute; split; congruence|]. split; [|split; constructor].
    constructor; [|constructor]. cbn. unfold wf_Scene. cbn. split; [apply wf_ext_nil|]. split; [apply wa_null|]. split; [apply Uf; reflexivity|constructor].
  - split; [|split; [|split]]; constructor.
  - intros pre b E. destruct pre; discriminate.
Qed.

(** ** Any number of sessions *)
(** A session: writing to [d], saving as a binary file, and loading that. *)
Inductive session F X U (prefix indent : bytes) (d d2 : Document) : Prop :=
| Session ops d1 w fs w' fs' rf r :
    run_ops d ops = Ok d1 -> Forall plain_op ops -> go_sized d1 -> has_data d1 -> small_glb F X true prefix indent d1 ->
    no_failures w fs -> Encode F X U true prefix indent d1 w (Some fs) = (Ok tt, w', Some fs') ->
    reads_to_eof r -> Forall (fun p => zlen p mod 4 = 0) (rd_pieces r) -> stream r = wr_out w' ->
    snd (Decode F X U (Some rf) zero_Document (NewReader r)) = Ok d2 ->
    session F X U prefix indent d d2.
Inductive sessions F X U (prefix indent : bytes) : Document -> Document -> Prop :=
| NoSession d : sessions F X U prefix indent d d
| MoreSessions d d1 d2 : session F X U prefix indent d d1 -> sessions F X U prefix indent d1 d2 -> sessions F X U prefix indent d d2.
(** No buffer yet, or one without URI. *)
Definition one_buffer_at_most (d : Document) : Prop :=
  doc_Buffers d = [] \/ exists b, doc_Buffers d = [Some b] /\ buf_URI b = ""%string.

Lemma one_session F X U n prefix indent d d2 : float_contract F -> registry_encodes X n -> ws prefix -> ws indent ->
  storable_doc X n d -> consistent d -> one_buffer_at_most d -> session F X U prefix indent d d2 ->
  storable_doc X n d2 /\ consistent d2 /\ one_buffer_at_most d2 /\
  forall k a buffer p s, nth_error (doc_Accessors d) k = Some (Some a) -> ReadAccessor d a buffer p = Ok s ->
    exists a2, nth_error (doc_Accessors d2) k = Some (Some a2) /\ ReadAccessor d2 a2 buffer p = Ok s.
Proof.
  intros HF RO Hp Hi SD C O H. destruct H as [ops d1 w fs w' fs' rf r R G S D SZ NF E HE AL ES DE].
  pose proof (C68_storable X n d ops d1 SD C (sole_appendable d O) R G S D) as SD1. pose proof (run_ops_consistent _ _ _ C R) as C1. pose proof (run_ops_sole _ _ _ O R) as O1.
  destruct (round_trip F X U n true prefix indent d1 w fs HF SD1 Hp Hi NF SZ) as (text & w'' & fs'' & _ & E' & _ & _ & _ & _ & RT). rewrite E in E'. injection E' as <- <-.
  assert (E2 : d2 = restored X (fun u => u) true d1).
  { rewrite (RT rf r) in DE; [injection DE as <-; reflexivity| |exact HE|exact ES|right; left; exact AL].
    intros m c I. exfalso. destruct O1 as [O1|(b & O1 & U1)]; rewrite O1 in I; [destruct I|]. unfold buffer_files in I. cbn [flat_map] in I. unfold is_file in I. rewrite U1 in I. destruct I. }
  subst d2. destruct SD1 as (W1 & D1 & PB1 & PI1). destruct (restored_storable X n true d1 RO W1 PB1 PI1) as (W2 & PB2 & PI2).
  split; [split; [exact W2|]; split; [exact D1|]; split; assumption|]. split; [apply restored_consistent; exact C1|]. split; [apply restored_sole; [exact O1|exact PB1]|].
  intros k a buffer p s Ha Hs. destruct (C09_reads_stable ops d d1 k a buffer p s Ha Hs R) as [Ha1 Hs1]. exists (norm_Accessor X a).
  split; [rewrite restored_accessor, Ha1; reflexivity|]. rewrite ReadAccessor_restored. exact Hs1.
Qed.
(** After any number of sessions, everything that could be read can still be
    read, with the same result; and the document is again one that can be
    written to and saved. *)
Theorem C68_sessions_partial F X U n prefix indent d d2 :
  float_contract F -> registry_encodes X n -> ws prefix -> ws indent ->
  storable_doc X n d -> consistent d -> one_buffer_at_most d -> sessions F X U prefix indent d d2 ->
  storable_doc X n d2 /\ consistent d2 /\ one_buffer_at_most d2 /\
  forall k a buffer p s, nth_error (doc_Accessors d) k = Some (Some a) -> ReadAccessor d a buffer p = Ok s ->
    exists a2, nth_error (doc_Accessors d2) k = Some (Some a2) /\ ReadAccessor d2 a2 buffer p = Ok s.
Proof.
  intros HF RO Hp Hi SD C O H. induction H as [d|d d1 d2 H1 _ IH].
  - split; [exact SD|]. split; [exact C|]. split; [exact O|]. eauto.
  - destruct (one_session F X U n prefix indent d d1 HF RO Hp Hi SD C O H1) as (SD1 & C1 & O1 & Q1). destruct (IH SD1 C1 O1) as (SD2 & C2 & O2 & Q2).
    split; [exact SD2|]. split; [exact C2|]. split; [exact O2|]. intros k a buffer p s Ha Hs. destruct (Q1 k a buffer p s Ha Hs) as (a1 & Ha1 & Hs1). exact (Q2 k a1 buffer p s Ha1 Hs1).
Qed.
Print Assumptions C68_sessions_partial.

(** ** Counterexamples *)
Definition text_of F X U (d : Document) : option bytes :=
  match Encode F X U false [] [] d (mkWriter [] []) None with (Ok _, w, _) => Some (wr_out w) | _ => None end.
Definition loaded_from F X U (text : bytes) : res Document :=
  snd (Decode F X U None zero_Document (NewReader (mkReader [text] ErrEOF false))).

(** A document with an embedded buffer is loaded, data is added, the document
    is saved: the data URI of the buffer is still the old one, so the added
    data is not in the file.  No call reports an error. *)
Theorem C68_reads_refuted :
  exists F X U d1 text1 loaded1 d2 i text2 loaded2 a a2,
    float_contract F /\ run_ops NewDocument [OpIndices s_u16] = Ok d1 /\
    text_of F X U d1 = Some text1 /\ loaded_from F X U text1 = Ok loaded1 /\
    WriteAccessor loaded1 TargetArrayBuffer s_uv = Ok (d2, i) /\ i = 1 /\
    text_of F X U d2 = Some text2 /\ loaded_from F X U text2 = Ok loaded2 /\
    nth_error (doc_Accessors d2) 1 = Some (Some a) /\ ReadAccessor d2 a [] fresh_pools = Ok s_uv /\
    nth_error (doc_Accessors loaded2) 1 = Some (Some a2) /\ ReadAccessor loaded2 a2 [] fresh_pools = Err ErrShortBuffer.
Proof.
  exists sample_floats, sample_exts, sample_url. do 9 eexists. split; [exact sample_float_contract|]. split; [vm_compute; reflexivity|].
  split; [vm_compute; reflexivity|]. split; [vm_compute; reflexivity|]. split; [vm_compute; reflexivity|]. split; [reflexivity|].
  split; [vm_compute; reflexivity|]. split; [vm_compute; reflexivity|]. split; [reflexivity|]. split; [vm_compute; reflexivity|]. split; [reflexivity|]. vm_compute. reflexivity.
Qed.
Print Assumptions C68_reads_refuted.
(** Positions that are not numbers: accepted, but the document cannot be saved. *)
Theorem C68_not_a_number_refuted :
  exists F X U d e w, float_contract F /\ run_ops NewDocument [OpPosition [[0x7fc00000; 0; 0]]] = Ok d /\
    Encode F X U false [] [] d (mkWriter [] []) None = (Err e, w, None).
Proof.
  exists sample_floats, sample_exts, sample_url. do 3 eexists. split; [exact sample_float_contract|]. split; [vm_compute; reflexivity|]. vm_compute. reflexivity.
Qed.
Print Assumptions C68_not_a_number_refuted.
(** No attributes: accepted and saved, but what was saved cannot be loaded. *)
Theorem C68_no_data_refuted :
  exists F X U d text e, float_contract F /\ run_ops NewDocument [OpPrimitiveAttributes []] = Ok d /\
    text_of F X U d = Some text /\ loaded_from F X U text = Err e.
Proof.
  exists sample_floats, sample_exts, sample_url. do 3 eexists. split; [exact sample_float_contract|]. split; [vm_compute; reflexivity|]. split; [vm_compute; reflexivity|]. vm_compute. reflexivity.
Qed.
Print Assumptions C68_no_data_refuted.

(** ** Examples *)
Definition saved_ops : list wop :=
  [OpPosition (els s_pos); OpImage "logo" "image/png" (Ok (str_bytes "12345")); OpAccessor TargetArrayBuffer s_u8;
   OpPrimitiveAttributes [mkAttr "POSITION" (Some s_pos); mkAttr "EMPTY" None; mkAttr "COLOR_0" (Some s_rgba)]].
Definition saved_doc : Document := Eval vm_compute in match run_ops NewDocument saved_ops with Ok d => d | _ => zero_Document end.
Lemma s_pos_numbers : Forall (Forall number32) (els s_pos).
Proof. repeat constructor; vm_compute; congruence. Qed.
Lemma saved_run : run_ops NewDocument saved_ops = Ok saved_doc.
Proof. vm_compute. reflexivity. Qed.
Lemma saved_plain : Forall plain_op saved_ops.
Proof.
  constructor; [exact s_pos_numbers|]. constructor; [split; apply ascii_utf8; reflexivity|]. constructor; [vm_compute; split; congruence|]. constructor; [|constructor].
  cbn. intros a s [<-|[<-|[<-|[]]]] N E; cbn in N, E; try discriminate. injection E as <-. exact s_pos_numbers.
Qed.
Lemma saved_sized : go_sized saved_doc.
Proof. do 4 (split; [vm_compute; reflexivity|]). unfold saved_doc. cbn [doc_BufferViews]. repeat (constructor; [exact eq_refl|]). constructor. Qed.
Lemma saved_data : has_data saved_doc.
Proof.
  intros pre b E. unfold saved_doc in E. cbn [doc_Buffers] in E. destruct pre as [|x [|y pre]]; [injection E as <-; discriminate|discriminate|discriminate].
Qed.
(** The document of these calls, as binary file with indentation; the read of
    accessor 1 and of the image after loading. *)
Example C68_example :
  survives sample_floats sample_exts sample_url true [] (str_bytes " ") saved_doc (fun d2 =>
    (exists a, nth_error (doc_Accessors d2) 1 = Some (Some a) /\ ReadAccessor d2 a [] fresh_pools = Ok s_u8) /\
    exists im k, nth_error (doc_Images d2) 0 = Some (Some im) /\ img_Name im = "logo"%string /\ img_BufferView im = Some k /\ readBufferView d2 k = Ok (str_bytes "12345")).
Proof.
  destruct (new_storable sample_exts) as (N1 & N2 & N3).
  assert (SV : survives sample_floats sample_exts sample_url true [] (str_bytes " ") saved_doc (reads_same saved_doc)).
  { eapply (C68_reads_partial sample_floats sample_exts sample_url 2 true [] (str_bytes " ") NewDocument saved_ops saved_doc sample_float_contract); [constructor| |exact N1|exact N2|exact N3|exact saved_run|exact saved_plain|exact saved_sized|exact saved_data|].
    - repeat (constructor; [cbn; tauto|]). constructor.
    - intros text H _. vm_compute in H. injection H as <-. vm_compute. reflexivity. }
  intros w fs NF. destruct (SV w fs NF) as (w' & fs' & E & Q). exists w', fs'. split; [exact E|]. intros rf r HR HE ES AL. destruct (Q rf r HR HE ES AL) as (l & EL & (_ & QA & QV & QI)).
  exists l. split; [exact EL|]. split.
  - destruct (QA 1%nat _ eq_refl) as (a2 & Ha & R & _). exists a2. split; [exact Ha|]. rewrite R. vm_compute. reflexivity.
  - change (map (option_map (fun im => (img_Name im, img_MimeType im, img_BufferView im))) (doc_Images saved_doc)) with [Some ("logo"%string, "image/png"%string, Some 1)] in QI.
    destruct (doc_Images l) as [|[im|] [|x il]]; try discriminate. cbn in QI. injection QI as Q1 Q2 Q3. exists im, 1. split; [reflexivity|]. split; [exact Q1|]. split; [exact Q3|].
    rewrite QV. vm_compute. reflexivity.
Qed.

(** Two sessions on a new document. *)
Definition out_of (d : Document) : bytes := wr_out (snd (fst (Encode sample_floats sample_exts sample_url true [] [] d (mkWriter [] []) (Some no_files)))).
Definition glb_loaded (out : bytes) : Document :=
  match snd (Decode sample_floats sample_exts sample_url (Some rf_h) zero_Document (NewReader (mkReader [out] ErrEOF false))) with Ok d => d | _ => zero_Document end.
Definition after_one : Document := Eval vm_compute in glb_loaded (out_of saved_doc).
Definition more_doc : Document := Eval vm_compute in match run_ops after_one [OpIndices s_u16] with Ok d => d | _ => zero_Document end.
Definition after_two : Document := Eval vm_compute in glb_loaded (out_of more_doc).
Example C68_sessions_example :
  sessions sample_floats sample_exts sample_url [] [] NewDocument after_two /\
  exists a a', nth_error (doc_Accessors after_two) 1 = Some (Some a) /\ ReadAccessor after_two a [] fresh_pools = Ok s_u8 /\
    nth_error (doc_Accessors after_two) 4 = Some (Some a') /\ ReadAccessor after_two a' [] fresh_pools = Ok s_u16.
Proof.
  assert (NF : no_failures (mkWriter [] []) no_files) by (split; [constructor|]; split; [reflexivity|constructor]).
  split.
  - apply (MoreSessions _ _ _ _ _ _ after_one).
    + eapply (Session _ _ _ _ _ _ _ saved_ops saved_doc (mkWriter [] []) no_files _ _ rf_h (mkReader [out_of saved_doc] ErrEOF false)); [exact saved_run|exact saved_plain|exact saved_sized|exact saved_data| |exact NF|vm_compute; reflexivity|..].
      * intros text H _. vm_compute in H. injection H as <-. vm_compute. reflexivity.
      * split; [|reflexivity]. constructor; [vm_compute; discriminate|constructor].
      * constructor; [vm_compute; reflexivity|constructor].
      * vm_compute. reflexivity.
      * vm_compute. reflexivity.
    + apply (MoreSessions _ _ _ _ _ _ after_two); [|apply NoSession].
      eapply (Session _ _ _ _ _ _ _ [OpIndices s_u16] more_doc (mkWriter [] []) no_files _ _ rf_h (mkReader [out_of more_doc] ErrEOF false)); [vm_compute; reflexivity|constructor; [exact I|constructor]| | | |exact NF|vm_compute; reflexivity|..].
      * do 4 (split; [vm_compute; reflexivity|]). unfold more_doc. cbn [doc_BufferViews]. repeat (constructor; [exact eq_refl|]). constructor.
      * intros pre b E. unfold more_doc in E. cbn [doc_Buffers] in E. destruct pre as [|x [|y pre]]; [injection E as <-; discriminate|discriminate|discriminate].
      * intros text H _. vm_compute in H. injection H as <-. vm_compute. reflexivity.
      * split; [|reflexivity]. constructor; [vm_compute; discriminate|constructor].
      * constructor; [vm_compute; reflexivity|constructor].
      * vm_compute. reflexivity.
      * vm_compute. reflexivity.
  - do 2 eexists. split; [reflexivity|]. split; [vm_compute; reflexivity|]. split; [reflexivity|]. vm_compute. reflexivity.
Qed.
