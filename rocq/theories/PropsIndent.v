(** Every document of a Go program: C55, indentation does not change the
    meaning; C77, when encoding succeeds, and that it writes JSON. *)
From Verif Require Import Base BaseFacts Types Doc F64 Base64 Url SpecText SpecData JsonText JsonTextProofs JsonStringProofs Codec SpecJson CodecProofs
  DocCodec Marshal SpecMarshal MarshalProofs PropsUri PropsJson Stream StreamProofs File SpecFile DecodeProofs EncodeProofs PropsFile PropsRoundTrip
  SpecGo SpecGoDoc EncodeExact DocExact ScanDepth IndentProofs.

(** ** C77 *)
(** Encoding to JSON either panics, because a buffer is nil, or fails, because
    a float is not finite, a camera has no projection or an extension cannot be
    encoded, or writes one well-formed JSON value; there is no other case. *)
Theorem C77_encodes_or_fails F X asBinary prefix indent d :
  float_contract F -> go_Document X d -> ws prefix -> ws indent ->
  match marshalJSONDoc F X asBinary prefix indent d with
  | Ok text => savable_Document X d /\ ~ In None (doc_Buffers d) /\ exists j, lexical j /\ text_of j text
  | Err _ => ~ savable_Document X d /\ ~ In None (doc_Buffers d)
  | Panic => In None (doc_Buffers d)
  end.
Proof.
  intros HF G Hp Hi. unfold marshalJSONDoc. pose proof (marshal_tree_exact F X HF asBinary d G) as E.
  destruct (marshal_tree F X asBinary d) as [j|e|]; cbn [bind]; [|exact E|exact E].
  destruct E as (L & _ & _ & S & N). split; [exact S|]. split; [exact N|]. exists j. split; [exact L|]. exact (printed_text prefix indent j Hp Hi).
Qed.
Print Assumptions C77_encodes_or_fails.
(** In particular: *)
Theorem C77_succeeds_iff F X asBinary prefix indent d :
  float_contract F -> go_Document X d -> ws prefix -> ws indent ->
  (exists text, marshalJSONDoc F X asBinary prefix indent d = Ok text) <-> savable_Document X d /\ ~ In None (doc_Buffers d).
Proof.
  intros HF G Hp Hi. pose proof (C77_encodes_or_fails F X asBinary prefix indent d HF G Hp Hi) as E.
  destruct (marshalJSONDoc F X asBinary prefix indent d) as [text|e|]; split.
  - intros _. tauto.
  - intros _. eexists. reflexivity.
  - intros [t T]. discriminate.
  - tauto.
  - intros [t T]. discriminate.
  - tauto.
Qed.
Print Assumptions C77_succeeds_iff.

(** Text whose nesting is within the limit of encoding/json is read as the
    value it is the text of, and deeper text is refused. *)
Theorem C77_read_or_refused F X asBinary prefix indent d old rest :
  float_contract F -> go_Document X d -> ws prefix -> ws indent ->
  forall text, marshalJSONDoc F X asBinary prefix indent d = Ok text ->
  exists j, text_of j text /\
    json_decode (c_Document F X) old (text ++ rest) =
    (if Z.of_nat (nesting j) <=? 10000 then y <- dec (c_Document F X) old j ;; Ok (y, rest) else Err (ErrMsg "invalid character")).
Proof.
  intros HF G Hp Hi text M. unfold marshalJSONDoc in M. pose proof (marshal_tree_exact F X HF asBinary d G) as E.
  destruct (marshal_tree F X asBinary d) as [j|e|]; cbn [bind] in M; try discriminate. injection M as <-. fold (printed prefix indent j).
  destruct E as (L & C & _). exists j. split; [exact (printed_text prefix indent j Hp Hi)|]. unfold json_decode.
  rewrite (scan_any_depth j _ rest (printed_text prefix indent j Hp Hi) C L). change max_depth with 10000. destruct (_ <=? _); reflexivity.
Qed.
Print Assumptions C77_read_or_refused.

(** ** C55 *)
(** Two indentations: the same failure, or two texts that decode to the same
    document or the same error. *)
Theorem C55_text F X asBinary prefix1 indent1 prefix2 indent2 d old rest :
  float_contract F -> go_Document X d -> ws prefix1 -> ws indent1 -> ws prefix2 -> ws indent2 ->
  match marshalJSONDoc F X asBinary prefix1 indent1 d, marshalJSONDoc F X asBinary prefix2 indent2 d with
  | Ok text1, Ok text2 =>
      json_decode (c_Document F X) old (text1 ++ rest) = json_decode (c_Document F X) old (text2 ++ rest)
  | Err e1, Err e2 => e1 = e2
  | Panic, Panic => True
  | _, _ => False
  end.
Proof.
  intros HF G P1 I1 P2 I2. unfold marshalJSONDoc. pose proof (marshal_tree_exact F X HF asBinary d G) as E.
  destruct (marshal_tree F X asBinary d) as [j|e|]; cbn [bind]; [|reflexivity|exact I]. fold (printed prefix1 indent1 j). fold (printed prefix2 indent2 j).
  destruct E as (L & C & _). unfold json_decode.
  rewrite (scan_any_depth j _ rest (printed_text prefix1 indent1 j P1 I1) C L), (scan_any_depth j _ rest (printed_text prefix2 indent2 j P2 I2) C L). reflexivity.
Qed.
Print Assumptions C55_text.

(** The sizes that Encode declares in the header fit 32 bits.  [pad4] is Go's
    (n + 3) / 4 * 4. *)
Definition sizes_fit (text : bytes) (d : Document) : Prop :=
  20 + up4 (zlen text) + match glb_buffer d with Some b => (8 + pad4 (buf_ByteLength b)) mod 2 ^ 32 | None => 0 end < 2 ^ 32.

(** Whole files: Encode ends the same way and creates the same files, and
    Decode makes the same of both outputs, whatever it finds in the file
    system.  (Readers of binary files hand out multiples of four bytes, C31.) *)
Theorem C55_any_files F X U asBinary prefix1 indent1 prefix2 indent2 d w fs :
  float_contract F -> go_Document X d -> ws prefix1 -> ws indent1 -> ws prefix2 -> ws indent2 ->
  Forall (fun o => o = None) (wr_script w) -> wr_out w = [] ->
  (forall prefix indent text, marshalJSONDoc F X asBinary prefix indent d = Ok text -> asBinary = true ->
     (prefix, indent) = (prefix1, indent1) \/ (prefix, indent) = (prefix2, indent2) -> sizes_fit text d) ->
  let '(r1, w1, fs1) := Encode F X U asBinary prefix1 indent1 d w fs in
  let '(r2, w2, fs2) := Encode F X U asBinary prefix2 indent2 d w fs in
  r1 = r2 /\ fs1 = fs2 /\
  (r1 = Ok tt -> forall fsys old rd1 rd2, reads_to_eof rd1 -> reads_to_eof rd2 -> stream rd1 = wr_out w1 -> stream rd2 = wr_out w2 ->
     asBinary = false \/ (Forall (fun p => zlen p mod 4 = 0) (rd_pieces rd1) /\ Forall (fun p => zlen p mod 4 = 0) (rd_pieces rd2)) ->
     Decode F X U fsys old (NewReader rd1) = Decode F X U fsys old (NewReader rd2)).
Proof.
  intros HF G P1 I1 P2 I2 NF W0 SZ. pose proof (marshal_tree_exact F X HF asBinary d G) as E.
  assert (ET : forall p i, marshalJSONDoc F X asBinary p i d = (j <- marshal_tree F X asBinary d ;; Ok (printed p i j))) by reflexivity.
  destruct asBinary.
  - unfold Encode. destruct (marshal_tree F X true d) as [j|e|] eqn:T; cbn [bind] in ET.
    + destruct E as (L & C & (m & ->) & _).
      assert (S1 := SZ prefix1 indent1 _ (ET _ _) eq_refl (or_introl eq_refl)). assert (S2 := SZ prefix2 indent2 _ (ET _ _) eq_refl (or_intror eq_refl)).
      assert (BD : match glb_buffer d with Some b => (8 + pad4 (buf_ByteLength b)) mod 2 ^ 32 | None => 0 end = bin_declared d).
      { reflexivity. }
      unfold sizes_fit in S1, S2. rewrite BD in S1, S2.
      destruct (encodeBinary_any F X prefix1 indent1 d _ w (ET _ _) NF S1) as (w1 & -> & _ & O1).
      destruct (encodeBinary_any F X prefix2 indent2 d _ w (ET _ _) NF S2) as (w2 & -> & _ & O2). rewrite W0 in O1, O2. cbn [app] in O1, O2.
      destruct (bin_outcome d) as [hb|e|].
      * destruct (encodeBuffers U (if hb then tl (doc_Buffers d) else doc_Buffers d) fs) as [r fs']. split; [reflexivity|]. split; [reflexivity|].
        intros _ fsys old rd1 rd2 R1 R2 Q1 Q2 [A|[A1 A2]]; [discriminate|].
        rewrite (decode_glb_any F X U fsys old prefix1 indent1 m rd1 d L P1 I1 R1 A1 S1 (eq_trans Q1 O1)).
        rewrite (decode_glb_any F X U fsys old prefix2 indent2 m rd2 d L P2 I2 R2 A2 S2 (eq_trans Q2 O2)). reflexivity.
      * split; [reflexivity|]. split; [reflexivity|]. discriminate.
      * split; [reflexivity|]. split; [reflexivity|]. discriminate.
    + unfold encodeBinary. rewrite !ET. split; [reflexivity|]. split; [reflexivity|]. discriminate.
    + unfold encodeBinary. rewrite !ET. split; [reflexivity|]. split; [reflexivity|]. discriminate.
  - unfold Encode. rewrite !ET. destruct (marshal_tree F X false d) as [j|e|] eqn:T; cbn [bind].
    + destruct E as (L & C & (m & ->) & _).
      destruct (w_write_ok (printed prefix1 indent1 (JObj m)) w NF) as (w1 & -> & _ & O1).
      destruct (w_write_ok (printed prefix2 indent2 (JObj m)) w NF) as (w2 & -> & _ & O2). rewrite W0 in O1, O2. cbn [app] in O1, O2.
      destruct (encodeBuffers U (doc_Buffers d) fs) as [r fs']. split; [reflexivity|]. split; [reflexivity|].
      intros _ fsys old rd1 rd2 R1 R2 Q1 Q2 _.
      rewrite (decode_text_any F X U fsys old prefix1 indent1 m rd1 L P1 I1 R1 (eq_trans Q1 O1)).
      rewrite (decode_text_any F X U fsys old prefix2 indent2 m rd2 L P2 I2 R2 (eq_trans Q2 O2)). reflexivity.
    + split; [reflexivity|]. split; [reflexivity|]. discriminate.
    + split; [reflexivity|]. split; [reflexivity|]. discriminate.
Qed.
Print Assumptions C55_any_files.

(** ** Examples *)
(** A document outside the domain of the round trip: a name that is not UTF-8,
    an unknown mode and an unknown accessor type, a negative count, null
    elements, a payload with a raw number. *)
Definition odd_doc : Document :=
  set_doc_Extensions [("EXT_a"%string, ERaw (JArr [JNum "1E5"; JStr "<"]))]
  (set_doc_Extras (VArr [VNum 0x3FF0000000000000; VObj [("k"%string, VNull)]])
  (set_doc_Scenes [None; Some (set_scn_Name (bytes_str [z2b 255; z2b 195]) zero_Scene)]
  (set_doc_Accessors [Some (set_acr_Count (-5) (set_acr_Type (ATOther 99) zero_Accessor))]
  (set_doc_Meshes [Some (set_msh_Primitives (Some [Some (set_pri_Mode 77 zero_Primitive)]) zero_Mesh)]
  (set_doc_Buffers [Some (set_buf_Data (str_bytes "abc") (set_buf_ByteLength (-2) zero_Buffer))] zero_Document))))).

Lemma go_ext_nil X : go_ext X []. Proof. constructor. Qed.
Lemma go_any_null : go_any VNull. Proof. constructor. Qed.
Ltac go_example := repeat match goal with
  | |- in_i64 _ => unfold in_i64; lia
  | |- range _ _ => split; [lia|reflexivity]
  | |- go_float _ => split; [lia|reflexivity]
  | |- Forall _ [] => apply Forall_nil
  | |- Forall _ (_ :: _) => apply Forall_cons
  | |- go_ext _ [] => apply Forall_nil
  | |- go_ext _ (_ :: _) => apply Forall_cons
  | |- go_any _ => constructor
  | |- opt _ None => exact I
  | |- opt _ (Some _) => cbn [opt]
  | |- True => exact I
  | |- _ /\ _ => split
  end.
Lemma odd_doc_go X : go_Document X odd_doc.
Proof.
  unfold go_Document, odd_doc; cbn -[go_ext in_i64 go_float range Z.pow]. go_example; cbn [fst snd]; go_example; try (exists 1%nat; constructor; constructor; [constructor|constructor; [constructor|constructor]]).
  - exists [], (str_bytes "1"), [], (str_bytes "E5"). split; [reflexivity|]. split; [left; reflexivity|]. split.
    + right. eexists _, _. split; [reflexivity|]. split; [vm_compute; split; discriminate|constructor].
    + split; [left; reflexivity|]. right. eexists _, [], _. split; [reflexivity|]. split; [cbn; tauto|]. split; [left; reflexivity|]. split; [discriminate|].
      constructor; [vm_compute; split; discriminate|constructor].
  - apply (sb_char "<"%char []); [vm_compute; discriminate|vm_compute; discriminate|vm_compute; discriminate|constructor].
  - unfold go_Accessor; cbn -[go_ext in_i64]; go_example.
  - unfold go_Asset; cbn -[go_ext in_i64]; go_example.
  - unfold go_Buffer; cbn -[go_ext in_i64]; go_example.
  - unfold go_Mesh, go_Primitive; cbn -[go_ext in_i64 range]; go_example; unfold go_Primitive; cbn -[go_ext in_i64 range]; go_example.
  - unfold go_Scene; cbn -[go_ext in_i64]; go_example.
Qed.
Example C55_odd_document : exists t1 t2,
  marshalJSONDoc sample_floats sample_exts false [] [] odd_doc = Ok t1 /\
  marshalJSONDoc sample_floats sample_exts false (str_bytes " ") [z2b 9] odd_doc = Ok t2 /\ t1 <> t2 /\
  json_decode (c_Document sample_floats sample_exts) zero_Document t1 = json_decode (c_Document sample_floats sample_exts) zero_Document t2.
Proof.
  do 2 eexists. split; [vm_compute; reflexivity|]. split; [vm_compute; reflexivity|]. split; [vm_compute; discriminate|]. vm_compute. reflexivity.
Qed.
(** The same document with a NaN, and with a nil buffer. *)
Example C77_example_nan : exists e, marshalJSONDoc sample_floats sample_exts false [] [] (set_doc_Extras (VNum 0x7FF8000000000000) odd_doc) = Err e.
Proof. eexists. vm_compute. reflexivity. Qed.
Example C77_example_nil : marshalJSONDoc sample_floats sample_exts false [] [] (set_doc_Buffers [None] odd_doc) = Panic.
Proof. vm_compute. reflexivity. Qed.
Example C77_example_savable : savable_Document sample_exts odd_doc.
Proof.
  apply (C77_succeeds_iff sample_floats sample_exts false [] [] odd_doc sample_float_contract (odd_doc_go _)); [constructor|constructor|].
  eexists. vm_compute. reflexivity.
Qed.
