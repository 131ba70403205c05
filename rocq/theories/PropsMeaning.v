(** Properties of the meaning of the JSON: C67. *)
From Verif Require Import Base BaseFacts Types Doc F64 Base64 Url SpecText SpecString JsonText JsonStringProofs ScanSound Codec DocCodec SpecJson SpecJsonDoc
  CodecProofs CodecInv DocCodecBase DocCodecProofs DocInvBase Marshal SpecMarshal MarshalProofs Stream StreamProofs File SpecFile DecodeProofs EncodeProofs PropsJson PropsFile
  SpecSchema SchemaProofs SchemaAccept PropsSchema SpecMeaning MeaningProofs MeaningUnique.

(** ** Reading *)
(** The reader gives the text of [v], alone or as JSON chunk of a GLB. *)
Definition carries (s : bytes) (v : json) : Prop :=
  exists t rest, text_of v t /\
    (s = t ++ rest \/ exists h, header_of s = Some h /\ firstn (Z.to_nat (ch_Length (gh_JSONHeader h))) (skipn 20 s) = t ++ rest).
(** [doc] is [d] after the references of buffers and images have been cleaned
    and the data of the buffers has been loaded. *)
Definition loaded (d doc : Document) : Prop :=
  exists bufs ims, doc = set_doc_Images ims (set_doc_Buffers bufs d) /\
    Forall2 (fun a b => exists x u bs, a = Some x /\ b = Some (set_buf_Data bs (set_buf_URI u x))) (doc_Buffers d) bufs /\
    Forall2 (fun a b => exists x u, a = Some x /\ b = Some (set_img_URI u x)) (doc_Images d) ims.

Lemma mapM_forall2 {A B} (f : A -> res B) (P : A -> B -> Prop) : (forall a b, f a = Ok b -> P a b) -> forall l l', mapM f l = Ok l' -> Forall2 P l l'.
Proof.
  intros H. induction l as [|a l IH]; cbn [mapM]; intros l' E; [injection E as <-; constructor|].
  destruct (f a) as [b| |] eqn:Fa; cbn [bind] in E; [|discriminate..]. destruct (mapM f l) as [bs| |]; cbn [bind] in E; [|discriminate..]. injection E as <-.
  constructor; [exact (H a b Fa)|exact (IH bs eq_refl)].
Qed.
Definition with_data (a b : option Buffer) : Prop := exists x bs, a = Some x /\ b = Some (set_buf_Data bs x).
Lemma same_data b : set_buf_Data (buf_Data b) b = b.
Proof. destruct b; reflexivity. Qed.
Lemma same_uri b : set_buf_URI (buf_URI b) b = b.
Proof. destruct b; reflexivity. Qed.
Lemma same_img_uri b : set_img_URI (img_URI b) b = b.
Proof. destruct b; reflexivity. Qed.
Lemma decodeBuffer_data U fsys b t b' : decodeBuffer U fsys b = (t, Ok b') -> exists bs, b' = set_buf_Data bs b.
Proof.
  unfold decodeBuffer. destruct (validateBuffer b); [|discriminate..]. destruct (str_empty (buf_URI b)); [discriminate|].
  destruct (buf_IsEmbeddedResource b).
  { destruct (buf_marshalData b) as [d| |]; cbn [bind]; [|discriminate..]. intros [= _ <-]. exists d. reflexivity. }
  destruct (validateBufferURI U (str_bytes (buf_URI b))); [|discriminate..]. destruct fsys as [rf|]; [|intros [= _ <-]; exists (buf_Data b); symmetry; apply same_data].
  destruct (rf (str_bytes (buf_URI b))) as [d e]. match goal with |- (_, bind ?q _) = _ -> _ => destruct q as [d2| |] end; cbn [bind]; [|discriminate..].
  destruct e; [discriminate|]. intros [= _ <-]. exists d2. reflexivity.
Qed.
Lemma decodeBuffers_data U fsys l : forall t l', decodeBuffers U fsys l = (t, Ok l') -> Forall2 with_data l l'.
Proof.
  induction l as [|[b|] l IH]; intros t l'; cbn [decodeBuffers]; [intros [= _ <-]; constructor| |discriminate].
  destruct (decodeBuffer U fsys b) as [t1 [b1| |]] eqn:E1; [|discriminate..]. destruct (decodeBuffers U fsys l) as [t2 [l2| |]] eqn:E2; cbn [bind]; [|discriminate..].
  intros [= _ <-]. constructor; [|exact (IH t2 l2 eq_refl)]. destruct (decodeBuffer_data _ _ _ _ _ E1) as [bs ->]. exists b, bs. split; reflexivity.
Qed.
Lemma load_bytes_data U fsys isB bufs l t bufs' : load_bytes U fsys isB bufs l = (t, Ok bufs') -> Forall2 with_data bufs bufs'.
Proof.
  unfold load_bytes. destruct bufs as [|[b|] bs]; try apply decodeBuffers_data. destruct (isB && str_empty (buf_URI b)); [|apply decodeBuffers_data].
  destruct (bin_result b l) as [b1| |] eqn:E1; [|discriminate..]. destruct (decodeBuffers U fsys bs) as [t2 [l2| |]] eqn:E2; cbn [bind]; [|discriminate..].
  intros [= _ <-]. constructor; [|exact (decodeBuffers_data U fsys bs t2 l2 E2)]. unfold bin_result in E1. destruct (validateBuffer b); cbn [bind] in E1; [|discriminate..].
  destruct (taken 8 [] l); cbn [bind] in E1; [|discriminate..]. destruct (negb _ || _); [discriminate|]. destruct (negb _); [discriminate|].
  destruct (taken (buf_ByteLength b) [] (skipn 8 l)) as [d| |]; cbn [bind] in E1; [|discriminate..]. injection E1 as <-. exists b, d. split; reflexivity.
Qed.
Lemma finish_loaded U fsys isB d l names doc bufs ims t :
  mapM (clean_buffer U) (doc_Buffers d) = Ok bufs -> mapM (clean_image U) (doc_Images d) = Ok ims ->
  forall r, load_bytes U fsys isB bufs l = (t, r) ->
  (t, bufs <- r ;; Ok (set_doc_Images ims (set_doc_Buffers bufs d))) = (names, Ok doc) -> loaded d doc.
Proof.
  intros B I r L E. destruct r as [bs| |]; cbn [bind] in E; [|discriminate..]. injection E as _ <-. exists bs, ims. split; [reflexivity|]. split.
  - apply load_bytes_data in L. apply (mapM_forall2 _ (fun a b => exists x u, a = Some x /\ b = Some (set_buf_URI u x))) in B.
    + clear I. revert bs L. induction B as [|a b la lb (x & u & -> & ->) B IH]; intros bs L; inversion L as [|? c ? lc Hc L']; subst; [constructor|]. destruct Hc as (y & ds & Hy & ->). injection Hy as <-.
      constructor; [|exact (IH _ L')]. exists x, u, ds. split; reflexivity.
    + intros [x|] b; cbn [clean_buffer deref bind]; [|discriminate]. intros [= <-]. exists x.
      destruct (buf_IsEmbeddedResource x); [exists (buf_URI x); rewrite same_uri; split; reflexivity|eexists; split; reflexivity].
  - apply (mapM_forall2 _ _ ) with (2 := I). intros [x|] b; cbn [clean_image deref bind]; [|discriminate]. intros [= <-]. exists x.
    destruct (img_IsEmbeddedResource x); [exists (img_URI x); rewrite same_img_uri; split; reflexivity|eexists; split; reflexivity].
Qed.

(** What Decode returns is what the JSON says, for any JSON that conforms to
    the schema, undefined members and repetitions aside; the defaults are those
    of the specification. *)
Theorem C67_read F X U fsys r names doc n v :
  carries (stream r) v -> wf_json n v -> Z.of_nat n <= 10000 -> conforms (fun _ => True) unrelated s_gltf v ->
  reads_to_eof r -> Decode F X U fsys zero_Document (NewReader r) = (names, Ok doc) ->
  exists d, m_gltf F X d v /\ loaded d doc.
Proof.
  intros (t & rest & T & K) W D C R E. unfold Decode in E.
  assert (exists m, v = JObj m) as [m ->] by (inversion C; eexists; reflexivity).
  destruct (decodeDocument F X zero_Document (NewReader r)) as [[[isB d]| |] b] eqn:DD; [|discriminate..].
  assert (P : dec (c_Document F X) zero_Document (JObj m) = Ok d /\ binv b /\ endof b = ErrEOF \/ dec (c_Document F X) zero_Document (JObj m) = Ok d /\ isB = false).
  { destruct K as [S|(h & H & S)].
    - right. pose proof (decodeDocument_text F X zero_Document r R) as Q. rewrite DD in Q. cbn [fst] in Q. rewrite S in Q.
      rewrite (whole_container _ _ n rest T I W D) in Q. cbn [bind] in Q.
      assert (B : header_of (t ++ rest) = None) by (inversion T; subst; apply brace_text). specialize (Q B).
      destruct (dec (c_Document F X) zero_Document (JObj m)) as [y| |]; cbn [bind] in Q; [|discriminate..]. injection Q as -> ->. split; reflexivity.
    - left.
      assert (N : 0 <= ch_Length (gh_JSONHeader h)).
      { unfold header_of in H. destruct (zlen (stream r) <? 20); [discriminate|]. destruct (_ =? _); [|discriminate]. injection H as <-. apply le_val_range. }
      destruct (validateGLBHeader h) as [[]|e|] eqn:V.
      + pose proof (decodeDocument_glb F X zero_Document r h R H V N) as Q. rewrite DD in Q. destruct Q as (Q1 & Q2 & Q3 & _).
        unfold json_chunk in Q3. rewrite S, (whole_container _ _ n rest T I W D) in Q3. cbn [bind] in Q3.
        destruct (dec (c_Document F X) zero_Document (JObj m)) as [y| |]; cbn [bind] in Q3; [|discriminate..]. injection Q3 as _ ->. split; [reflexivity|]. split; assumption.
      + exfalso. pose proof (Decode_bad F X U fsys zero_Document r h e R H V) as Q. unfold Decode in Q. rewrite DD in Q.
        destruct (mapM (clean_buffer U) (doc_Buffers d)) as [bufs| |], (mapM (clean_image U) (doc_Images d)) as [ims| |]; congruence.
      + exfalso. unfold validateGLBHeader in V. destruct (_ || _); discriminate. }
  exists d. split; [apply (rd_Document F X n _ _ W C); tauto|].
  destruct (mapM (clean_buffer U) (doc_Buffers d)) as [bufs| |] eqn:MB, (mapM (clean_image U) (doc_Images d)) as [ims| |] eqn:MI; try discriminate.
  destruct P as [(_ & I & EE)|(_ & ->)].
  - rewrite (load_buffers_spec _ _ _ _ b I EE) in E. destruct (load_bytes U fsys isB bufs (remaining b)) as [tt' rr] eqn:LB.
    exact (finish_loaded U fsys isB d _ names doc bufs ims tt' MB MI rr LB E).
  - rewrite load_text in E. destruct (decodeBuffers U fsys bufs) as [tt' rr] eqn:LB.
    apply (finish_loaded U fsys false d [] names doc bufs ims tt' MB MI rr); [|exact E]. unfold load_bytes. destruct bufs as [|[]]; exact LB.
Qed.
Print Assumptions C67_read.

(** The JSON says one document only; the data of the buffers is not in it. *)
Theorem C67_unique F X d d' v : m_gltf F X d v -> m_gltf F X d' v -> without_data d = without_data d'.
Proof. exact (f_gltf F X d d' v). Qed.
Print Assumptions C67_unique.

(** ** Writing *)
Section Mono.
Context (num num' : string -> Prop) (extra extra' : list string -> string -> Prop) (HN : forall s, num s -> num' s) (HE : forall l k, extra l k -> extra' l k).
Lemma free_mono j : free num j -> free num' j.
Proof.
  induction j as [|b|s|s|l IH|l IH] using json_ind'; intros H; inversion H; subst; constructor; auto.
  - match goal with H : Forall (free num) l |- _ => revert H end. clear H. induction IH; intros G; inversion G; subst; constructor; auto.
  - match goal with H : Forall _ l |- _ => revert H end. clear H. induction IH; intros G; inversion G; subst; constructor; auto.
Qed.
Lemma conforms_mono j : forall s, conforms num extra s j -> conforms num' extra' s j.
Proof.
  induction j as [|b|s|s|l IH|l IH] using json_ind'; intros sc H; inversion H; subst; try (econstructor; eauto using free_mono; fail).
  - apply cf_list; [assumption|]. rewrite Forall_forall in *. auto.
  - apply cf_tuple; [reflexivity|]. rewrite Forall_forall in *. auto.
  - apply cf_dict; [assumption|]. rewrite Forall_forall in *. auto.
  - apply cf_obj; [assumption|assumption|]. rewrite Forall_forall in *. intros p I.
    match goal with H : forall x, In x l -> exists k, _ |- _ => destruct (H p I) as (k & U & [(s & J & C)|X]) end; exists k; (split; [exact U|]); [left|right; auto].
    exists s. split; [exact J|]. apply IH; assumption.
Qed.
End Mono.

(** The text Encode writes says the document: the reference [embedded] gives
    the buffers that are stored in the text their data URI, and [norm_Document]
    is the document up to what the format does not distinguish (an absent
    member and its default). *)
Theorem C67_written F X n asBinary prefix indent d :
  float_contract F -> wf_Document X n d -> ready d -> ws prefix -> ws indent ->
  exists text v, marshalJSONDoc F X asBinary prefix indent d = Ok text /\ text_of v text /\
    m_gltf F X (norm_Document X (embedded asBinary d)) v.
Proof.
  intros HF W R Hp Hi. destruct (marshal_tree_spec F X n asBinary d HF W (ready_buffers d R)) as (m & E & Wm & D).
  exists (printed prefix indent (JObj m)), (JObj m). unfold marshalJSONDoc. rewrite E. split; [reflexivity|].
  split; [apply printed_text; assumption|]. apply (rd_Document F X (n + 7)%nat _ _ Wm); [|exact D].
  unfold marshal_tree in E. rewrite (custom_buffers_spec asBinary _ 0 (ready_buffers d R)) in E. cbn [bind] in E.
  fold (embedded_buffers asBinary (doc_Buffers d)) in E. rewrite set_buffers_embedded in E.
  apply (conforms_mono (fun s => json_number (str_bytes s)) (fun _ => True) (fun _ _ => False) unrelated); [tauto|intros l k []|].
  exact (ec_Document F X HF n _ (embedded_wf X n asBinary d W) (ready_embedded asBinary d R) _ E).
Qed.
Print Assumptions C67_written.

(** The type of a camera is not a field of the document: it is written from
    the projection the camera has. *)
Theorem C67_camera_type F X c j : enc (c_Camera F X) c = Ok j ->
  exists ms v, j = JObj ms /\ member "type" ms v /\
    match cam_Perspective c with Some _ => m_str "perspective"%string v | None => cam_Orthographic c <> None /\ m_str "orthographic"%string v end.
Proof.
  assert (S : forall s, In s ["type"; "perspective"; "orthographic"; "name"; "extensions"; "extras"]%string -> says s s).
  { assert (B : forall l, forallb (fun c => (32 <=? b2z c) && (b2z c <? 128) && negb (b2z c =? 34) && negb (b2z c =? 92)) l = true -> string_body l).
    { induction l as [|b l IH]; intros H; [constructor|]. cbn [forallb] in H. apply andb_prop in H as [H1 H2]. apply sb_char; [lia..|apply IH; exact H2]. }
    intros s I. cbn [In] in I. repeat (destruct I as [<-|I]; [apply says_unquote; [apply B; reflexivity|reflexivity]|]). destruct I. }
  assert (T : forall t, In t ["perspective"; "orthographic"]%string -> forall m, enc_fields (fields_Camera F X) c = Ok m ->
    exists v, member "type" (("type"%string, JStr t) :: m) v /\ m_str t v).
  { intros t It m E. exists (JStr t). split; [|exists t; split; [reflexivity|]; apply S; cbn in *; tauto].
    exists [], "type"%string, m. split; [reflexivity|]. split; [apply S; cbn; tauto|].
    apply enc_fields_in in E. destruct E as [_ E]. eapply Forall_impl; [|exact E]. intros [k v] (f & I & Hf) Q. cbn [fst] in Q.
    assert (K : In k ["extensions"; "extras"; "name"; "orthographic"; "perspective"]%string).
    { unfold fields_Camera in I. cbn [In] in I. repeat (destruct I as [I|I]; [subst f; destruct Hf as [Hk _]; cbn [fst] in Hk; subst k; cbn [In]; auto 10|]). destruct I. }
    assert (KS : says k k) by (apply S; cbn [In] in *; tauto).
    rewrite (says_func _ _ _ KS Q) in K. cbn in K. intuition discriminate. }
  unfold c_Camera. cbn [enc]. unfold enc_Camera. intros E.
  destruct (cam_Perspective c) as [p|]; [|destruct (cam_Orthographic c) as [o|]; [|discriminate]]; apply bind_ok in E; destruct E as (m & Em & [= <-]).
  - destruct (T "perspective"%string (or_introl eq_refl) m Em) as (v & Hv). exists (("type"%string, JStr "perspective") :: m), v. split; [reflexivity|]. exact Hv.
  - destruct (T "orthographic"%string (or_intror (or_introl eq_refl)) m Em) as (v & Hv1 & Hv2). exists (("type"%string, JStr "orthographic") :: m), v.
    split; [reflexivity|]. split; [exact Hv1|]. split; [discriminate|exact Hv2].
Qed.
Print Assumptions C67_camera_type.

(** ** Cases *)
Example C67_written_case : exists text v, marshalJSONDoc sample_floats sample_exts false [] (str_bytes "  ") scene_doc = Ok text /\ text_of v text /\
  m_gltf sample_floats sample_exts (norm_Document sample_exts (embedded false scene_doc)) v.
Proof. apply (C67_written sample_floats sample_exts 0); [exact sample_float_contract|exact scene_doc_wf|exact scene_doc_ready|constructor|repeat constructor]. Qed.

(** A node with a scale and a child; nothing is said about rotation, so it is
    the identity.  [sample_floats] reads 1 and 2 as the bits 1 and 2. *)
Example C67_read_case : exists doc, Decode sample_floats sample_exts sample_url None zero_Document
    (NewReader (mkReader [print_compact plain_tree] ErrEOF false)) = ([], Ok doc) /\
  (exists d, m_gltf sample_floats sample_exts d plain_tree /\ loaded d doc) /\
  map (option_map nod_Scale) (doc_Nodes doc) = [Some [one; one; one]; Some [1; 2; 1]] /\
  map (option_map nod_Rotation) (doc_Nodes doc) = [Some [0; 0; 0; one]; Some [0; 0; 0; one]].
Proof.
  eexists. split; [vm_compute; reflexivity|]. split; [|split; vm_compute; reflexivity].
  assert (SC : scan start (print_compact plain_tree) = Done plain_tree []) by (vm_compute; reflexivity).
  destruct (scan_sound _ _ _ SC) as (_ & _ & _ & _ & _ & W).
  eapply (C67_read sample_floats sample_exts sample_url None (mkReader [print_compact plain_tree] ErrEOF false) [] _ (Z.to_nat max_depth) plain_tree).
  - exists (print_compact plain_tree), []. split; [apply print_compact_text|]. left. cbn [stream rd_pieces flat_map concat]. rewrite !app_nil_r. reflexivity.
  - exact W.
  - unfold max_depth. lia.
  - apply (conforms_mono (in_float_range sample_floats) (fun _ => True) unrelated unrelated); [tauto|tauto|exact plain_tree_conforms].
  - split; [repeat constructor; discriminate|reflexivity].
  - vm_compute. reflexivity.
Qed.
