(** Loaded documents can be written to and saved again. *)
From Verif Require Import Base BaseFacts Types Binary SpecLayout BinaryProofs SliceProofs Doc F64 F64Facts SpecText SpecData JsonText Codec SpecJson SpecJsonDoc
  CodecProofs CodecInv DocCodecBase DocInvBase DocCodecInv SpecMarshal MarshalProofs SpecFile SpecDoc SpecSaved ModelerWrite ModelerRead ModelerWriteProofs ModelerReadProofs
  ModelerLayoutProofs ModelerShapeProofs ModelerAttrProofs SavedProofs SavedReads.

(** ** Consistency *)
Lemma Forall_map_opt {A B} (f : A -> B) (P : A -> Prop) (Q : B -> Prop) l :
  (forall a, P a -> Q (f a)) -> all_some P l -> all_some Q (map (option_map f) l).
Proof.
  intros H G. unfold all_some in *. rewrite Forall_map. eapply Forall_impl; [|exact G]. intros o (a & -> & Ha). exists (f a). split; [reflexivity|exact (H a Ha)].
Qed.
Lemma restored_nth X clean asBinary d k b : nth_error (doc_Buffers d) k = Some (Some b) ->
  exists b', nth_error (doc_Buffers (restored X clean asBinary d)) k = Some (Some b') /\ buf_Data b' = buf_Data b.
Proof.
  intros H. destruct (restored_store X clean asBinary d) as [HB _]. pose proof (Forall2_nth _ _ _ HB k) as N. rewrite H in N.
  destruct (nth_error (doc_Buffers (restored X clean asBinary d)) k) as [[b'|]|]; try contradiction. exists b'. split; [reflexivity|symmetry; exact N].
Qed.
Lemma restored_consistent X clean asBinary d : consistent d -> consistent (restored X clean asBinary d).
Proof.
  intros (CB & CV & CA & CI).
  assert (VV : forall v, valid_view d v -> valid_view (restored X clean asBinary d) (norm_BufferView X v)).
  { intros v (k & b & K1 & K2 & K3 & K4 & K5 & K6). destruct (restored_nth X clean asBinary d k b K2) as (b' & N & E). exists k, b'. cbn [norm_BufferView bvw_Buffer bvw_ByteOffset bvw_ByteLength bvw_ByteStride].
    rewrite E. repeat (split; [assumption|]). exact K6. }
  assert (VA : forall a, valid_accessor d a -> valid_accessor (restored X clean asBinary d) (norm_Accessor X a)).
  { intros a (T1 & T2 & T3 & k & v & m & K1 & K2 & K3 & K4 & K5 & K6). unfold valid_accessor. cbn [norm_Accessor acr_ComponentType acr_Type acr_Sparse acr_BufferView acr_Count acr_ByteOffset].
    split; [exact T1|]. split; [exact T2|]. split; [rewrite T3; reflexivity|]. exists k, (norm_BufferView X v), m. split; [exact K1|]. split.
    { unfold restored. cbn [doc_BufferViews norm_Document]. rewrite nth_error_map, K2. reflexivity. }
    cbn [norm_BufferView bvw_ByteStride bvw_ByteLength]. repeat (split; [assumption|]). exact K6. }
  split; [|split; [|split]].
  - unfold restored. cbn [doc_Buffers]. unfold restored_buffers. generalize 0%nat as i. unfold all_some in *. induction CB as [|o l (b & -> & Hb) _ IH]; intros i; cbn [List.length seq combine map]; constructor; [|apply IH].
    eexists. split; [reflexivity|exact Hb].
  - unfold restored at 2. cbn [doc_BufferViews norm_Document]. exact (Forall_map_opt _ _ _ _ VV CV).
  - unfold restored at 2. cbn [doc_Accessors norm_Document]. exact (Forall_map_opt _ _ _ _ VA CA).
  - unfold restored at 2. cbn [doc_Images norm_Document]. rewrite map_map.
    unfold all_some in *. rewrite Forall_map. eapply Forall_impl; [|exact CI]. intros o (im & -> & Hi). eexists. split; [reflexivity|].
    unfold valid_image in *. cbn [restored_image norm_Image img_BufferView]. destruct (img_BufferView im) as [k|]; [|exact I].
    unfold restored. cbn [doc_BufferViews norm_Document]. unfold zlen in *. rewrite map_length. exact Hi.
Qed.

(** ** Storability *)
Lemma restored_storable X n asBinary d : registry_encodes X n ->
  wf_Document X n d -> Forall plain_buffer (doc_Buffers d) -> Forall plain_image (doc_Images d) ->
  wf_Document X n (restored X (fun u => u) asBinary d) /\ Forall plain_buffer (doc_Buffers (restored X (fun u => u) asBinary d)) /\
  Forall plain_image (doc_Images (restored X (fun u => u) asBinary d)).
Proof.
  intros RO W PB PI. pose proof (wf_norm_Document X n RO d W) as WN.
  assert (BS : Forall plain_buffer (restored_buffers X (fun u => u) asBinary (doc_Buffers d)) /\ Forall (opt (wf_Buffer X n)) (restored_buffers X (fun u => u) asBinary (doc_Buffers d))).
  { assert (WB : Forall (opt (wf_Buffer X n)) (doc_Buffers d)) by apply W. unfold restored_buffers. generalize 0%nat as i. revert WB.
    induction PB as [|o l Ho _ IH]; intros WB i; cbn [List.length seq combine map]; [split; constructor|]. inversion WB as [|o' l' Wo WB']; subst. destruct (IH WB' (S i)) as [I1 I2].
    destruct o as [b|]; [|destruct Ho]. destruct Ho as (L & N & U). cbn in Wo. destruct Wo as (W1 & W2 & W3 & W4 & W5). cbn [fst snd option_map].
    assert (U' : (buf_URI (embedded_buffer asBinary i b) = "" \/ buf_URI (embedded_buffer asBinary i b) = data_uri "application/octet-stream" (buf_Data b) \/ plain_uri (buf_URI (embedded_buffer asBinary i b)))%string /\
      utf8_str (buf_URI (embedded_buffer asBinary i b))).
    { unfold embedded_buffer. destruct (buf_Data b) as [|x y] eqn:ED; [congruence|]. destruct (buf_URI b) as [|c u] eqn:EU.
      - destruct (asBinary && (i =? 0)%nat); [rewrite EU; split; [left; reflexivity|exact W4]|]. cbn [buf_URI]. split; [right; left; reflexivity|apply data_uri_utf8].
      - rewrite EU. split; [exact U|exact W4]. }
    destruct U' as [U1 U2]. assert (EQ : (if String.prefix octet_prefix (buf_URI (embedded_buffer asBinary i b)) then buf_URI (embedded_buffer asBinary i b) else buf_URI (embedded_buffer asBinary i b)) = buf_URI (embedded_buffer asBinary i b)) by (destruct (String.prefix _ _); reflexivity).
    split; constructor; try assumption.
    - unfold restored_buffer. cbn [plain_buffer buf_ByteLength buf_Data buf_URI]. rewrite EQ. split; [exact L|]. split; [exact N|exact U1].
    - cbn [opt]. unfold wf_Buffer, restored_buffer. cbn [buf_Extensions buf_Extras buf_Name buf_URI buf_ByteLength]. rewrite EQ. split; [apply (wf_norm_ext X n RO); exact W1|].
      split; [exact W2|]. split; [exact W3|]. split; [exact U2|exact W5]. }
  assert (EI : forall im, (if String.prefix "data:image/png;base64" (img_URI im) || String.prefix "data:image/jpeg;base64" (img_URI im) then img_URI im else img_URI im) = img_URI im) by (intros im; destruct (_ || _); reflexivity).
  destruct BS as [PB' WB']. split; [|split].
  - destruct WN as (H1 & H2 & H3 & H4 & H5 & H6 & H7 & _ & H9 & H10 & H11 & H12 & H13 & H14 & H15 & H16 & H17 & H18 & H19).
    unfold wf_Document, restored. cbn [doc_Extensions doc_Extras doc_ExtensionsUsed doc_ExtensionsRequired doc_Accessors doc_Animations doc_Asset doc_Buffers doc_BufferViews doc_Cameras doc_Images doc_Materials doc_Meshes doc_Nodes doc_Samplers doc_Scene doc_Scenes doc_Skins doc_Textures] in *.
    split; [exact H1|]. split; [exact H2|]. split; [exact H3|]. split; [exact H4|]. split; [exact H5|]. split; [exact H6|]. split; [exact H7|]. split; [exact WB'|]. split; [exact H9|]. split; [exact H10|].
    split; [|repeat (split; [assumption|]); assumption]. rewrite Forall_map. eapply Forall_impl; [|exact H11]. intros [im|] H; [|exact I]. cbn in H |- *. unfold wf_Image, restored_image in *.
    cbn [img_Extensions img_Extras img_Name img_URI img_MimeType img_BufferView]. rewrite EI. exact H.
  - exact PB'.
  - unfold restored. cbn [doc_Images norm_Document]. rewrite map_map, Forall_map. eapply Forall_impl; [|exact PI]. intros [im|] H; [|exact H].
    cbn [option_map plain_image]. unfold restored_image. cbn [norm_Image img_URI]. rewrite EI. exact H.
Qed.

(** ** One buffer, in the binary chunk *)
Definition sole (d : Document) : Prop := doc_Buffers d = [] \/ exists b, doc_Buffers d = [Some b] /\ buf_URI b = ""%string.
Lemma sole_appendable d : sole d -> appendable d.
Proof.
  intros [E|(b & E & U)] pre b' H; rewrite E in H; [destruct pre; discriminate|]. destruct pre as [|x [|y pre]]; [|discriminate|discriminate]. injection H as <-. left. exact U.
Qed.
Lemma sole_last d pre b b' : sole d -> last_buffer_is d pre b -> buf_URI b' = buf_URI b -> sole (set_doc_Buffers (pre ++ [Some b']) d).
Proof.
  intros S L U. right. exists b'. cbn [doc_Buffers set_doc_Buffers]. destruct L as [L|(L & -> & ->)].
  - destruct S as [E|(b0 & E & U0)]; rewrite E in L; [destruct pre; discriminate|]. destruct pre as [|x [|y pre]]; [|discriminate|discriminate]. injection L as <-. split; [reflexivity|congruence].
  - split; [reflexivity|exact U].
Qed.
Lemma ensurePadding_sole d d' : sole d -> ensurePadding d = Ok d' -> sole d'.
Proof. intros S H. apply ensurePadding_inv in H as (pre & b & b' & pad & L & -> & _ & -> & _). eapply sole_last; eauto. Qed.
Lemma writeBufferViews_sole d t data d' r : sole d -> writeBufferViews d t data = Ok (d', r) -> sole d'.
Proof.
  intros S H. apply writeBufferViews_inv in H as [(e & _ & -> & _)|(pre & b & stride & size & written & b' & _ & _ & L & _ & _ & _ & _ & _ & -> & ->)]; [exact S|].
  pose proof (sole_last d pre b (set_buf_Data written (set_buf_ByteLength (i64 (buf_ByteLength b + size)) b)) S L eq_refl) as H. exact H.
Qed.
Lemma run_op_sole d op d' : sole d -> run_op d op = Ok d' -> sole d'.
Proof.
  intros S H. apply run_op_shape in H as [[E|tgt data r E|data d1 vi im E _ ->|d0 E ->|d0 tgt data d1 vi accs E1 E2 -> _] _].
  - rewrite E. exact S.
  - eapply writeBufferViews_sole; eauto.
  - apply writeBufferViews_sole in E; [exact E|exact S].
  - eapply ensurePadding_sole; eauto.
  - apply ensurePadding_sole in E1; [|exact S]. apply writeBufferViews_sole in E2; [exact E2|exact E1].
Qed.
Lemma run_ops_sole ops : forall d d', sole d -> run_ops d ops = Ok d' -> sole d'.
Proof.
  induction ops as [|op ops IH]; intros d d' S H; cbn [run_ops] in H; [injection H as <-; exact S|]. inv_ok H. eapply IH; [|exact H]. eapply run_op_sole; eauto.
Qed.
Lemma restored_sole X d : sole d -> Forall plain_buffer (doc_Buffers d) -> sole (restored X (fun u => u) true d).
Proof.
  intros [E|(b & E & U)] P; unfold sole, restored; cbn [doc_Buffers]; rewrite E; [left; reflexivity|]. right. unfold restored_buffers. cbn [List.length seq combine map fst snd option_map].
  eexists. split; [reflexivity|]. unfold restored_buffer. cbn [buf_URI]. rewrite E in P. apply Forall_inv in P. destruct P as (_ & N & _).
  unfold embedded_buffer. destruct (buf_Data b); [congruence|]. rewrite U. cbn [andb Nat.eqb]. rewrite U. reflexivity.
Qed.
