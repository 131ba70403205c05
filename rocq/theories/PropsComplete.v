(** Documents built with package modeler and completed by hand: C102. *)
From Verif Require Import Base BaseFacts Types Binary SpecLayout Doc SpecDoc SpecAccessor AccessorProofs SpecImage F64 Base64 Url UrlProofs GoUrl GoUrlProofs SpecText SpecString SpecPath SpecData SpecUrl
  JsonText JsonTextProofs JsonStringProofs ScanSound Codec DocCodec SpecJson SpecJsonDoc CodecProofs CodecInv DocCodecBase DocCodecProofs DocInvBase Marshal SpecMarshal MarshalProofs Stream StreamProofs
  File SpecFile DecodeProofs EncodeProofs PropsUri PropsJson PropsFile PropsRoundTrip SpecSchema SchemaProofs SchemaAccept PropsSchema SpecMeaning MeaningProofs MeaningUnique PropsMeaning ConformProofs PropsConform
  SpecAsset AssetProofs PropsAsset PropsUrl PropsAssetWritten SpecExchange SpecTarget ModelerTargetProofs ModelerRead ModelerWrite ModelerWriteProofs ModelerReadProofs PropsModelerWrite PropsModelerRead Image PropsImage ModelerShapeProofs BinaryProofs AccessorWriteProofs ImageProofs PropsTarget
  SpecSaved SavedProofs SavedReads SavedAgain PropsSaved PropsAccessor PropsAccessorFile PropsExchange NewDoc SpecAppend PropsAppend SpecAdded PropsAdded SpecRules PropsRules SpecBuilt PropsBuilt PropsBuiltRead SpecComplete.

Lemma new_storable_any X n : Z.of_nat n + 7 <= 10000 -> storable_doc X n NewDocument.
Proof.
  intros N. split; [|split; [exact N|split; constructor]]. assert (Uf : forall s, forallb (fun b => b2z b <? 128) (str_bytes s) = true -> utf8_str s) by exact ascii_utf8.
  unfold wf_Document, NewDocument. cbn. split; [apply wf_ext_nil|]. split; [apply wa_null|]. do 4 (split; [constructor|]).
  split. { unfold wf_Asset. cbn. split; [apply wf_ext_nil|]. split; [apply wa_null|]. repeat (split; [apply Uf; reflexivity|]). apply Uf; reflexivity. }
  do 8 (split; [constructor|]). split; [vm_compute; split; congruence|]. split; [|split; constructor].
  constructor; [|constructor]. cbn. unfold wf_Scene. cbn. split; [apply wf_ext_nil|]. split; [apply wa_null|]. split; [apply Uf; reflexivity|constructor].
Qed.
Lemma built_any X n ops d : Z.of_nat n + 7 <= 10000 -> Forall proper ops -> fits_memory ops -> run_ops NewDocument ops = Ok d ->
  storable_doc X n d /\ ready d /\ places (doc_Buffers d) [].
Proof.
  intros N F M R. destruct (built_storable X ops d F M R) as (_ & RD & PL). split; [|split; assumption]. unfold fits_memory in M.
  assert (F2 : Forall (fun op => accepted op /\ lawful op) ops) by (revert F; apply Forall_impl; unfold proper; tauto).
  assert (F3 : Forall plain_op ops) by (revert F; apply Forall_impl; unfold proper; tauto). pose proof (cost_nonneg ops).
  assert (C0 : counted 0 NewDocument). { unfold counted. cbn. repeat split; try lia; [constructor|]. intros pre b E. destruct pre; discriminate. }
  destruct (ops_counted ops 0 NewDocument d C0 F2 R) as (CA & CV & CI & CS & CD). rewrite Z.add_0_l in *. destruct (new_storable X) as (_ & N2 & N3).
  pose proof (run_ops_sole _ _ _ new_sole R) as S. assert (B : zlen (doc_Buffers d) <= 1) by (destruct S as [->|(b & -> & _)]; cbn; lia).
  apply (C68_storable X n NewDocument ops d (new_storable_any X n N) N2 N3 R F3); [|exact CD]. unfold go_sized. refine (conj _ (conj _ (conj _ (conj _ CS)))); lia.
Qed.
Lemma completed_facts X n d rest : wf_Document X n d -> ready d -> wf_Document X n rest -> ready rest -> wf_Document X n (completed d rest) /\ ready (completed d rest).
Proof.
  intros (A1 & A2 & A3 & A4 & A5 & A6 & A7 & A8 & A9 & A10 & A11 & A) (R1 & R2 & R3 & R4 & R5 & R6 & _)
         (B1 & B2 & B3 & B4 & B5 & B6 & B7 & B8 & B9 & B10 & B11 & B) (S1 & S2 & S3 & S4 & S5 & S6 & S).
  split.
  - refine (conj B1 (conj B2 (conj B3 (conj B4 (conj _ (conj B6 (conj B7 (conj A8 (conj _ (conj B10 (conj _ B))))))))))); cbn; apply Forall_app; split; assumption.
  - refine (conj _ (conj S2 (conj R3 (conj _ (conj S5 (conj _ S)))))); cbn; apply Forall_app; split; assumption.
Qed.

(** Everything that was written is where it was. *)
Definition widened (d rest : Document) : Document :=
  set_doc_Images (doc_Images d ++ doc_Images rest) (set_doc_BufferViews (doc_BufferViews d ++ doc_BufferViews rest) (set_doc_Accessors (doc_Accessors d ++ doc_Accessors rest) d)).
Lemma widened_extends d rest : extends d (widened d rest).
Proof.
  split; [eexists; reflexivity|]. split; [eexists; reflexivity|]. split; [eexists; reflexivity|]. split; [|reflexivity].
  intros i x H. exists x. split; [exact H|]. apply opt_rel_refl. exact buffer_extends_refl.
Qed.
Lemma written_stays before op after d0 d1 d rest : Forall proper (before ++ op :: after) -> run_op d0 op = Ok d1 -> run_ops d1 after = Ok d -> faithful op ->
  (forall k s, nth_error (given op) k = Some s ->
   exists a, nth_error (doc_Accessors (completed d rest)) (List.length (doc_Accessors d0) + k) = Some (Some a) /\
     kind_ct (sk s) = Some (acr_ComponentType a, acr_Type a) /\ gltf_elements (completed d rest) a (els s)) /\
  (forall name mime data, op = OpImage name mime (Ok data) ->
   exists im, nth_error (doc_Images (completed d rest)) (List.length (doc_Images d0)) = Some (Some im) /\ image_bytes (completed d rest) im data).
Proof.
  intros P H R FA. assert (PO : proper op) by (rewrite Forall_app in P; destruct P as [_ P']; apply Forall_cons_iff in P'; apply P').
  destruct (given_facts op PO) as [G1 G2]. pose proof (widened_extends d rest) as EX. pose proof (run_ops_extends _ _ _ R) as ER. split.
  - intros k s Hk. assert (WR : writable (ModelerTargetProofs.op_target op) (given op)) by (pose proof (faithful_writable op PO FA) as Q; destruct op; exact Q).
    assert (GN : given op <> []) by (intros E; rewrite E in Hk; destruct k; discriminate).
    destruct (shaped_means _ _ _ _ (given_shaped _ _ _ H (proper_succeeds _ _ _ PO H) GN) G1 WR G2 k s Hk) as (a & Ha & HM & _).
    pose proof (means_mono _ _ _ _ EX (means_mono _ _ _ _ ER HM)) as (_ & M1 & M2). exists a. split; [|split; [exact M1|exact M2]].
    cbn [completed doc_Accessors]. destruct ER as ([l ->] & _). rewrite <- app_assoc, nth_error_app1; [exact Ha|apply nth_error_Some; congruence].
  - intros name mime data ->. cbn [run_op] in H. apply fst_res_inv in H as (r & H).
    destruct (C87_stored (fun z => z) d0 name mime (SrcBuffer (Some data)) data d1 r (SrcBuffer (Some data)) eq_refl) as (im & _ & _ & _ & _ & _ & _ & _ & _ & _ & _ & ST).
    { unfold WriteImageFrom. cbn [image_data]. rewrite H. reflexivity. }
    destruct (ST after d R) as [N IB]. exists im. split; [cbn [completed doc_Images]; rewrite nth_error_app1; [exact N|apply nth_error_Some; congruence]|].
    exact (image_bytes_mono _ _ _ _ EX IB).
Qed.

(** ** C102: the binary data of a completed document *)
(** Any well-formed rest: the document is saved, by the rules of glTF if the rest
    keeps them, and every reading of the file finds the data of every call. *)
Theorem C102_data_partial before op after : Forall proper (before ++ op :: after) -> fits_memory (before ++ op :: after) -> faithful op ->
  exists d0 d, run_ops NewDocument before = Ok d0 /\ run_ops NewDocument (before ++ op :: after) = Ok d /\
  forall F X n rest asBinary prefix indent w fs, float_contract F -> wf_Document X n rest -> Z.of_nat n + 7 <= 10000 -> ready rest ->
    ws prefix -> ws indent -> no_failures w fs -> small_glb F X asBinary prefix indent (completed d rest) ->
  exists w' fs', Encode F X go_url asBinary prefix indent (completed d rest) w (Some fs) = (Ok tt, w', Some fs') /\
    (exists d', asset F X numeral (fun _ _ => False) (file_reader (cf_files fs')) (wr_out w') [] d') /\
    forall num other names d', asset F X num other (file_reader (cf_files fs')) (wr_out w') names d' ->
    names = [] /\
    (forall k s, nth_error (given op) k = Some s ->
     exists a, nth_error (doc_Accessors d') (List.length (doc_Accessors d0) + k) = Some (Some a) /\
       kind_ct (sk s) = Some (acr_ComponentType a, acr_Type a) /\ gltf_elements d' a (els s)) /\
    (forall name mime data, op = OpImage name mime (Ok data) ->
     exists im, nth_error (doc_Images d') (List.length (doc_Images d0)) = Some (Some im) /\ image_bytes d' im data).
Proof.
  intros P M FA. destruct (C101_runs _ P M) as (d & R). destruct (run_app _ _ _ _ R) as (d0 & R0 & R1). exists d0, d. split; [exact R0|]. split; [exact R|].
  intros F X n rest asBinary prefix indent w fs HF W N RD Hp Hi NF SZ. destruct (built_any X n _ d N P M R) as ((WD & _) & RDd & PL). destruct (completed_facts X n d rest WD RDd W RD) as [WC RC].
  destruct (C93_written_partial F X n asBinary prefix indent (completed d rest) w fs [] HF WC N RC Hp Hi NF PL (NoDup_nil _) SZ) as (w' & fs' & dd & E & A & CA).
  exists w', fs'. split; [exact E|]. split; [exists dd; exact A|]. intros num other names d' A'. destruct (C93_determined _ _ _ _ _ _ _ _ _ _ _ _ A A') as [<- <-]. split; [reflexivity|].
  cbn [run_ops] in R1. inv_ok R1. destruct (written_stays before op after d0 x d rest P Hx R1 FA) as [W1 W2]. split.
  - intros k s Hk. destruct (W1 k s Hk) as (a & Ha & K & G). destruct (proj1 CA _ a (els s) Ha G) as (a2 & Ha2 & G2 & K1 & K2 & _). exists a2. split; [exact Ha2|]. split; [rewrite K1, K2; exact K|exact G2].
  - intros name mime data E0. destruct (W2 name mime data E0) as (im & N0 & IB). exact (proj2 CA _ im data N0 IB).
Qed.
Print Assumptions C102_data_partial.

(** And every reading finds the rest as it was given, in the normal form of
    documents read from JSON (C41), and every accessor of the rest behind those of
    the calls. *)
Theorem C102_rest ops : Forall proper ops -> fits_memory ops ->
  exists d, run_ops NewDocument ops = Ok d /\
  forall F X n rest asBinary prefix indent w fs, float_contract F -> wf_Document X n rest -> Z.of_nat n + 7 <= 10000 -> ready rest ->
    ws prefix -> ws indent -> no_failures w fs -> small_glb F X asBinary prefix indent (completed d rest) ->
  exists w' fs', Encode F X go_url asBinary prefix indent (completed d rest) w (Some fs) = (Ok tt, w', Some fs') /\
    (exists d', asset F X numeral (fun _ _ => False) (file_reader (cf_files fs')) (wr_out w') [] d') /\
    forall num other names d', asset F X num other (file_reader (cf_files fs')) (wr_out w') names d' ->
    same_rest (norm_Document X rest) d' /\
    doc_Accessors d' = doc_Accessors (norm_Document X d) ++ doc_Accessors (norm_Document X rest) /\
    doc_BufferViews d' = doc_BufferViews (norm_Document X d) ++ doc_BufferViews (norm_Document X rest).
Proof.
  intros P M. destruct (C101_runs _ P M) as (d & R). exists d. split; [exact R|].
  intros F X n rest asBinary prefix indent w fs HF W N RD Hp Hi NF SZ. destruct (built_any X n _ d N P M R) as ((WD & _) & RDd & PL). destruct (completed_facts X n d rest WD RDd W RD) as [WC RC].
  destruct (C92_written_partial F X n asBinary prefix indent (completed d rest) w fs [] HF WC N RC Hp Hi NF PL (NoDup_nil _) SZ) as (w' & fs' & text & v & bin & bufs & E & T & Wv & K & _ & _ & C & G & _ & RS & DS).
  set (dd := with_contents (norm_Document X (embedded asBinary (completed d rest))) bufs (doc_Images (norm_Document X (embedded asBinary (completed d rest))))).
  assert (A : asset F X numeral (fun _ _ => False) (file_reader (cf_files fs')) (wr_out w') [] dd).
  { exists text, v, bin, (norm_Document X (embedded asBinary (completed d rest))), bufs. split; [exact T|]. split; [exact K|]. split; [exists (n + 7)%nat; split; [exact Wv|lia]|]. split; [exact C|]. split; [exact G|]. split; [exact RS|reflexivity]. }
  exists w', fs'. split; [exact E|]. split; [exists dd; exact A|]. intros num other names d' A'. destruct (C93_determined _ _ _ _ _ _ _ _ _ _ _ _ A A') as [_ <-].
  split; [repeat split|]. split; cbn; apply map_app.
Qed.
Print Assumptions C102_rest.

(** The library reads it back from the file, whatever the rest. *)
Theorem C102_read_partial before op after : Forall proper (before ++ op :: after) -> fits_memory (before ++ op :: after) -> separate op ->
  exists d0 d, run_ops NewDocument before = Ok d0 /\ run_ops NewDocument (before ++ op :: after) = Ok d /\
  forall F X U n rest asBinary prefix indent, float_contract F -> wf_Document X n rest -> Z.of_nat n + 7 <= 10000 -> Forall plain_image (doc_Images rest) ->
    ws prefix -> ws indent -> small_glb F X asBinary prefix indent (completed d rest) ->
  survives F X U asBinary prefix indent (completed d rest) (read_back op d0).
Proof.
  intros P M SE. destruct (C101_read_partial before op after P M SE) as (d0 & d & R0 & R & (B1 & B2) & _). exists d0, d. split; [exact R0|]. split; [exact R|].
  intros F X U n rest asBinary prefix indent HF W N PI Hp Hi SZ. destruct (built_any X n _ d N P M R) as ((WD & _ & PB & PId) & RDd & PL). pose proof (widened_extends d rest) as EX.
  assert (SD : storable_doc X n (completed d rest)).
  { split; [|split; [exact N|split; [exact PB|cbn; apply Forall_app; split; assumption]]]. destruct W as (S1 & S2 & S3 & S4 & S5 & S6 & S7 & S8 & S9 & S10 & S11 & S), WD as (A1 & A2 & A3 & A4 & A5 & A6 & A7 & A8 & A9 & A10 & A11 & A).
    refine (conj S1 (conj S2 (conj S3 (conj S4 (conj _ (conj S6 (conj S7 (conj A8 (conj _ (conj S10 (conj _ S))))))))))); cbn; apply Forall_app; split; assumption. }
  intros w fs NF. destruct (storable_survives F X U n asBinary prefix indent (completed d rest) HF SD Hp Hi SZ w fs NF) as (w' & fs' & E & K). exists w', fs'. split; [exact E|].
  intros rf r HR HE ES AL. destruct (K rf r HR HE ES AL) as (d2 & D2 & (L & RA & RV & RI)). exists d2. split; [exact D2|]. split.
  - intros k s Hk. destruct (B1 k s Hk) as (a & Ha & HA). assert (Ha' : nth_error (doc_Accessors (completed d rest)) (List.length (doc_Accessors d0) + k) = Some (Some a)) by (cbn [completed doc_Accessors]; rewrite nth_error_app1; [exact Ha|apply nth_error_Some; congruence]).
    destruct (RA _ a Ha') as (a2 & Ha2 & RR & _). exists a2. split; [exact Ha2|]. intros buffer p Hb. rewrite RR. exact (ReadAccessor_mono _ _ _ _ _ _ EX (HA buffer p Hb)).
  - intros name mime data E0. destruct (B2 name mime data E0) as (im & i & N0 & N1 & N2 & N3 & N4).
    assert (N0' : nth_error (doc_Images (completed d rest)) (List.length (doc_Images d0)) = Some (Some im)) by (cbn [completed doc_Images]; rewrite nth_error_app1; [exact N0|apply nth_error_Some; congruence]).
    pose proof (f_equal (fun l => nth_error l (List.length (doc_Images d0))) RI) as Q. cbv beta in Q. rewrite !nth_error_map, N0' in Q. cbn in Q.
    destruct (nth_error (doc_Images d2) (List.length (doc_Images d0))) as [[im2|]|]; cbn in Q; try discriminate. injection Q as Q1 Q2 Q3. exists im2, i. split; [reflexivity|]. split; [congruence|]. split; [congruence|]. split; [congruence|]. rewrite RV.
    exact (readBufferView_mono _ _ _ _ EX N4).
Qed.
Print Assumptions C102_read_partial.

(** A document with one mesh over the accessors written by [saved_ops], placed by
    one node of the scene. *)
Definition hand_made : Document :=
  set_doc_Nodes [Some (set_nod_Mesh (Some 0) zero_Node)]
    (set_doc_Meshes [Some (set_msh_Primitives (Some [Some (set_pri_Attributes (Some [("COLOR_0"%string, 3); ("POSITION"%string, 2)]) zero_Primitive)]) (set_msh_Name "Triangle" zero_Mesh))]
      (set_doc_Scenes [Some (set_scn_Nodes [0] (set_scn_Name "Root Scene" zero_Scene))] NewDocument)).
Example C102_example X n : Z.of_nat n + 7 <= 10000 ->
  Forall (fun op => proper op /\ faithful op /\ separate op) saved_ops /\ fits_memory saved_ops /\
  wf_Document X n hand_made /\ ready hand_made /\ Forall plain_image (doc_Images hand_made).
Proof.
  intros N. destruct C101_example as [E1 E2]. split; [|split; [exact E2|]].
  { rewrite Forall_forall in E1 |- *. intros op IN. destruct (E1 op IN) as [Q1 Q2]. pose proof C101_read_example as Q. rewrite Forall_forall in Q. exact (conj Q1 (conj Q2 (Q op IN))). }
  destruct (new_storable_any X n N) as ((W1 & W2 & W3 & W4 & W5 & W6 & W7 & W8 & W9 & W10 & W11 & W12 & W13 & W14 & W15 & W16 & W17 & W18 & W19) & _).
  assert (Uf : forall s, forallb (fun b => b2z b <? 128) (str_bytes s) = true -> utf8_str s) by exact ascii_utf8.
  assert (I0 : in_i64 0) by (vm_compute; split; congruence). assert (I2 : in_i64 2) by (vm_compute; split; congruence).
  split; [|split; [|constructor]].
  - refine (conj W1 (conj W2 (conj W3 (conj W4 (conj W5 (conj W6 (conj W7 (conj W8 (conj W9 (conj W10 (conj W11 (conj W12 (conj _ (conj _ (conj W15 (conj W16 (conj _ (conj W18 W19)))))))))))))))))); (constructor; [|constructor]); cbn.
    + unfold wf_Mesh. cbn. split; [apply wf_ext_nil|]. split; [apply wa_null|]. split; [apply Uf; reflexivity|]. split; [|constructor]. constructor; [|constructor]. cbn. unfold wf_Primitive. cbn. split; [apply wf_ext_nil|]. split; [apply wa_null|]. split.
      { split; [repeat constructor|]. constructor; [split; [apply Uf; reflexivity|vm_compute; split; congruence]|]. constructor; [|constructor]. split; [apply Uf; reflexivity|exact I2]. }
      split; [exact I|]. split; [exact I|]. split; [unfold range; lia|constructor].
    + unfold wf_Node. cbn. split; [apply wf_ext_nil|]. split; [apply wa_null|]. split; [apply Uf; reflexivity|]. split; [exact I|]. split; [constructor|]. split; [exact I|].
      assert (Z0 : forall k, farray k (repeat 0 k)) by (intros k; split; [apply repeat_length|apply Forall_forall; intros z IN; apply repeat_spec in IN as ->; split; [lia|reflexivity]]).
      exact (conj (Z0 16%nat) (conj I0 (conj (Z0 4%nat) (conj (Z0 3%nat) (conj (Z0 3%nat) (Forall_nil _)))))).
    + unfold wf_Scene. cbn. split; [apply wf_ext_nil|]. split; [apply wa_null|]. split; [apply Uf; reflexivity|repeat constructor; assumption].
  - unfold ready, r_mesh, r_node, r_scene, r_primitive, filled_attrs, index. cbn. repeat (split || constructor || discriminate || lia).
Qed.
(** The mesh of every reading is the one that was given. *)
Example C102_rest_example X : doc_Meshes (norm_Document X hand_made) = doc_Meshes hand_made /\ doc_Scenes (norm_Document X hand_made) = doc_Scenes hand_made.
Proof. split; reflexivity. Qed.
