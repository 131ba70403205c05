(** Properties of the JSON against the glTF 2.0 schema: C62, C63. *)
From Verif Require Import Base BaseFacts Types Doc F64 SpecText JsonText JsonStringProofs ScanSound Codec DocCodec SpecJson SpecJsonDoc
  CodecProofs CodecInv DocCodecBase DocCodecProofs DocInvBase Marshal SpecMarshal MarshalProofs Stream File SpecFile DecodeProofs EncodeProofs PropsJson PropsFile SpecSchema SchemaProofs SchemaAccept.

(** ** C62: what is written *)
Lemma ready_buffers d : ready d -> Forall (fun o => o <> None) (doc_Buffers d).
Proof. intros R. unfold ready in R. decompose [and] R. eapply Forall_impl; [|eassumption]. intros [b|] P; [discriminate|destruct P]. Qed.
Lemma ready_embedded a d : ready d -> ready (embedded a d).
Proof.
  unfold ready. cbn [embedded doc_Accessors doc_Animations doc_Buffers doc_BufferViews doc_Cameras doc_Images doc_Materials
    doc_Meshes doc_Nodes doc_Samplers doc_Scene doc_Scenes doc_Skins doc_Textures].
  intros R. decompose [and] R. split; [assumption|]. split; [assumption|]. split; [|repeat (split; [assumption|]); assumption].
  match goal with H : Forall _ (doc_Buffers d) |- _ => revert H end. generalize (doc_Buffers d). intros l B. unfold embedded_buffers.
  apply Forall_map. generalize (seq 0 (List.length l)). intros ks. revert ks. induction B as [|o l Ho B IH]; intros [|k ks]; cbn [combine]; try apply Forall_nil.
  apply Forall_cons; [|apply IH]. cbn [fst snd]. destruct o as [b|]; [|destruct Ho]. cbn. unfold embedded_buffer.
  destruct (buf_Data b); [exact Ho|]. destruct (buf_URI b); [|exact Ho]. destruct (a && (k =? 0)%nat); exact Ho.
Qed.

(** The text Encode writes for a document is the text of a tree that conforms
    to the schema; no member the schema does not know is written. *)
Theorem C62_schema F X n asBinary prefix indent d :
  float_contract F -> wf_Document X n d -> ready d -> ws prefix -> ws indent ->
  exists text v, marshalJSONDoc F X asBinary prefix indent d = Ok text /\ text_of v text /\ wf_json (n + 7) v /\
    conforms (fun s => json_number (str_bytes s)) (fun _ _ => False) s_gltf v.
Proof.
  intros HF W R Hp Hi. destruct (marshal_tree_spec F X n asBinary d HF W (ready_buffers d R)) as (m & E & Wm & _).
  exists (printed prefix indent (JObj m)), (JObj m). unfold marshalJSONDoc. rewrite E. split; [reflexivity|].
  split; [apply printed_text; assumption|]. split; [exact Wm|].
  unfold marshal_tree in E. rewrite (custom_buffers_spec asBinary _ 0 (ready_buffers d R)) in E. cbn [bind] in E.
  fold (embedded_buffers asBinary (doc_Buffers d)) in E. rewrite set_buffers_embedded in E.
  exact (ec_Document F X HF n _ (embedded_wf X n asBinary d W) (ready_embedded asBinary d R) _ E).
Qed.
Print Assumptions C62_schema.

(** A textured, animated mesh with a camera. *)
Definition scene_doc : Document :=
  set_doc_Accessors [Some (mkAccessor [] VNull "" (Some 0) 0 CFloat false 3 AVec3 [f64_one; f64_one; f64_one] [0; 0; 0] None)]
  (set_doc_Buffers [Some (mkBuffer [] VNull "" "" 3 (str_bytes "abc"))]
  (set_doc_BufferViews [Some (mkBufferView [] VNull 0 0 36 12 34962 "")]
  (set_doc_Cameras [Some (set_cam_Perspective (Some (mkPerspective [] VNull None f64_one None f64_half)) zero_Camera)]
  (set_doc_Meshes [Some (mkMesh [] VNull "m" (Some [Some (mkPrimitive [] VNull (Some [("POSITION"%string, 0)]) None (Some 0) 1 [])]) [])]
  (set_doc_Materials [Some (set_mat_NormalTexture (Some (mkNormalTexture [] VNull (Some 0) 1 None)) zero_Material)]
  (set_doc_Nodes [Some (set_nod_Mesh (Some 0) (set_nod_Rotation [0; f64_one; 0; 0] zero_Node))]
  (set_doc_Animations [Some (mkAnimation [] VNull "" (Some [Some (mkAnimationChannel [] VNull 0 (mkAnimationChannelTarget [] VNull (Some 0) 1))])
     (Some [Some (mkAnimationSampler [] VNull 0 2 0)]))]
  (set_doc_Scene (Some 0) zero_Document)))))))).
Lemma scene_doc_wf : wf_Document sample_exts 0 scene_doc.
Proof.
  unfold wf_Document, wf_Accessor, wf_Buffer, wf_BufferView, wf_Camera, wf_Mesh, wf_Material, wf_Node, wf_Animation, wf_AnimationChannel,
    wf_AnimationSampler, wf_Primitive, wf_Perspective, wf_NormalTexture, wf_AnimationChannelTarget, wf_Asset.
  cbn.
  assert (U : forall s, forallb (fun b => b2z b <? 128) (str_bytes s) = true -> utf8_str s) by exact ascii_utf8.
  repeat first [ exact I | apply wf_ext_nil | apply wa_null | exact float_ok_0 | exact float_ok_one | exact float_ok_half
    | apply Forall_nil | apply Forall_cons | (apply U; reflexivity) | reflexivity | apply sk_one
    | (unfold in_i64, range; cbn -[Z.pow Z.opp]; rewrite ?p63; lia) | (right; discriminate) | apply conj ].
Qed.
Lemma scene_doc_ready : ready scene_doc.
Proof.
  unfold ready, r_accessor, r_buffer, r_bufferView, r_mesh, r_material, r_node, r_animation. cbn. unfold r_normalTexture, r_animationChannel, r_animationSampler, r_primitive, filled_attrs, index. cbn.
  repeat first [ exact I | apply Forall_nil | apply Forall_cons | discriminate | reflexivity | (cbn; lia) | tauto | apply conj ].
Qed.
Example C62_case :
  exists text v, marshalJSONDoc sample_floats sample_exts false [] (str_bytes "  ") scene_doc = Ok text /\ text_of v text /\
    conforms (fun s => json_number (str_bytes s)) (fun _ _ => False) s_gltf v /\ (600 < List.length text)%nat.
Proof.
  destruct (C62_schema sample_floats sample_exts 0 false [] (str_bytes "  ") scene_doc sample_float_contract scene_doc_wf scene_doc_ready)
    as (text & v & E & T & _ & C); [constructor|repeat constructor|].
  exists text, v. repeat (split; [assumption|]). revert E. clear. intros E.
  assert (K : exists t, marshalJSONDoc sample_floats sample_exts false [] (str_bytes "  ") scene_doc = Ok t /\ (600 <? List.length t)%nat = true).
  { eexists. split; [vm_compute; reflexivity|vm_compute; reflexivity]. }
  destruct K as (t & Et & L). rewrite Et in E. injection E as ->. apply Nat.ltb_lt. exact L.
Qed.
(** The schema is not vacuous: a member written under another name, a string
    in place of an index and a missing member do not conform. *)
Example C62_strict : forall num,
  ~ conforms num (fun _ _ => False) s_bufferView (JObj [("buffer", JNum "0"); ("byteLength", JNum "4"); ("byteStrides", JNum "4")]%string) /\
  ~ conforms num (fun _ _ => False) s_scene (JObj [("nodes", JArr [JStr "0"])]%string) /\
  ~ conforms num (fun _ _ => False) s_asset (JObj []).
Proof.
  intros num. split; [|split]; intros C; inversion C as [| | | | | | | | | | |? ? ? ND RQ FM]; subst.
  - apply Forall_inv_tail, Forall_inv_tail, Forall_inv in FM. destruct FM as (k & U & [(s & I & _)|[]]); vm_compute in U; injection U as <-.
    cbn in I. intuition discriminate.
  - apply Forall_inv in FM. destruct FM as (k & U & [(s & I & C')|[]]); vm_compute in U; injection U as <-.
    cbn in I. repeat (destruct I as [I|I]; [try discriminate I|]); [|destruct I]. injection I as <-. cbn [snd] in C'.
    inversion C' as [| | | | | | | |? ? ? ? FL| | |]; subst. apply Forall_inv in FL. inversion FL.
  - apply Forall_inv in RQ. destruct RQ as (p & [] & _).
Qed.

(** ** C63: what is read *)
(** A member the schema does not define may have any name; the decoder takes
    it for a defined one that differs in letter case only. *)
Definition variant_text : string := q "{'asset':{'version':'2.0'},'Scene':'main'}".
Definition variant_tree : json := JObj [("asset", JObj [("version", JStr "2.0")]); ("Scene", JStr "main")]%string.
Theorem C63_accept_refuted :
  exists F X U t v, float_contract F /\ registry_total X /\ text_of v (str_bytes t) /\ wf_json 2 v /\
    conforms (in_float_range F) (fun names k => ~ In k names) s_gltf v /\
    forall fsys, exists e, Decode F X U fsys zero_Document (NewReader (mkReader [str_bytes t] ErrEOF false)) = ([], Err e).
Proof.
  exists sample_floats, sample_exts, sample_url, variant_text, variant_tree. split; [exact sample_float_contract|]. split; [exact sample_registry_total|].
  split.
  { change (str_bytes variant_text) with ("{"%char :: ([] ++ (z2b 34 :: str_bytes "asset" ++ [z2b 34]) ++ [] ++ ":"%char :: [] ++
      ("{"%char :: ([] ++ (z2b 34 :: str_bytes "version" ++ [z2b 34]) ++ [] ++ ":"%char :: [] ++ (z2b 34 :: str_bytes "2.0" ++ [z2b 34]) ++ []) ++ str_bytes "}") ++ [] ++
      ","%char :: ([] ++ (z2b 34 :: str_bytes "Scene" ++ [z2b 34]) ++ [] ++ ":"%char :: [] ++ (z2b 34 :: str_bytes "main" ++ [z2b 34]) ++ [])) ++ str_bytes "}").
    unfold variant_tree. repeat constructor. }
  split.
  { assert (B : forall s, forallb (fun c => (32 <=? b2z c) && (b2z c <? 128) && negb (b2z c =? 34) && negb (b2z c =? 92)) (str_bytes s) = true -> string_body (str_bytes s)).
    { intros s H. generalize (str_bytes s), H. clear. induction l as [|c l IH]; intros H; [constructor|]. cbn [forallb] in H. apply andb_prop in H as [H1 H2].
      apply sb_char; [lia..|apply IH; exact H2]. }
    unfold variant_tree. repeat (cbn [fst snd]; first [apply B; reflexivity|constructor]). }
  split; [|intros fsys; eexists; vm_compute; reflexivity].
  constructor.
  - repeat constructor; cbn; intuition discriminate.
  - repeat constructor. eexists. split; [left; reflexivity|reflexivity].
  - apply Forall_cons; [|apply Forall_cons; [|constructor]].
    + exists "asset"%string. split; [reflexivity|]. left. exists s_asset. split; [left; reflexivity|]. constructor.
      * repeat constructor. intros [].
      * repeat constructor. eexists. split; [left; reflexivity|reflexivity].
      * repeat constructor. exists "version"%string. split; [reflexivity|]. left. exists SStr. split; [left; reflexivity|constructor].
    + exists "Scene"%string. split; [reflexivity|]. right. cbn. intuition discriminate.
Qed.
Print Assumptions C63_accept_refuted.

(** Otherwise the JSON is accepted, whatever the reader's pieces: the tree may
    hold any undefined member whose name does not match a defined one, and any
    number in the range of float64. *)
Theorem C63_accept_partial F X n v t rest r old :
  registry_total X ->
  text_of v t -> wf_json n v -> Z.of_nat n <= 10000 ->
  conforms (in_float_range F) unrelated s_gltf v ->
  reads_to_eof r -> stream r = t ++ rest ->
  exists doc, fst (decodeDocument F X old (NewReader r)) = Ok (false, doc).
Proof.
  intros RT T W D C R S.
  destruct (dc_Document F X RT n old v W C) as [doc E]. exists doc.
  assert (exists m, v = JObj m) as [m ->] by (inversion C; eexists; reflexivity).
  rewrite (decodeDocument_text F X old r R).
  - rewrite S, (whole_container _ _ n rest T I W D). cbn [bind]. rewrite E. reflexivity.
  - rewrite S. inversion T; subst. apply brace_text.
Qed.
Print Assumptions C63_accept_partial.

(** Two nodes, one a child of the other, and a vendor member. *)
Definition plain_tree : json :=
  JObj [("asset", JObj [("version", JStr "2.0")]); ("vendor", JArr [JNull]); ("scene", JNum "0"); ("scenes", JArr [JObj [("nodes", JArr [JNum "0"])]]);
        ("nodes", JArr [JObj [("children", JArr [JNum "1"]); ("extras", JObj [("a", JNum "7")])]; JObj [("scale", JArr [JNum "1"; JNum "2"; JNum "1"])]])]%string.
Ltac inl := first [left; reflexivity|right; inl].
Ltac member := eexists; split; [reflexivity|];
  first [ left; eexists; split; [cbn; inl|]
        | right; repeat (apply Forall_cons; [vm_compute; reflexivity|]); apply Forall_nil ].
Ltac obj := apply cf_obj;
  [ cbn; repeat (apply NoDup_cons; [cbn; intuition discriminate|]); apply NoDup_nil
  | repeat (apply Forall_cons; [eexists; split; [cbn; inl|reflexivity]|]); apply Forall_nil
  | repeat (apply Forall_cons; [member|]); try apply Forall_nil; cbn [snd] ].
Lemma plain_tree_conforms : conforms (in_float_range sample_floats) unrelated s_gltf plain_tree.
Proof.
  unfold plain_tree.
  assert (I : forall lo s n, parse_int s = Some n -> (n = 0 -> s = "0"%string) -> lo <= n -> in_i64 n ->
    conforms (in_float_range sample_floats) unrelated (SInt lo) (JNum s)).
  { intros lo s n P Z L I. econstructor; [exact (decimal_of_parse s n P Z)|exact L|exact I]. }
  assert (B : forall s, parse64 sample_floats s <> None -> conforms (in_float_range sample_floats) unrelated SNum (JNum s)).
  { intros s H. constructor. exact H. }
  assert (J0 : conforms (in_float_range sample_floats) unrelated s_id (JNum "0")) by (apply (I _ _ 0); [reflexivity|reflexivity|lia|unfold in_i64; lia]).
  assert (J1 : conforms (in_float_range sample_floats) unrelated s_id (JNum "1")) by (apply (I _ _ 1); [reflexivity|discriminate|lia|unfold in_i64; lia]).
  repeat first [ exact J0 | exact J1 | (apply B; vm_compute; discriminate) | apply cf_str | (apply cf_list; [cbn; lia|]) | (apply cf_tuple; [reflexivity|])
    | apply Forall_nil | apply Forall_cons | obj | apply cf_free | apply fr_obj | (apply fr_num; vm_compute; discriminate) ].
Qed.
Example C63_case : exists r doc, reads_to_eof r /\ stream r = print_compact plain_tree ++ str_bytes "{" /\
  fst (decodeDocument sample_floats sample_exts zero_Document (NewReader r)) = Ok (false, doc) /\
  doc_Scene doc = Some 0 /\ List.length (doc_Nodes doc) = 2%nat.
Proof.
  set (r := mkReader [print_compact plain_tree; str_bytes "{"] ErrEOF false).
  assert (R : reads_to_eof r). { split; [repeat constructor; discriminate|reflexivity]. }
  assert (S : stream r = print_compact plain_tree ++ str_bytes "{") by reflexivity.
  assert (SC : scan start (print_compact plain_tree) = Done plain_tree []) by (vm_compute; reflexivity).
  destruct (scan_sound _ _ _ SC) as (_ & _ & _ & _ & _ & W).
  destruct (C63_accept_partial sample_floats sample_exts (Z.to_nat max_depth) plain_tree (print_compact plain_tree) (str_bytes "{") r zero_Document) as [doc E]; try assumption.
  - exact sample_registry_total.
  - apply print_compact_text.
  - unfold max_depth. lia.
  - exact plain_tree_conforms.
  - exists r, doc. split; [exact R|]. split; [exact S|]. split; [exact E|].
    assert (V : exists d, fst (decodeDocument sample_floats sample_exts zero_Document (NewReader r)) = Ok (false, d) /\
      doc_Scene d = Some 0 /\ List.length (doc_Nodes d) = 2%nat).
    { eexists. split; [vm_compute; reflexivity|]. split; reflexivity. }
    destruct V as (d & V & D). rewrite E in V. injection V as ->. exact D.
Qed.
