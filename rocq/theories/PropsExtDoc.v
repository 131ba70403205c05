(** C70: documents holding values of the ext packages. *)
From Verif Require Import Base BaseFacts Types Doc F64 SpecText JsonText JsonTextProofs JsonStringProofs ScanSound Codec DocCodec SpecJson SpecJsonDoc
  CodecProofs CodecInv DocCodecBase DocCodecProofs DocInvBase DocCodecInv Marshal SpecMarshal MarshalProofs PropsJson Stream StreamProofs File SpecFile DecodeProofs EncodeProofs PropsFile PropsRoundTrip
  HtmlFixed Ext SpecExt ExtTransform ExtSpecular ExtProofs PropsExt ExtRegistry ExtRegistryProofs Strconv PropsFloat.

(** ** The registry meets the assumptions of the other properties *)
(** Whatever is imported, no payload makes Decode panic; with only
    texturetransform and unlit imported, whatever was decoded is written, and
    settles after one round. *)
Theorem C70_registry F imports depth :
  registry_total (go_exts F imports depth) /\
  (forall n, float_contract F -> parse_contract F -> float_text F -> imports Lightspunctual = false -> imports Specular = false -> (2 <= n)%nat ->
   registry_ok (go_exts F imports depth) n).
Proof. split; [apply go_total|]. intros n HF PC HT IL IS N. exact (go_registry_ok F imports depth n HF PC HT (conj IL IS) N). Qed.
Print Assumptions C70_registry.

(** ** One value in a document *)
Definition saved_as (X : ext_lib) (n : nat) (k : string) (e e' : extv) : Prop := wf_extv X n k e /\ norm_extv X k e = e'.
Lemma saved_intro F imports depth p n v j f : imports p = true -> Marshal F (inner F imports depth) p v = Ok j -> wf_json n j ->
  Unmarshal F (inner F imports depth) p = Some f ->
  saved_as (go_exts F imports depth) n (ext_name p) (EVal v) (match f (html_json j) with Ok v' => EVal v' | _ => ERaw (html_json j) end).
Proof.
  intros I M W U. split.
  - exists j. rewrite go_encoder by exact I. split; [exact M|]. split; [exact W|]. intros g G. exact (go_total F imports depth _ _ _ G).
  - unfold norm_extv. rewrite go_encoder by exact I. rewrite M. unfold read_payload. rewrite go_registered by exact I. rewrite U. reflexivity.
Qed.

Theorem C70_transform F imports depth t : float_contract F -> float_text F -> imports Texturetransform = true -> wf_TT t ->
  saved_as (go_exts F imports depth) 2 "KHR_texture_transform" (EVal (tt_any t)) (EVal (tt_any (norm_TT t))).
Proof.
  intros HF HT I W. destruct (tt_saved F t HF HT W) as (j & M & Wj & H & D).
  pose proof (fun f => saved_intro F imports depth Texturetransform 2 (tt_any t) j f I) as S. cbn [Marshal Unmarshal] in S. rewrite tt_inv in S.
  specialize (S _ M Wj eq_refl). cbv beta in S. rewrite H, D in S. exact S.
Qed.
Print Assumptions C70_transform.
Theorem C70_unlit F imports depth n u : imports Unlitpkg = true -> sorted_keys u -> Forall (fun p => utf8_str (fst p) /\ wf_json n (snd p)) u ->
  saved_as (go_exts F imports depth) (S n) "KHR_materials_unlit" (EVal (unlit_any u)) (EVal (unlit_any (rendered u))).
Proof.
  intros I S V. destruct (unlit_saved n u S V) as (j & M & Wj & H & D & _).
  pose proof (fun f => saved_intro F imports depth Unlitpkg (Datatypes.S n) (unlit_any u) j f I) as Q. cbn [Marshal Unmarshal] in Q. rewrite unlit_inv in Q.
  specialize (Q _ M Wj eq_refl). cbv beta in Q. rewrite H, D in Q. exact Q.
Qed.
Print Assumptions C70_unlit.
Theorem C70_specular_partial F imports depth n p : float_contract F -> float_text F -> imports Specular = true -> (n + 3 <= Z.to_nat max_depth)%nat ->
  wf_SG (go_exts F imports depth) n p -> clean_SG F (go_exts F imports depth) p ->
  saved_as (go_exts F imports (S depth)) (n + 3) "KHR_materials_pbrSpecularGlossiness" (EVal (sg_any p)) (EVal (sg_any (norm_SG (go_exts F imports depth) p))).
Proof.
  intros HF HT I N W C. set (X := go_exts F imports depth) in *.
  destruct (sg_text F X n HF HT p W C) as (m & Em & T). destruct (sg_fields F X n HF p W) as (m' & Em' & Wm & D).
  rewrite Em in Em'. injection Em' as <-. destruct (C47_partial F X n p HF HT N W C) as (text & j & T' & _ & P & M & D').
  rewrite T in T'. injection T' as <-. rewrite (parse_print m _ Wm ltac:(lia)) in P. injection P as <-.
  assert (H : html_json (JObj m) = JObj m).
  { unfold marshaler in M. apply bind_ok in M. destruct M as (tx & _ & M). apply bind_ok in M. destruct M as (jj & _ & M). injection M as M. rewrite <- M. apply html_json_idem. }
  pose proof (fun f => saved_intro F imports (S depth) Specular (n + 3) (sg_any p) (JObj m) f I) as Q. cbn [Marshal Unmarshal inner] in Q. rewrite sg_inv in Q.
  specialize (Q _ M Wm eq_refl). cbv beta in Q. fold X in Q. rewrite H, D in Q. exact Q.
Qed.
Print Assumptions C70_specular_partial.
(** Lights and light indices come back as raw JSON: the array or the number,
    without the object around it. *)
Theorem C70_lights_lost F imports depth v : float_contract F -> imports Lightspunctual = true ->
  match v with LightIndex i => in_i64 i | LightList l => exists ls, l = Some ls /\ Forall (opt wf_Light) ls end ->
  exists j, lights_Marshal F v = Ok j /\ (forall m, j <> JObj m) /\
    saved_as (go_exts F imports depth) 3 "KHR_lights_punctual" (EVal (lights_any v)) (ERaw (html_json j)).
Proof.
  intros HF I W.
  assert (exists j, lights_Marshal F v = Ok j /\ (forall m, j <> JObj m) /\ wf_json 3 j /\ exists e, lights_Unmarshal F (html_json j) = Err e) as (j & M & O & Wj & e & E).
  { destruct v as [i|l].
    - destruct (rt_int 0 0 i W) as (j & E & Wj & D). exists j. split; [exact E|]. split; [injection E as <-; discriminate|]. split; [exact (wf_json_mono _ _ 3 Wj ltac:(lia))|].
      injection E as <-. eexists. reflexivity.
    - destruct W as (ls & -> & W). destruct (rt_Lights F HF (Some ls) W) as (j & E & Wj & D). exists j. split; [exact E|].
      assert (exists l, j = JArr l) as [l ->] by (cbn in E; apply bind_ok in E; destruct E as (js & _ & [= <-]); eexists; reflexivity).
      split; [discriminate|]. split; [exact Wj|]. eexists. reflexivity. }
  exists j. split; [exact M|]. split; [exact O|].
  pose proof (fun f => saved_intro F imports depth Lightspunctual 3 (lights_any v) j f I) as Q. cbn [Marshal Unmarshal] in Q. rewrite lights_inv in Q.
  specialize (Q _ M Wj eq_refl). cbv beta in Q. rewrite E in Q. exact Q.
Qed.
Print Assumptions C70_lights_lost.

(** The unfolding of the registry inside textures is no restriction: JSON is
    nested at most 10000 deep, and from depth 3334 on every payload gives the
    same value. *)
Theorem C70_depth F imports depth k j : (3334 <= depth)%nat -> wf_json (Z.to_nat max_depth) j ->
  dec_extv (go_exts F imports depth) k j = dec_extv (go_exts F imports 3334) k j.
Proof. intros L W. symmetry. apply (go_depth F imports 3334 depth (Z.to_nat max_depth) k j L); [unfold max_depth; lia|exact W]. Qed.
Print Assumptions C70_depth.

(** ** Documents *)
(** Everything that was decoded is written again, and from then on neither the
    text nor the document changes: with the number texts of strconv and the
    registry of the ext packages nothing is left to assume. *)
Theorem C70_stable_partial imports depth n asBinary prefix indent v w t rest y :
  imports Lightspunctual = false -> imports Specular = false ->
  (2 <= n)%nat -> Z.of_nat n + 7 <= 10000 -> ws prefix -> ws indent ->
  ws w -> text_of v t -> container v -> wf_json n v ->
  let X := go_exts go_floats imports depth in
  json_decode (c_Document go_floats X) zero_Document (w ++ t ++ rest) = Ok (y, rest) ->
  projected y -> Forall (fun o => o <> None) (doc_Buffers y) ->
  exists text1,
    marshalJSONDoc go_floats X asBinary prefix indent y = Ok text1 /\
    json_decode (c_Document go_floats X) zero_Document text1 = Ok (norm_Document X y, []) /\
    exists text2,
      marshalJSONDoc go_floats X asBinary prefix indent (norm_Document X y) = Ok text2 /\
      json_decode (c_Document go_floats X) zero_Document text2 = Ok (norm_Document X y, []).
Proof.
  intros IL IS N L Hp Hi Hw T C W X D P B. destruct C69_contracts as (HF & PC & HT).
  exact (C42_stable_partial go_floats X n asBinary prefix indent v w t rest y HF PC (go_total _ _ _)
    (go_registry_ok go_floats imports depth n HF PC HT (conj IL IS) N) L Hp Hi Hw T C W D P B).
Qed.
Print Assumptions C70_stable_partial.

(** Saving and opening a document with transforms and unlit materials. *)
Theorem C70_save_open_partial U imports depth n dir name asBinary d disk :
  let X := go_exts go_floats imports depth in
  imports Texturetransform = true -> imports Unlitpkg = true -> storable_doc X n d ->
  (forall text, marshalJSONDoc go_floats X asBinary [] [] d = Ok text -> asBinary = true -> glb_size text d < 2 ^ 32) ->
  NoDup (map fst (buffer_files (doc_Buffers d))) ->
  (forall m, In m (map fst (buffer_files (doc_Buffers d))) -> dir ++ "/"%char :: m <> name) ->
  exists disk', save go_floats X U dir name asBinary d (mkFaults None [] [] None) disk = (Ok tt, disk') /\
    forall rd, (forall c, reads_to_eof (rd c) /\ stream (rd c) = c /\ (asBinary = true -> Forall (fun p => zlen p mod 4 = 0) (rd_pieces (rd c)))) ->
    exists d', snd (Open go_floats X U dir name disk' rd) = Ok d' /\
    forall i m, nth_error (doc_Materials d) i = Some (Some m) ->
    exists m', nth_error (doc_Materials d') i = Some (Some m') /\
      (forall k u, In ("KHR_materials_unlit"%string, EVal (unlit_any u)) (mat_Extensions m) ->
         sorted_keys u -> Forall (fun p => utf8_str (fst p) /\ wf_json k (snd p)) u ->
         In ("KHR_materials_unlit"%string, EVal (unlit_any (rendered u))) (mat_Extensions m')) /\
      (forall p x t, mat_PBRMetallicRoughness m = Some p -> pbr_BaseColorTexture p = Some x ->
         In ("KHR_texture_transform"%string, EVal (tt_any t)) (txi_Extensions x) -> wf_TT t ->
         exists p' x', mat_PBRMetallicRoughness m' = Some p' /\ pbr_BaseColorTexture p' = Some x' /\
           In ("KHR_texture_transform"%string, EVal (tt_any (norm_TT t))) (txi_Extensions x')).
Proof.
  intros X IT IU SD SZ ND NN. destruct C69_contracts as (HF & PC & HT).
  destruct (C58_save_open_partial go_floats X U n dir name asBinary d disk HF SD SZ ND NN) as (disk' & E & O).
  exists disk'. split; [exact E|]. intros rd HR. eexists. split; [exact (O rd HR)|].
  intros i m Hm. exists (norm_Material X m). split.
  { cbn [restored doc_Materials norm_Document]. rewrite nth_error_map, Hm. reflexivity. }
  assert (IN : forall k e l, In (k, e) l -> In (k, norm_extv X k e) (norm_ext X l)) by (intros k e l H; apply in_map_iff; exists (k, e); split; [reflexivity|exact H]).
  split.
  - intros k u H S V. apply IN in H. destruct (C70_unlit go_floats imports depth k u IU S V) as [_ Q]. fold X in Q. rewrite Q in H. exact H.
  - intros p x t Hp Hx H W. exists (norm_PBRMetallicRoughness X p), (norm_TextureInfo X x). cbn [norm_Material mat_PBRMetallicRoughness]. rewrite Hp.
    split; [reflexivity|]. cbn [norm_PBRMetallicRoughness pbr_BaseColorTexture]. rewrite Hx. split; [reflexivity|].
    apply IN in H. destruct (C70_transform go_floats imports depth t HF HT IT W) as [_ Q]. fold X in Q. rewrite Q in H. exact H.
Qed.
Print Assumptions C70_save_open_partial.

(** ** What cannot be saved *)
Definition all_packages (p : package) : bool := true.
Definition go_all : ext_lib := go_exts go_floats all_packages 3.
(** Valid documents that are decoded and cannot be written: a light without a
    range, whose range becomes infinite; an extras member inside a
    specular-glossiness texture that looks like a factor. *)
Definition light_text : bytes := text_lit
  "{`asset`:{`version`:`2.0`},`extensions`:{`KHR_lights_punctual`:{`lights`:[{`type`:`point`}]}}}".
Definition glossy_text : bytes := text_lit
  "{`asset`:{`version`:`2.0`},`materials`:[{`extensions`:{`KHR_materials_pbrSpecularGlossiness`:{`diffuseTexture`:{`index`:0,`extras`:{`glossinessFactor`:10}}}}}]}".
Theorem C70_unsavable_refuted :
  (exists y e, json_decode (c_Document go_floats go_all) zero_Document light_text = Ok (y, []) /\
     marshalJSONDoc go_floats go_all false [] [] y = Err e) /\
  (exists y e, json_decode (c_Document go_floats go_all) zero_Document glossy_text = Ok (y, []) /\
     marshalJSONDoc go_floats go_all false [] [] y = Err e).
Proof. split; do 2 eexists; (split; [vm_compute; reflexivity|]); vm_compute; reflexivity. Qed.
Print Assumptions C70_unsavable_refuted.
Definition written {T} (x : T) (f : field T) : Prop :=
  match f with Fld _ get _ c omit => omit (get x) = false -> exists j, enc c (get x) = Ok j end.
Lemma enc_fields_in {T} (fs : list (field T)) x m : enc_fields fs x = Ok m -> Forall (written x) fs.
Proof.
  revert m. induction fs as [|[A name get set c omit] fs IH]; intros m E; [constructor|]. cbn [enc_fields] in E.
  destruct (omit (get x)) eqn:O.
  - constructor; [cbn [written]; congruence|exact (IH m E)].
  - apply bind_ok in E. destruct E as (j & Ej & E). apply bind_ok in E. destruct E as (m' & Em & _). constructor; [intros _; exists j; exact Ej|exact (IH m' Em)].
Qed.
Lemma buffers_extensions bs d : doc_Extensions (set_doc_Buffers bs d) = doc_Extensions d.
Proof. reflexivity. Qed.
Lemma document_fields F X d j : enc (c_Document F X) d = Ok j -> exists m, enc_fields (out_Document F X) d = Ok m.
Proof.
  assert (Q : enc (c_Document F X) = enc_struct (out_Document F X)) by reflexivity. rewrite Q. generalize (out_Document F X). clear. intros fs E.
  unfold enc_struct in E. apply bind_ok in E. destruct E as (m & E & _). exists m. exact E.
Qed.
Lemma document_extensions F X d : Forall (written d) (out_Document F X) ->
  written d (Fld "extensions" doc_Extensions set_doc_Extensions (c_ext X) is_nil).
Proof. unfold out_Document. intros H. exact (Forall_inv (Forall_inv_tail H)). Qed.
Lemma marshalled_extensions F X asBinary prefix indent d text : marshalJSONDoc F X asBinary prefix indent d = Ok text ->
  doc_Extensions d <> [] -> exists j, enc_ext X (doc_Extensions d) = Ok j.
Proof.
  intros E N. unfold marshalJSONDoc in E. apply bind_ok in E. destruct E as (j & E & _). unfold marshal_tree in E.
  apply bind_ok in E. destruct E as (bs & _ & E). destruct (document_fields F X _ _ E) as (m & G).
  apply enc_fields_in in G. apply document_extensions in G. cbn [written] in G. rewrite buffers_extensions in G. cbn [enc c_ext] in G. apply G.
  destruct (doc_Extensions d); [destruct N|]; reflexivity.
Qed.
Lemma lights_encoder F imports depth v : imports Lightspunctual = true ->
  ext_enc (go_exts F imports depth) "KHR_lights_punctual" (lights_any v) = lights_Marshal F v.
Proof.
  intros I. rewrite (go_encoder F imports depth Lightspunctual (lights_any v) I : ext_enc (go_exts F imports depth) "KHR_lights_punctual" (lights_any v) = _).
  unfold Marshal. rewrite lights_inv. reflexivity.
Qed.
(** No document with such a light can be written. *)
Theorem C70_endless_light F imports depth asBinary prefix indent d ls l :
  imports Lightspunctual = true -> In ("KHR_lights_punctual"%string, EVal (lights_any (LightList (Some ls)))) (doc_Extensions d) ->
  In (Some l) ls -> lig_Range l = Some f64_inf ->
  forall text, marshalJSONDoc F (go_exts F imports depth) asBinary prefix indent d <> Ok text.
Proof.
  intros I HE HL R text E. apply marshalled_extensions in E; [|intros N; rewrite N in HE; destruct HE]. destruct E as (j0 & E).
  unfold enc_ext in E. apply bind_ok in E. destruct E as (js & E & _).
  refine (traverse_in _ _ _ HE _ _ E). cbn [fst snd enc_extv]. intros y Y. apply bind_ok in Y. destruct Y as (j1 & Y & _). apply bind_ok in Y. destruct Y as (j2 & Y & _).
  pose proof (eq_trans (eq_sym (lights_encoder F imports depth _ I)) Y) as M. clear Y. cbn [lights_Marshal] in M. unfold c_Lights in M. cbn [enc c_oslice] in M.
  apply bind_ok in M. destruct M as (js' & M & _).
  refine (traverse_in _ _ _ HL _ _ M). intros z Z. exact (inf_light F l z R Z).
Qed.
Print Assumptions C70_endless_light.

(** ** The hypotheses are met *)
Definition two_packages (p : package) : bool := match p with Texturetransform | Unlitpkg => true | _ => false end.
Definition go_two : ext_lib := go_exts go_floats two_packages 3.
Definition moved_text : bytes := text_lit
  "{`asset`:{`version`:`2.0`},`materials`:[{`extensions`:{`KHR_materials_unlit`:{}},`pbrMetallicRoughness`:{`baseColorTexture`:{`index`:1,`extensions`:{`KHR_texture_transform`:{`offset`:[0.5,0],`texCoord`:1}}}}}]}".
Example C70_stable_case :
  two_packages Lightspunctual = false /\ two_packages Specular = false /\
  exists y, json_decode (c_Document go_floats go_two) zero_Document moved_text = Ok (y, []) /\ projected y /\ Forall (fun o => o <> None) (doc_Buffers y) /\
    exists m p x, doc_Materials y = [Some m] /\ mat_PBRMetallicRoughness m = Some p /\ pbr_BaseColorTexture p = Some x /\
      mat_Extensions m = [("KHR_materials_unlit"%string, EVal (unlit_any []))] /\
      txi_Extensions x = [("KHR_texture_transform"%string, EVal (tt_any (mkTT [f64_half; 0] 0 [one; one] (Some 1))))] /\
      wf_TT (mkTT [f64_half; 0] 0 [one; one] (Some 1)).
Proof.
  split; [reflexivity|]. split; [reflexivity|]. eexists. split; [vm_compute; reflexivity|]. split; [constructor|]. split; [constructor|].
  do 3 eexists. split; [reflexivity|]. split; [reflexivity|]. split; [reflexivity|]. split; [reflexivity|]. split; [reflexivity|].
  repeat split; repeat constructor; vm_compute; intuition discriminate.
Qed.
Example C70_depth_case : dec_extv (go_exts go_floats two_packages 1) "KHR_texture_transform" (JObj [("texCoord"%string, JNum "7")]) =
  Ok (EVal (tt_any (mkTT [0; 0] 0 [one; one] (Some 7)))).
Proof. vm_compute. reflexivity. Qed.
(** The decoded document can be stored, as C70_save_open_partial asks. *)
Fixpoint shallow (n : nat) (j : json) : bool :=
  match j, n with
  | JArr l, S n => forallb (shallow n) l
  | JObj m, S n => forallb (fun p => shallow n (snd p)) m
  | JArr _, O | JObj _, O => false
  | _, _ => true
  end.
Lemma shallow_wf n : forall k j, wf_json k j -> shallow n j = true -> wf_json n j.
Proof.
  induction n as [|n IH]; intros k j W H; inversion W; subst; try (constructor; assumption); try discriminate; cbn [shallow] in H; rewrite forallb_forall in H.
  - constructor. apply Forall_forall. intros x Hx. match goal with F : Forall _ l |- _ => rewrite Forall_forall in F; exact (IH _ x (F x Hx) (H x Hx)) end.
  - constructor. apply Forall_forall. intros x Hx. match goal with F : Forall _ m |- _ => rewrite Forall_forall in F; destruct (F x Hx) as [F1 F2]; split; [exact F1|exact (IH _ (snd x) F2 (H x Hx))] end.
Qed.
Definition moved_tree : json := Eval vm_compute in match scan start moved_text with Done v _ => v | _ => JNull end.
Definition moved_doc : Document := Eval vm_compute in match json_decode (c_Document go_floats go_two) zero_Document moved_text with Ok (y, _) => y | _ => zero_Document end.
Example C70_save_open_case : json_decode (c_Document go_floats go_two) zero_Document moved_text = Ok (moved_doc, []) /\ storable_doc go_two 8 moved_doc /\
  List.length (doc_Materials moved_doc) = 1%nat /\ NoDup (map fst (buffer_files (doc_Buffers moved_doc))).
Proof.
  assert (S : scan start moved_text = Done moved_tree []) by (vm_compute; reflexivity).
  assert (E : dec (c_Document go_floats go_two) zero_Document moved_tree = Ok moved_doc) by (vm_compute; reflexivity).
  split; [unfold json_decode; rewrite S, E; reflexivity|].
  destruct (scan_sound _ _ _ S) as (w & t & _ & _ & _ & W).
  assert (W8 : wf_json 8 moved_tree) by (refine (shallow_wf 8 _ _ W _); reflexivity).
  destruct C69_contracts as (HF & PC & HT).
  pose proof (go_registry_ok go_floats two_packages 3 8 HF PC HT (conj eq_refl eq_refl) ltac:(lia)) as RO.
  assert (Dy : decoded_Document go_two 8 moved_doc). { refine (inv_Document go_floats go_two 8 PC (go_total _ _ _) (proj1 RO) zero_Document moved_tree moved_doc _ W8 E). apply wf_zero_Document. }
  split.
  - split; [apply decoded_wf; [exact Dy|constructor]|]. split; [lia|]. split; constructor.
  - split; [reflexivity|]. constructor.
Qed.
