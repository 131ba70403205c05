(** C81: files, for every document a Go program can hold. *)
From Coq Require Import FinFun.
From Verif Require Import Base BaseFacts Types Doc F64 Base64 Url UrlProofs SpecText SpecPath SpecData JsonText JsonTextProofs Codec SpecJson SpecJsonDoc CodecProofs CodecInv
  DocCodec Marshal SpecMarshal MarshalProofs PropsUri PropsJson Stream StreamProofs File SpecFile DecodeProofs EncodeProofs PlainProofs PropsFile PropsRoundTrip
  SpecGo SpecGoDoc EncodeExact ScanDepth IndentProofs PropsIndent SpecKeep SpecKeepDoc KeepProofs DocKeepProofs KeepTree SpecKeepFile KeepFile PropsKeep DocWithin.

(** ** C80, C81: the well-formed documents *)
(** A well-formed document is one of these, and JSON keeps of it what C41 says. *)
Lemma map_eq_in {A B} (f g : A -> B) l : map f l = map g l -> forall x, In x l -> f x = g x.
Proof. induction l as [|a l IH]; intros E x [].
  - subst. injection E as E _. exact E.
  - injection E as _ E. exact (IH E x H).
Qed.
Lemma ok_inj {A} (a b : A) : Ok a = Ok b -> a = b.
Proof. congruence. Qed.
Lemma some_inj {A} (a b : A) : Some a = Some b -> a = b.
Proof. congruence. Qed.
Theorem C80_well_formed X rep n asBinary d : registry_total X -> repairs rep -> wf_Document X n d -> Forall (fun o => o <> None) (doc_Buffers d) ->
  go_Document X d /\ savable_Document X d /\ typed d = true /\
  kept_Document X rep (embedded asBinary d) = norm_Document X (embedded asBinary d).
Proof.
  intros T R W N. destruct (within_Document X n d W) as [G S]. split; [exact G|]. split; [exact S|].
  destruct (marshal_tree_spec sample_floats X n asBinary d sample_float_contract W N) as (m & E & _ & D).
  pose proof (tree_kept sample_floats X rep asBinary d (JObj m) sample_float_contract T R G E) as K. rewrite D in K.
  destruct (typed d); [|discriminate]. apply ok_inj in K. split; [reflexivity|]. symmetry. exact K.
Qed.
Print Assumptions C80_well_formed.

(** ** C81 *)
(** Encode writes the file and one file for each buffer with a path, and Decode
    of all that gives [back], with the URIs of the images cleaned as Decode does
    with every URI (C26), unless the document is nested too deep or an accessor
    has an undeclared type. *)
Theorem C81_encode_decode_images F X U rep asBinary prefix indent d w fs :
  float_contract F -> registry_total X -> repairs rep -> go_Document X d -> savable_Document X d ->
  Forall plain_buffer (doc_Buffers d) -> Forall (fun o => o <> None) (doc_Images d) ->
  ws prefix -> ws indent -> no_failures w fs ->
  (forall text, marshalJSONDoc F X asBinary prefix indent d = Ok text -> asBinary = true -> glb_size text d < 2 ^ 32) ->
  exists j text w' fs', text_of j text /\
    Encode F X U asBinary prefix indent d w (Some fs) = (Ok tt, w', Some fs') /\
    cf_files fs' = rev (buffer_files (doc_Buffers d)) ++ cf_files fs /\
    (if asBinary then glb_file text (option_map buf_Data (glb_buffer d)) (wr_out w') else wr_out w' = text) /\
    forall rf r, (forall name data, In (name, data) (buffer_files (doc_Buffers d)) -> rf name = (data, None)) ->
      reads_to_eof r -> stream r = wr_out w' -> asBinary = false \/ Forall (fun p => zlen p mod 4 = 0) (rd_pieces r) ->
      snd (Decode F X U (Some rf) zero_Document (NewReader r)) =
      if 10000 <? Z.of_nat (nesting j) then Err (ErrMsg "invalid character")
      else if typed d then Ok (back_images (clean_uri U) X rep asBinary d)
      else Err (ErrMsg "gltf: unknown accessor's type").
Proof.
  intros HF HT HR G S HB HI Hp Hi NF SZ.
  destruct (files_kept F X U rep HF HT HR asBinary prefix indent d w fs G S HB HI Hp Hi NF SZ) as (m & w' & fs' & _ & E & Ef & _ & O1 & O2 & D).
  exists (JObj m), (printed prefix indent (JObj m)), w', fs'. split; [exact (printed_text prefix indent _ Hp Hi)|]. split; [exact E|]. split; [exact Ef|].
  split. { destruct asBinary; [exact (O2 eq_refl)|exact (O1 eq_refl)]. }
  intros rf r RF RE ST AL. rewrite (D rf r RF RE ST AL). unfold outcome. destruct (10000 <? _); [reflexivity|]. destruct (typed d); reflexivity.
Qed.
Print Assumptions C81_encode_decode_images.

(** Save and Open. *)
Theorem C81_save_open_images F X U rep dir name asBinary d disk :
  float_contract F -> registry_total X -> repairs rep -> go_Document X d -> savable_Document X d ->
  Forall plain_buffer (doc_Buffers d) -> Forall (fun o => o <> None) (doc_Images d) ->
  (forall text, marshalJSONDoc F X asBinary [] [] d = Ok text -> asBinary = true -> glb_size text d < 2 ^ 32) ->
  NoDup (map fst (buffer_files (doc_Buffers d))) ->
  (forall m, In m (map fst (buffer_files (doc_Buffers d))) -> dir ++ "/"%char :: m <> name) ->
  exists j text disk', text_of j text /\
    save F X U dir name asBinary d (mkFaults None [] [] None) disk = (Ok tt, disk') /\
    forall rd, (forall c, reads_to_eof (rd c) /\ stream (rd c) = c /\ (asBinary = true -> Forall (fun p => zlen p mod 4 = 0) (rd_pieces (rd c)))) ->
    snd (Open F X U dir name disk' rd) =
    if 10000 <? Z.of_nat (nesting j) then Err (ErrMsg "invalid character")
    else if typed d then Ok (back_images (clean_uri U) X rep asBinary d)
    else Err (ErrMsg "gltf: unknown accessor's type").
Proof.
  intros HF HT HRp G S HB HI SZ ND NN.
  destruct (files_kept F X U rep HF HT HRp asBinary [] [] d (mkWriter [] []) no_files G S HB HI) as (mm & w' & fs' & _ & E & Ef & _ & _ & _ & R);
    [constructor|constructor|split; [constructor|split; [reflexivity|constructor]]|exact SZ|].
  exists (JObj mm), (printed [] [] (JObj mm)).
  unfold save. cbn [ft_create ft_writes ft_files ft_close]. change (mkCreateFS [] [] []) with no_files. rewrite E. eexists.
  split; [apply printed_text; constructor|]. split; [reflexivity|].
  intros rd HR. unfold Open. rewrite Ef. cbn [no_files cf_files]. rewrite app_nil_r.
  set (files := buffer_files (doc_Buffers d)) in *.
  assert (Mn : map fst (map (fun p : bytes * bytes => (os_path dir (fst p), snd p)) (rev files)) = rev (map (os_path dir) (map fst files))).
  { rewrite map_map, map_rev, map_map. reflexivity. }
  rewrite disk_get_skip.
  2:{ rewrite Mn. intros H. apply in_rev in H. apply in_map_iff in H. destruct H as (m & Em & Hm). exact (NN m Hm Em). }
  cbn [disk_get]. destruct (list_eq_dec ascii_dec name name) as [_|]; [|congruence].
  destruct (HR (wr_out w')) as (H1 & H2 & H3). rewrite R; [unfold outcome; destruct (10000 <? _); [reflexivity|]; destruct (typed d); reflexivity| |exact H1|exact H2|destruct asBinary; [right; exact (H3 eq_refl)|left; reflexivity]].
  intros m c I. unfold dir_read.
  assert (PL : plain_name m).
  { unfold files, buffer_files in I. apply in_flat_map in I. destruct I as ([b|] & Ib & I); [|destruct I].
    rewrite Forall_forall in HB. destruct (HB _ Ib) as (_ & _ & Sb). destruct (is_file b) eqn:Fb; [|destruct I]. destruct I as [[= <- <-]|[]].
    destruct Sb as [Sb|[Sb|(p & P & Sb)]].
    - unfold is_file in Fb. rewrite Sb in Fb. discriminate.
    - unfold is_file in Fb. rewrite Sb in Fb. discriminate.
    - rewrite Sb, str_bytes_bytes. exact P. }
  rewrite (plain_ValidPath m PL). replace (map (fun p : bytes * bytes => (os_path dir (fst p), snd p)) (rev files)) with (rev (map (fun p : bytes * bytes => (os_path dir (fst p), snd p)) files)) by (rewrite map_rev; reflexivity).
  rewrite (disk_get_rev (os_path dir m) c).
  - reflexivity.
  - rewrite map_map. cbn [fst]. rewrite <- (map_map fst (os_path dir)). apply Injective_map_NoDup; [|exact ND].
    intros x y Exy. unfold os_path in Exy. apply app_inv_head in Exy. injection Exy as <-. reflexivity.
  - apply in_map_iff. exists (m, c). split; [reflexivity|exact I].
Qed.
Print Assumptions C81_save_open_images.

(** Images with plain URIs, or none, come back with them. *)
Lemma images_plain X U rep asBinary d : repairs rep -> Forall plain_image (doc_Images d) -> back_images (clean_uri U) X rep asBinary d = back X rep asBinary d.
Proof. intros R H. apply still_back. eapply Forall_impl; [|exact H]. intros o. apply (plain_still X U rep R). Qed.
Theorem C81_encode_decode F X U rep asBinary prefix indent d w fs :
  float_contract F -> registry_total X -> repairs rep -> go_Document X d -> savable_Document X d ->
  Forall plain_buffer (doc_Buffers d) -> Forall plain_image (doc_Images d) ->
  ws prefix -> ws indent -> no_failures w fs ->
  (forall text, marshalJSONDoc F X asBinary prefix indent d = Ok text -> asBinary = true -> glb_size text d < 2 ^ 32) ->
  exists j text w' fs', text_of j text /\
    Encode F X U asBinary prefix indent d w (Some fs) = (Ok tt, w', Some fs') /\
    cf_files fs' = rev (buffer_files (doc_Buffers d)) ++ cf_files fs /\
    (if asBinary then glb_file text (option_map buf_Data (glb_buffer d)) (wr_out w') else wr_out w' = text) /\
    forall rf r, (forall name data, In (name, data) (buffer_files (doc_Buffers d)) -> rf name = (data, None)) ->
      reads_to_eof r -> stream r = wr_out w' -> asBinary = false \/ Forall (fun p => zlen p mod 4 = 0) (rd_pieces r) ->
      snd (Decode F X U (Some rf) zero_Document (NewReader r)) =
      if 10000 <? Z.of_nat (nesting j) then Err (ErrMsg "invalid character")
      else if typed d then Ok (back X rep asBinary d)
      else Err (ErrMsg "gltf: unknown accessor's type").
Proof.
  intros HF HT HR G S HB HI Hp Hi NF SZ.
  destruct (C81_encode_decode_images F X U rep asBinary prefix indent d w fs HF HT HR G S HB (plain_images _ HI) Hp Hi NF SZ) as (j & text & w' & fs' & H1 & H2 & H3 & H4 & D).
  exists j, text, w', fs'. do 4 (split; [assumption|]). intros rf r RF RE ST AL. rewrite (D rf r RF RE ST AL), (images_plain X U rep asBinary d HR HI). reflexivity.
Qed.
Print Assumptions C81_encode_decode.

Theorem C81_save_open F X U rep dir name asBinary d disk :
  float_contract F -> registry_total X -> repairs rep -> go_Document X d -> savable_Document X d ->
  Forall plain_buffer (doc_Buffers d) -> Forall plain_image (doc_Images d) ->
  (forall text, marshalJSONDoc F X asBinary [] [] d = Ok text -> asBinary = true -> glb_size text d < 2 ^ 32) ->
  NoDup (map fst (buffer_files (doc_Buffers d))) ->
  (forall m, In m (map fst (buffer_files (doc_Buffers d))) -> dir ++ "/"%char :: m <> name) ->
  exists j text disk', text_of j text /\
    save F X U dir name asBinary d (mkFaults None [] [] None) disk = (Ok tt, disk') /\
    forall rd, (forall c, reads_to_eof (rd c) /\ stream (rd c) = c /\ (asBinary = true -> Forall (fun p => zlen p mod 4 = 0) (rd_pieces (rd c)))) ->
    snd (Open F X U dir name disk' rd) =
    if 10000 <? Z.of_nat (nesting j) then Err (ErrMsg "invalid character")
    else if typed d then Ok (back X rep asBinary d)
    else Err (ErrMsg "gltf: unknown accessor's type").
Proof.
  intros HF HT HR G S HB HI SZ ND NN.
  destruct (C81_save_open_images F X U rep dir name asBinary d disk HF HT HR G S HB (plain_images _ HI) SZ ND NN) as (j & text & disk' & H1 & H2 & D).
  exists j, text, disk'. do 2 (split; [assumption|]). intros rd R. rewrite (D rd R), (images_plain X U rep asBinary d HR HI). reflexivity.
Qed.
Print Assumptions C81_save_open.

(** The contents of all buffers come back, whatever else changes. *)
Theorem C81_contents X rep asBinary d :
  map (option_map buf_Data) (doc_Buffers (back X rep asBinary d)) = map (option_map buf_Data) (doc_Buffers d) /\
  map (option_map buf_ByteLength) (doc_Buffers (back X rep asBinary d)) = map (option_map buf_ByteLength) (doc_Buffers d).
Proof.
  cbn [back doc_Buffers]. unfold back_buffers. rewrite !map_map.
  assert (G : forall A (f : Buffer -> A), (forall i b, f (back_buffer X rep asBinary i b) = f b) ->
    forall l k, map (fun p => option_map f (option_map (back_buffer X rep asBinary (fst p)) (snd p))) (combine (seq k (List.length l)) l) = map (option_map f) l).
  { intros A f Hf. induction l as [|o l IH]; intros k; [reflexivity|]. cbn [List.length seq combine map fst snd]. rewrite IH. destruct o; cbn [option_map]; [rewrite Hf|]; reflexivity. }
  split; apply G; reflexivity.
Qed.
Print Assumptions C81_contents.
(** For well-formed documents [back] is [restored], of C30, C32 and C58. *)
Theorem C81_well_formed X rep n asBinary d : registry_total X -> repairs rep -> wf_Document X n d -> Forall (fun o => o <> None) (doc_Buffers d) ->
  back X rep asBinary d = restored X (fun u => u) asBinary d.
Proof.
  intros T R W N. destruct (C80_well_formed X rep n asBinary d T R W N) as (_ & _ & _ & K).
  assert (B : back_buffers X rep asBinary (doc_Buffers d) = restored_buffers X (fun u => u) asBinary (doc_Buffers d)).
  { apply (f_equal doc_Buffers) in K. cbn [kept_Document norm_Document doc_Buffers embedded] in K. unfold embedded_buffers in K. rewrite !map_map in K.
    unfold back_buffers, restored_buffers. apply map_ext_in. intros [i o] I. pose proof (map_eq_in _ _ _ K _ I) as Q. cbn [fst snd] in *.
    destruct o as [b|]; [|reflexivity]. cbn [option_map] in *. apply some_inj in Q. f_equal. unfold back_buffer, restored_buffer.
    destruct (embedded_fields asBinary i b) as (E1 & E2 & E3 & E4). pose proof (f_equal buf_Extensions Q) as Q1. pose proof (f_equal buf_Extras Q) as Q2. pose proof (f_equal buf_Name Q) as Q3.
    cbn [kept_Buffer norm_Buffer buf_Extensions buf_Extras buf_Name] in Q1, Q2, Q3. rewrite E1 in Q1. rewrite E2 in Q2. rewrite E3 in Q3.
    rewrite Q1, Q2, Q3. destruct (String.prefix _ _); reflexivity. }
  assert (IM : map (option_map (restored_image (fun u => u))) (doc_Images (norm_Document X d)) = doc_Images (norm_Document X d)).
  { rewrite <- (map_id (doc_Images (norm_Document X d))) at 2. apply map_ext. intros [im|]; [|reflexivity]. cbn [option_map]. f_equal. unfold restored_image. destruct im. cbn. destruct (_ || _); reflexivity. }
  unfold back, restored. rewrite B, IM.
  pose proof (f_equal doc_Extensions K) as K1. pose proof (f_equal doc_Extras K) as K2. pose proof (f_equal doc_ExtensionsUsed K) as K3. pose proof (f_equal doc_ExtensionsRequired K) as K4.
  pose proof (f_equal doc_Accessors K) as K5. pose proof (f_equal doc_Animations K) as K6. pose proof (f_equal doc_Asset K) as K7. pose proof (f_equal doc_BufferViews K) as K8.
  pose proof (f_equal doc_Cameras K) as K9. pose proof (f_equal doc_Images K) as K10. pose proof (f_equal doc_Materials K) as K11. pose proof (f_equal doc_Meshes K) as K12.
  pose proof (f_equal doc_Nodes K) as K13. pose proof (f_equal doc_Samplers K) as K14. pose proof (f_equal doc_Scenes K) as K16.
  pose proof (f_equal doc_Skins K) as K17. pose proof (f_equal doc_Textures K) as K18. clear K B IM.
  cbn [kept_Document norm_Document embedded set_doc_Buffers doc_Extensions doc_Extras doc_ExtensionsUsed doc_ExtensionsRequired doc_Accessors doc_Animations doc_Asset doc_BufferViews doc_Cameras
    doc_Images doc_Materials doc_Meshes doc_Nodes doc_Samplers doc_Scene doc_Scenes doc_Skins doc_Textures] in *.
  rewrite K1, K2, K3, K4, K5, K6, K7, K8, K9, K10, K11, K12, K13, K14, K16, K17, K18. reflexivity.
Qed.
Print Assumptions C81_well_formed.

(** ** Example *)
(** [odd_typed] (PropsKeep) with three buffers, of which one has a name that is
    not UTF-8 and one a file of its own. *)
Definition odd_saved : Document :=
  set_doc_Buffers [Some (mkBuffer [] VNull bad_utf8 "" 3 (str_bytes "abc")); Some (mkBuffer [] VNull "" "" 4 (str_bytes "defg"));
    Some (mkBuffer [] VNull "" "b.bin" 1 (str_bytes "h"))] odd_typed.
Lemma odd_saved_go : go_Document sample_exts odd_saved.
Proof.
  pose proof odd_typed_go as G. unfold go_Document, odd_saved in *. cbn [set_doc_Buffers doc_Buffers doc_Extensions doc_Extras doc_Accessors doc_Animations doc_Asset doc_BufferViews doc_Cameras
    doc_Images doc_Materials doc_Meshes doc_Nodes doc_Samplers doc_Scene doc_Scenes doc_Skins doc_Textures].
  decompose [and] G. clear G. repeat match goal with |- _ /\ _ => split end; try assumption.
  repeat constructor; cbn; unfold in_i64; try (change (2 ^ 63) with 9223372036854775808; lia).
Qed.
Example C81_example : exists disk' doc,
  save sample_floats sample_exts sample_url (str_bytes "out") (str_bytes "out/m.glb") true odd_saved (mkFaults None [] [] None) [] = (Ok tt, disk') /\
  snd (Open sample_floats sample_exts sample_url (str_bytes "out") (str_bytes "out/m.glb") disk' (fun c => mkReader [c] ErrEOF false)) = Ok doc /\
  map (option_map buf_Name) (doc_Buffers doc) = [Some fffd; Some ""%string; Some ""%string] /\
  map (option_map buf_Data) (doc_Buffers doc) = [Some (str_bytes "abc"); Some (str_bytes "defg"); Some (str_bytes "h")] /\
  kept_parts doc = kept_parts (match json_decode (c_Document sample_floats sample_exts) zero_Document (match marshalJSONDoc sample_floats sample_exts true [] [] odd_typed with Ok t => t | _ => [] end) with Ok (y, _) => y | _ => zero_Document end).
Proof.
  do 2 eexists. split; [vm_compute; reflexivity|]. split; [vm_compute; reflexivity|]. split; [vm_compute; reflexivity|]. split; vm_compute; reflexivity.
Qed.
(** The hypotheses of the theorems hold of it. *)
Example C81_hypotheses :
  go_Document sample_exts odd_saved /\ savable_Document sample_exts odd_saved /\ Forall plain_buffer (doc_Buffers odd_saved) /\ Forall plain_image (doc_Images odd_saved) /\
  typed odd_saved = true /\ ~ (exists n, wf_Document sample_exts n odd_saved).
Proof.
  split; [exact odd_saved_go|].
  assert (M : exists t, marshalJSONDoc sample_floats sample_exts true [] [] odd_saved = Ok t) by (eexists; vm_compute; reflexivity).
  split. { exact (proj1 (proj1 (C77_succeeds_iff sample_floats sample_exts true [] [] odd_saved sample_float_contract odd_saved_go ltac:(constructor) ltac:(constructor)) M)). }
  split. { cbn [odd_saved set_doc_Buffers doc_Buffers]. repeat (apply Forall_cons); [..|apply Forall_nil]; (split; [reflexivity|]; split; [discriminate|]); [left; reflexivity|left; reflexivity|].
    right. right. exists (str_bytes "b.bin"). split; [|reflexivity]. split.
    - repeat (apply Forall_cons); [..|apply Forall_nil]; (split; [vm_compute; split; reflexivity|]); intros H; repeat (destruct H as [H|H]; [discriminate|]); destruct H.
    - exists [str_bytes "b.bin"]. split; [discriminate|]. split; [reflexivity|]. constructor; [|constructor].
      split; [discriminate|]. split; [|split; discriminate]. intros H. repeat (destruct H as [H|H]; [discriminate|]). destruct H. }
  split; [constructor|]. split; [reflexivity|].
  intros [n W]. unfold wf_Document in W. decompose [and] W.
  match goal with H : Forall (opt (wf_Buffer _ _)) _ |- _ => apply Forall_inv in H; destruct H as (_ & _ & H & _) end.
  match goal with H : utf8_str _ |- _ => cbn in H; destruct H as (rs & Hs & E) end.
  destruct repairs_exists as [rep R]. assert (V : rep bad_utf8 = bad_utf8) by (apply (repairs_utf8 rep R); exists rs; split; [exact Hs|exact E]).
  assert (V2 : unquote_str (quote_str bad_utf8) = Some fffd) by (vm_compute; reflexivity). rewrite (unquote_quote_rep rep R bad_utf8), V in V2. discriminate.
Qed.
