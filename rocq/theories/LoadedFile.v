(** Documents read from files and streams: what is known of them. *)
From Verif Require Import Base BaseFacts Types Doc F64 Base64 Url SpecText JsonText JsonTextProofs ScanSound Codec DocCodec SpecJson CodecProofs CodecInv DocCodecBase DocInvBase
  Marshal Stream File SpecGo SpecGoDoc DocWithin SpecKeep SpecLoaded SpecLoadedDoc LoadedProofs DocLoaded Ext SpecExt ExtRegistry ExtRegistryProofs SpecExtGo ExtLoaded ReloadFile.

(** ** The JSON that is read *)
Lemma scan_lexical l v rest : scan start l = Done v rest -> lexical v.
Proof. intros S. destruct (scan_sound _ _ _ S) as (_ & _ & _ & _ & _ & W). eexists. exact W. Qed.
Lemma scan_lexical_eof l c v : scan start l = More c -> at_eof c = Some v -> lexical v.
Proof. intros S A. destruct (scan_sound_eof _ _ _ S A) as (_ & _ & _ & _ & _ & W). eexists. exact W. Qed.
Lemma readValue_lexical fuel : forall len cap c blank s v s', (exists l, scan start l = More c) ->
  readValue fuel len cap c blank s = (Ok v, s') -> lexical v.
Proof.
  induction fuel as [|f IH]; intros len cap c blank s v s' [l Hl]; cbn [readValue]; [discriminate|]. cbv zeta.
  destruct (src_read _ s) as [[d e] s1]. pose proof (scan_app l d start) as A. rewrite Hl in A.
  destruct (scan c d) as [v1 r1|c1|]; [|destruct e as [e|]|discriminate].
  - intros E. injection E as <- _. exact (scan_lexical _ _ _ A).
  - destruct e; try discriminate. destruct (at_eof c1) as [v1|] eqn:Ae; [|discriminate]. intros E. injection E as <- _. exact (scan_lexical_eof _ _ _ A Ae).
  - intros E. exact (IH _ _ _ _ _ _ _ (ex_intro _ _ A) E).
Qed.
Lemma read_json_lexical s v s' : read_json s = (Ok v, s') -> lexical v.
Proof. apply readValue_lexical. exists []. reflexivity. Qed.
Lemma json_decode_lexical {A} (c : codec A) old text y rest : json_decode c old text = Ok (y, rest) -> exists j, lexical j /\ dec c old j = Ok y.
Proof.
  unfold json_decode. destruct (scan start text) as [v r|cf|] eqn:S; [|destruct (at_eof cf) as [v|] eqn:Ae; [|discriminate]|discriminate]; intros E; apply bind_ok in E; destruct E as (x & E & Q);
    exists v; (split; [first [exact (scan_lexical _ _ _ S)|exact (scan_lexical_eof _ _ _ S Ae)]|congruence]).
Qed.

(** ** Decode *)
(** What Decode does to the document it made of the JSON: URIs and data. *)
Definition finished (d y : Document) : Prop := exists ims bufs, y = set_doc_Images ims (set_doc_Buffers bufs d) /\
  Forall2 (fun o o' => exists b u dat, o = Some b /\ o' = Some (set_buf_Data dat (set_buf_URI u b))) (doc_Buffers d) bufs /\
  Forall2 (fun o o' => exists i u, o = Some i /\ o' = Some (set_img_URI u i)) (doc_Images d) ims.
Lemma decode_finished F X U fsys old b t y : Decode F X U fsys old b = (t, Ok y) ->
  exists j d, lexical j /\ dec (c_Document F X) old j = Ok d /\ finished d y.
Proof.
  unfold Decode, decodeDocument. destruct (readGLBHeader b) as [[h|e|] b1]; try discriminate.
  destruct (read_json _) as [[v|e|] s] eqn:R; cbn [bind]; try discriminate.
  destruct (dec (c_Document F X) old v) as [d|e|] eqn:D; cbn [bind]; try discriminate.
  destruct (mapM (clean_buffer U) (doc_Buffers d)) as [bufs| |] eqn:MB; try (destruct (mapM (clean_image U) (doc_Images d)); discriminate).
  destruct (mapM (clean_image U) (doc_Images d)) as [ims| |] eqn:MI; try discriminate.
  destruct (load_buffers U fsys _ bufs _) as [t' [bufs'| |]] eqn:L; cbn [bind]; try discriminate.
  intros E. apply ok_inj2 in E. destruct E as [_ <-]. exists v, d. split; [exact (read_json_lexical _ _ _ R)|]. split; [exact D|].
  exists ims, bufs'. split; [reflexivity|]. apply clean_all_b in MB. destruct MB as [-> NB]. apply clean_all_i in MI. destruct MI as [-> NI].
  apply load_again in L. destruct L as [L _]. split.
  - clear -NB L. remember (map (option_map (clean_b U)) (doc_Buffers d)) as l eqn:El. revert NB El. generalize (doc_Buffers d). induction L as [|o o' l l' D _ IH]; intros [|[x|] m] N El; try discriminate; [constructor| |pose proof (Forall_inv N); contradiction].
    cbn [map option_map] in El. assert (E1 : o = Some (clean_b U x)) by congruence. assert (E2 : l = map (option_map (clean_b U)) m) by congruence. constructor; [|exact (IH m (Forall_inv_tail N) E2)].
    subst o. destruct o' as [x'|]; [|contradiction]. destruct D as [dat ->]. exists x, (buf_URI (clean_b U x)), dat. split; [reflexivity|]. rewrite <- clean_b_uri. reflexivity.
  - clear -NI. induction NI as [|[x|] m N _ IH]; [constructor| |contradiction]. cbn [map option_map]. constructor; [|exact IH]. exists x, (img_URI (clean_i U x)). split; [reflexivity|]. rewrite <- clean_i_uri. reflexivity.
Qed.

Lemma Forall_finished {A} (P : A -> Prop) (R : option A -> option A -> Prop) l l' :
  (forall o o', R o o' -> opt P o -> opt P o') -> Forall2 R l l' -> Forall (opt P) l -> Forall (opt P) l'.
Proof. intros H. induction 1 as [|o o' l l' Ro _ IH]; intros Fl; [constructor|]. constructor; [exact (H o o' Ro (Forall_inv Fl))|exact (IH (Forall_inv_tail Fl))]. Qed.
Lemma Forall_finished_inv {A} (P : A -> Prop) (R : option A -> option A -> Prop) l l' :
  (forall o o', R o o' -> opt P o' -> opt P o) -> Forall2 R l l' -> Forall (opt P) l' -> Forall (opt P) l.
Proof. intros H. induction 1 as [|o o' l l' Ro _ IH]; intros Fl; [constructor|]. constructor; [exact (H o o' Ro (Forall_inv Fl))|exact (IH (Forall_inv_tail Fl))]. Qed.
Lemma finished_exts {A} (f : A -> Extensions) (R : option A -> option A -> Prop) l l' :
  (forall o o', R o o' -> of_opt f o' = of_opt f o) -> Forall2 R l l' -> flat_map (of_opt f) l' = flat_map (of_opt f) l.
Proof. intros H. induction 1 as [|o o' l l' Ro _ IH]; [reflexivity|]. cbn [flat_map]. rewrite IH, (H _ _ Ro). reflexivity. Qed.

Lemma finished_go X d y : finished d y -> go_Document X d -> go_Document X y.
Proof.
  intros (ims & bufs & -> & FB & FI) G. unfold go_Document in *. decompose [and] G. clear G.
  cbn [set_doc_Images set_doc_Buffers doc_Extensions doc_Extras doc_Accessors doc_Animations doc_Asset doc_Buffers doc_BufferViews doc_Cameras doc_Images doc_Materials doc_Meshes doc_Nodes doc_Samplers doc_Scene doc_Scenes doc_Skins doc_Textures].
  repeat match goal with |- _ /\ _ => split end; try assumption.
  - refine (Forall_finished _ _ _ _ _ FB _); [|assumption]. intros o o' (b & u & dat & -> & ->) Gb. exact Gb.
  - refine (Forall_finished _ _ _ _ _ FI _); [|assumption]. intros o o' (i & u & -> & ->) Gb. exact Gb.
Qed.
Lemma finished_savable X d y : finished d y -> savable_Document X d <-> savable_Document X y.
Proof.
  intros (ims & bufs & -> & FB & FI). unfold savable_Document.
  cbn [set_doc_Images set_doc_Buffers doc_Extensions doc_Extras doc_Accessors doc_Animations doc_Asset doc_Buffers doc_BufferViews doc_Cameras doc_Images doc_Materials doc_Meshes doc_Nodes doc_Samplers doc_Scene doc_Scenes doc_Skins doc_Textures].
  split; intros G; decompose [and] G; clear G; repeat match goal with |- _ /\ _ => split end; try assumption.
  - refine (Forall_finished _ _ _ _ _ FB _); [|assumption]. intros o o' (b & u & dat & -> & ->) Gb. exact Gb.
  - refine (Forall_finished _ _ _ _ _ FI _); [|assumption]. intros o o' (i & u & -> & ->) Gb. exact Gb.
  - refine (Forall_finished_inv _ _ _ _ _ FB _); [|eassumption]. intros o o' (b & u & dat & -> & ->) Gb. exact Gb.
  - refine (Forall_finished_inv _ _ _ _ _ FI _); [|eassumption]. intros o o' (i & u & -> & ->) Gb. exact Gb.
Qed.
Lemma finished_all d y : finished d y -> exts_Document y = exts_Document d.
Proof.
  intros (ims & bufs & -> & FB & FI). unfold exts_Document.
  cbn [set_doc_Images set_doc_Buffers doc_Extensions doc_Extras doc_Accessors doc_Animations doc_Asset doc_Buffers doc_BufferViews doc_Cameras doc_Images doc_Materials doc_Meshes doc_Nodes doc_Samplers doc_Scene doc_Scenes doc_Skins doc_Textures].
  assert (EB : flat_map (of_opt exts_Buffer) bufs = flat_map (of_opt exts_Buffer) (doc_Buffers d)).
  { refine (finished_exts exts_Buffer _ _ _ _ FB). intros o o' (b & u & dat & -> & ->). reflexivity. }
  assert (EI : flat_map (of_opt exts_Image) ims = flat_map (of_opt exts_Image) (doc_Images d)).
  { refine (finished_exts exts_Image _ _ _ _ FI). intros o o' (i & u & -> & ->). reflexivity. }
  rewrite EB, EI. reflexivity.
Qed.
Lemma finished_rest d y : finished d y -> doc_Cameras y = doc_Cameras d /\ typed y = typed d /\ ~ In None (doc_Buffers y) /\ ~ In None (doc_Images y).
Proof.
  intros (ims & bufs & -> & FB & FI). split; [reflexivity|]. split; [reflexivity|]. cbn [set_doc_Images set_doc_Buffers doc_Buffers doc_Images]. split.
  - clear -FB. induction FB as [|o o' l l' (b & u & dat & -> & ->) _ IH]; [exact (fun H => H)|]. intros [H|H]; [discriminate|exact (IH H)].
  - clear -FI. induction FI as [|o o' l l' (i & u & -> & ->) _ IH]; [exact (fun H => H)|]. intros [H|H]; [discriminate|exact (IH H)].
Qed.

(** ** Loaded documents *)
Lemma loaded_typed Q d : loaded_Document Q d -> typed d = true.
Proof.
  unfold loaded_Document. intros H. decompose [and] H. unfold typed. apply forallb_forall. intros [a|] I; [|reflexivity].
  match goal with A : Forall (opt (loaded_Accessor Q)) _ |- _ => rewrite Forall_forall in A; specialize (A _ I); cbn [opt] in A; unfold loaded_Accessor in A; decompose [and] A end. assumption.
Qed.
(** JSON can carry a loaded document if its cameras have a projection and JSON
    can carry its extensions. *)
Lemma loaded_savable X Q d : loaded_Document Q d ->
  (savable_Document X d <-> Forall (opt has_projection) (doc_Cameras d) /\ all_ext (savable_extv X) (exts_Document d)).
Proof.
  intros L. split.
  - intros V. split.
    + unfold savable_Document in V. decompose [and] V.
      match goal with A : Forall (opt (savable_Camera X)) _ |- _ => eapply Forall_impl; [|exact A] end. intros [c|] Hc; [|exact I]. cbn [opt] in *. unfold savable_Camera in Hc. decompose [and] Hc. assumption.
    + pose proof (lall_Document _ d (lback_Document X Q d L V)) as A. eapply Forall_impl; [|exact A]. intros p [_ H]. exact H.
  - intros [C A]. exact (sav_Document X (savable_extv X) (fun _ _ H => H) d (lwith_Document Q (savable_extv X) d L A) C).
Qed.

(** ** The values of the packages that were made from JSON *)
Section Made.
Context (F : float_lib) (PC : parse_contract F).
(** A light that was read has finite numbers, but the range of a light that
    has none is infinite. *)
Definition range_ok (f : Z) : Prop := float_ok f \/ f = f64_inf.
Definition loaded_Spot (s : Spot) : Prop := float_ok (spo_InnerConeAngle s) /\ opt float_ok (spo_OuterConeAngle s).
Definition loaded_Light (l : Light) : Prop :=
  opt (farray 3) (lig_Color l) /\ opt float_ok (lig_Intensity l) /\ opt range_ok (lig_Range l) /\ opt loaded_Spot (lig_Spot l).
Definition loaded_lights (v : lights) : Prop := match v with LightIndex _ => True | LightList l => opt (Forall (opt loaded_Light)) l end.
Lemma pi4_ok : float_ok f64_pi4.
Proof. split; [exact go_pi4|reflexivity]. Qed.
Lemma inv_range : inv (c_f64 F) lexical range_ok.
Proof.
  intros old j y Ho L H. destruct j; cbn in H; try discriminate; [injection H as <-; exact Ho|].
  destruct (parse64 F lit) as [f|] eqn:E; [|discriminate]. injection H as <-. left. exact (PC _ _ E).
Qed.
Lemma range_0 : range_ok 0.
Proof. left. exact float_ok_0. Qed.
Lemma ilf_Spot : inv (c_Spot F) lexical loaded_Spot.
Proof.
  intros old j y _ L H. pose proof (inv_f64 F PC lexical) as IF. refine (inv_struct _ _ (fields_Spot F) default_Spot j y closed_lexical _ _ L H).
  - repeat apply Forall_cons; [..|apply Forall_nil].
    + finv_tac IF loaded_Spot.
    + finv_tac (inv_ptr 0 (c_f64 F) _ float_ok float_ok_0 IF) loaded_Spot.
  - split; [exact float_ok_0|exact pi4_ok].
Qed.
Lemma ilf_Light : inv (c_Light F) lexical loaded_Light.
Proof.
  intros old j y _ L H. pose proof (inv_f64 F PC lexical) as IF. refine (inv_struct _ _ (fields_Light F) default_Light j y closed_lexical _ _ L H).
  - repeat apply Forall_cons; [..|apply Forall_nil].
    + finv_tac (inv_true c_str lexical) loaded_Light.
    + finv_tac (inv_true c_str lexical) loaded_Light.
    + finv_tac (inv_ptr (repeat 0 3) _ _ (farray 3) (farray_0 3) (inv_array 0 (c_f64 F) _ float_ok 3 closed_lexical float_ok_0 IF)) loaded_Light.
    + finv_tac (inv_ptr 0 (c_f64 F) _ float_ok float_ok_0 IF) loaded_Light.
    + finv_tac (inv_ptr 0 (c_f64 F) _ range_ok range_0 inv_range) loaded_Light.
    + finv_tac (inv_ptr zero_Spot (c_Spot F) _ loaded_Spot (conj float_ok_0 I) ilf_Spot) loaded_Light.
  - split; [exact (farray_one 3)|]. split; [exact float_ok_one|]. split; [right; reflexivity|exact I].
Qed.
Definition loaded_envelop (e : envelop) : Prop := opt (Forall (opt loaded_Light)) (env_Lights e).
Lemma ilf_lights j v : lexical j -> lights_Unmarshal F j = Ok v -> loaded_lights v.
Proof.
  intros L H. unfold lights_Unmarshal in H. apply bind_ok in H. destruct H as (e & E & H). injection H as <-.
  assert (G : loaded_envelop e).
  { refine (inv_struct _ _ (fields_envelop F) (mkEnv None None) j e closed_lexical _ I L E). repeat apply Forall_cons; [..|apply Forall_nil].
    - finv_tac (inv_oslice None _ _ (opt loaded_Light) closed_lexical I (inv_ptr zero_Light _ _ loaded_Light (conj I (conj I (conj I I))) ilf_Light)) loaded_envelop.
    - finv_tac (inv_true (c_ptr 0 c_int) lexical) loaded_envelop. }
  destruct (env_Light e) as [i|]; [exact I|exact G].
Qed.
(** No light has an infinite range. *)
Definition bounded (v : lights) : Prop := match v with LightIndex _ => True | LightList l => opt (Forall (opt (fun x => lig_Range x <> Some f64_inf))) l end.
Lemma light_bounded l : loaded_Light l -> (savable_Light l <-> lig_Range l <> Some f64_inf).
Proof.
  intros (H1 & H2 & H3 & H4). split.
  - intros (_ & _ & R & _) E. rewrite E in R. cbn [opt] in R. vm_compute in R. discriminate.
  - intros N. split; [exact (impl_opt _ _ _ (array_fin 3) H1)|]. split; [exact (impl_opt _ _ _ float_fin H2)|]. split.
    + destruct (lig_Range l) as [r|]; [|exact I]. cbn [opt] in *. destruct H3 as [H3| ->]; [exact (float_fin _ H3)|congruence].
    + refine (impl_opt _ _ _ _ H4). intros s [S1 S2]. split; [exact (float_fin _ S1)|exact (impl_opt _ _ _ float_fin S2)].
Qed.
Lemma lights_bounded v : loaded_lights v -> (savable_lights v <-> bounded v).
Proof.
  destruct v as [i|[l|]]; cbn [loaded_lights savable_lights bounded opt]; [tauto| |tauto]. intros L. split; intros H.
  - refine (Forall_opt2 _ _ _ l _ L H). intros x Lx Sx. apply light_bounded; assumption.
  - refine (Forall_opt2 _ _ _ l _ L H). intros x Lx Sx. apply light_bounded; assumption.
Qed.

Context (HF : float_contract F) (HT : float_text F).
Lemma made_savable imports depth k e : imports Specular = false -> from_json (go_exts F imports depth) k e ->
  (savable_extv (go_exts F imports depth) k e <-> forall v, k = "KHR_lights_punctual"%string -> e = EVal (lights_any v) -> bounded v).
Proof.
  intros NS (j & L & E).
  destruct (registry (go_exts F imports depth) k) as [f|] eqn:R; [|subst e; split; [intros _ v _; discriminate|intros _; exact I]].
  destruct (f j) as [v|er|] eqn:Ef; [|subst e; split; [intros _ v _; discriminate|intros _; exact I]|contradiction]. subst e.
  destruct (go_registered_inv F imports depth k f R) as (p & -> & Ip & U). cbn [savable_extv]. rewrite (go_encoder F imports depth p v Ip).
  destruct p; [|congruence|..]; cbn [Unmarshal] in U; injection U as <-; apply bind_ok in Ef; destruct Ef as (w & Ew & Ef); injection Ef as <-; cbn [Marshal].
  - rewrite lights_inv. cbn [with_value]. pose proof (ex_lights F HF w (il_lights F PC j w L Ew)) as X. pose proof (lights_bounded w (ilf_lights j w L Ew)) as B. split.
    + intros [j1 E1] v _ Ev. assert (v = w) as -> by (pose proof (lights_inv v) as I1; assert (Q : lights_any w = lights_any v) by congruence; rewrite <- Q, lights_inv in I1; congruence).
      rewrite E1 in X. apply B. apply X.
    + intros H. specialize (H w eq_refl eq_refl). destruct (lights_Marshal F w) as [j1|e1|]; [eexists; reflexivity|exfalso; apply X, B, H|contradiction].
  - split; [intros _ v N; discriminate N|]. intros _. rewrite tt_inv. cbn [with_value]. destruct (tt_saved F w HF HT (il_tt F PC j w L Ew)) as (j1 & M1 & _). exists j1. exact M1.
  - split; [intros _ v N; discriminate N|]. intros _. rewrite unlit_inv. cbn [with_value]. eexists. reflexivity.
Qed.
End Made.
