(** What is read back of any document that is written; accessors of an
    undeclared type are refused. *)
From Verif Require Import Base BaseFacts Types Doc F64 SpecText JsonText Codec DocCodec SpecJson SpecJsonDoc CodecProofs CodecInv DocCodecBase DocCodecProofs
  Marshal SpecMarshal MarshalProofs SpecGo SpecGoDoc EncodeExact DocExact IndentProofs SpecKeep SpecKeepDoc KeepProofs DocKeepProofs.

Definition bad_type : error := ErrMsg "gltf: unknown accessor's type".

(** ** A field that is refused *)
Section Refused.
Context {T : Type}.
Lemma enc_fields_app (a : list (field T)) : forall b x, enc_fields (a ++ b) x = (m1 <- enc_fields a x ;; m2 <- enc_fields b x ;; Ok (m1 ++ m2)).
Proof.
  induction a as [|[A name get set c omit] a IH]; intros b x.
  - cbn. destruct (enc_fields b x); reflexivity.
  - cbn [app enc_fields]. rewrite IH. destruct (omit (get x)); [reflexivity|]. destruct (enc c (get x)); cbn [bind]; [|reflexivity..].
    destruct (enc_fields a x); cbn [bind]; [|reflexivity..]. destruct (enc_fields b x); reflexivity.
Qed.
Lemma refused_field ld n d x z le1 le2 {A} name (get : T -> A) set c omit e : let f := Fld name get set c omit in
  Forall (plain ld) (le1 ++ [f]) -> Forall lens le1 -> ForallOrdPairs indep le1 -> Forall (keeps get) le1 ->
  Forall (fspec n d x z) le1 -> omit (get x) = false ->
  (forall j, enc c (get x) = Ok j -> dec c (get d) j = Err e) ->
  forall m, enc_fields (le1 ++ f :: le2) x = Ok m -> dec_struct ld d (JObj m) = Err e.
Proof.
  intros f P L I K S O Hf m E. rewrite enc_fields_app in E. apply Forall_app in P. destruct P as [P Pf]. apply Forall_inv in Pf.
  destruct (enc_dec_fields ld n d x z le1 P L I S d) as (m1 & y & Em & _ & Dm & _ & Ke).
  { rewrite Forall_forall. intros g _. destruct g. reflexivity. }
  rewrite Em in E. cbn [bind] in E. apply bind_ok in E. destruct E as (m2 & E2 & E). injection E as <-.
  unfold f in E2. cbn [enc_fields] in E2. rewrite O in E2. apply bind_ok in E2. destruct E2 as (j & Ej & E2).
  apply bind_ok in E2. destruct E2 as (m3 & _ & E2). injection E2 as <-.
  cbn [dec_struct]. rewrite dec_members_app, Dm. cbn [bind dec_members]. destruct (plain_key _ _ Pf) as [Kf _]. cbn [fname f] in Kf. rewrite Kf. cbn [bind].
  destruct Pf as (_ & _ & Ff). cbn [fname f] in Ff. rewrite Ff. unfold f. cbn [dec_field]. rewrite (Ke A get K), (Hf j Ej). reflexivity.
Qed.
End Refused.

Section Params.
Context (F : float_lib) (X : ext_lib) (rep : string -> string) (HF : float_contract F) (R : repairs rep) (n : nat).

Definition retype (a : Accessor) : Accessor := if at_valid (acr_Type a) then a else set_acr_Type AScalar a.
Definition retyped (d : Document) : Document := set_doc_Accessors (map (option_map retype) (doc_Accessors d)) d.

Lemma at_refused a old j : at_valid a = false -> enc c_at a = Ok j -> dec c_at old j = Err bad_type.
Proof. destruct a; try discriminate. intros _ E. cbn in E. injection E as <-. reflexivity. Qed.

Lemma accessor_refused x m : fit_Accessor X rep n (set_acr_Type AScalar x) -> at_valid (acr_Type x) = false ->
  enc_fields (fields_Accessor F X) x = Ok m -> dec_struct (fields_Accessor F X) zero_Accessor (JObj m) = Err bad_type.
Proof.
  intros W V. unfold fit_Accessor in W. cbn [set_acr_Type acr_Extensions acr_Extras acr_Name acr_BufferView acr_ByteOffset acr_ComponentType acr_Normalized acr_Count acr_Type acr_Max acr_Min acr_Sparse] in W.
  decompose [and] W. unfold fields_Accessor at 1.
  match goal with |- enc_fields [?f1; ?f2; ?f3; ?f4; ?f5; ?f6; ?f7; ?f8; ?f9; ?f10; ?f11; ?f12] _ = _ -> _ =>
    apply (refused_field (fields_Accessor F X) (n + 3) zero_Accessor x (kept_Accessor X rep x) [f1; f2; f3; f4; f5; f6; f7; f8] [f10; f11; f12] "type" acr_Type set_acr_Type c_at (fun _ => false) bad_type) end.
  - plain_tac.
  - lens_tac.
  - indep_tac.
  - keeps_tac.
  - repeat apply Forall_cons; [..|apply Forall_nil].
    + apply (fspec_intro _ _ _ _ _ _ _ _ _ (fit_ext X rep n) (kept_ext X rep)); [apply (rt_mono _ (S n)); [apply (rk_ext rep R X)|lia]|kfield_tac|komit_tac rep R].
    + apply (fspec_intro _ _ _ _ _ _ _ _ _ (fit_any n) (kept_any rep)); [apply (rt_mono _ n); [apply (rk_any rep R F HF)|lia]|kfield_tac|komit_tac rep R].
    + apply (fspec_intro _ _ _ _ _ _ _ _ _ (fun _ => True) (rep)); [apply (rt_mono _ n); [apply (rk_str rep R)|lia]|kfield_tac|komit_tac rep R].
    + apply (fspec_intro _ _ _ _ _ _ _ _ _ (opt in_i64) (option_map (fun v => v))); [apply (rt_mono _ n); [apply rt_oint|lia]|kfield_tac|komit_tac rep R].
    + apply (fspec_intro _ _ _ _ _ _ _ _ _ (in_i64) (fun v => v)); [apply (rt_mono _ n); [apply rt_int|lia]|kfield_tac|komit_tac rep R].
    + apply (fspec_intro _ _ _ _ _ _ _ _ _ (fun _ => True) (kept_ct)); [apply (rt_mono _ n); [apply rk_ct|lia]|kfield_tac|komit_tac rep R].
    + apply (fspec_intro _ _ _ _ _ _ _ _ _ (fun _ => True) (fun v => v)); [apply (rt_mono _ n); [apply rt_bool|lia]|kfield_tac|komit_tac rep R].
    + apply (fspec_intro _ _ _ _ _ _ _ _ _ (in_i64) (fun v => v)); [apply (rt_mono _ n); [apply rt_int|lia]|kfield_tac|komit_tac rep R].
  - reflexivity.
  - intros j E. exact (at_refused _ _ _ V E).
Qed.

Lemma accessors_refused l js : Forall (opt (fit_Accessor X rep n)) (map (option_map retype) l) ->
  forallb (fun o => match o with Some a => at_valid (acr_Type a) | None => true end) l = false ->
  traverse (enc (c_ptr zero_Accessor (c_Accessor F X))) l = Ok js ->
  dec_elems None (c_ptr zero_Accessor (c_Accessor F X)) [] js = Err bad_type.
Proof.
  revert js. induction l as [|o l IH]; intros js W B E; [discriminate|]. cbn [map] in W. pose proof (Forall_inv W) as Wo. apply Forall_inv_tail in W.
  cbn [traverse] in E. apply bind_ok in E. destruct E as (j & Ej & E). apply bind_ok in E. destruct E as (js' & Ejs & E). injection E as <-.
  cbn [dec_elems]. cbn [forallb] in B. destruct (match o with Some a => at_valid (acr_Type a) | None => true end) eqn:V.
  - assert (Wo' : opt (fit_Accessor X rep n) o).
    { destruct o as [a|]; [|exact I]. cbn [option_map opt] in *. unfold retype in Wo. rewrite V in Wo. exact Wo. }
    destruct (rk_ptr_Accessor F X rep HF R n None eq_refl o Wo') as (j' & Ej' & _ & Dj). rewrite Ej in Ej'. injection Ej' as <-.
    rewrite Dj. cbn [bind]. rewrite (IH js' W B Ejs). reflexivity.
  - destruct o as [a|]; [|discriminate]. cbn [option_map opt] in Wo. unfold retype in Wo. rewrite V in Wo.
    cbn [c_ptr enc dec] in Ej |- *. cbn [c_Accessor c_struct enc] in Ej. pose proof (enc_struct_nonnull _ _ _ Ej) as NN.
    unfold enc_struct in Ej. apply bind_ok in Ej. destruct Ej as (m & Em & Ej). injection Ej as <-.
    cbn [c_Accessor c_struct dec]. rewrite (accessor_refused a m Wo V Em). reflexivity.
Qed.

Lemma document_refused d m : fit_Document X rep n (retyped d) -> typed d = false ->
  enc_fields (out_Document F X) d = Ok m -> dec_struct (fields_Document F X) zero_Document (JObj m) = Err bad_type.
Proof.
  intros W V. unfold fit_Document, retyped in W.
  cbn [set_doc_Accessors doc_Extensions doc_Extras doc_ExtensionsUsed doc_ExtensionsRequired doc_Accessors doc_Animations doc_Asset doc_Buffers doc_BufferViews doc_Cameras doc_Images doc_Materials doc_Meshes doc_Nodes doc_Samplers doc_Scene doc_Scenes doc_Skins doc_Textures] in W.
  decompose [and] W. unfold out_Document.
  match goal with |- enc_fields (?f1 :: ?f2 :: ?f3 :: ?f4 :: ?f5 :: _ :: ?le) _ = _ -> _ =>
    apply (refused_field (fields_Document F X) (n + 6) zero_Document d (kept_Document X rep d) [f1; f2; f3; f4; f5] le "accessors" doc_Accessors set_doc_Accessors (c_slice None (c_ptr zero_Accessor (c_Accessor F X))) is_nil bad_type) end.
  - plain_tac.
  - lens_tac.
  - indep_tac.
  - keeps_tac.
  - repeat apply Forall_cons; [..|apply Forall_nil].
    + apply (fspec_intro _ _ _ _ _ _ _ _ _ (Forall (opt (fit_Buffer X rep n))) (map (option_map (kept_Buffer X rep)))); [apply (rt_mono _ (S (n + 2))); [apply (rt_slice None _ _ (opt (fit_Buffer X rep n)) (option_map (kept_Buffer X rep))), rk_ptr_Buffer; assumption || reflexivity|lia]|kfield_tac|komit_tac rep R].
    + apply (fspec_intro _ _ _ _ _ _ _ _ _ (fit_ext X rep n) (kept_ext X rep)); [apply (rt_mono _ (S n)); [apply (rk_ext rep R X)|lia]|kfield_tac|komit_tac rep R].
    + apply (fspec_intro _ _ _ _ _ _ _ _ _ (fit_any n) (kept_any rep)); [apply (rt_mono _ n); [apply (rk_any rep R F HF)|lia]|kfield_tac|komit_tac rep R].
    + apply (fspec_intro _ _ _ _ _ _ _ _ _ (fun _ => True) (map rep)); [apply (rt_mono _ (S n)); [apply (rk_strs rep R n)|lia]|kfield_tac|komit_tac rep R].
    + apply (fspec_intro _ _ _ _ _ _ _ _ _ (fun _ => True) (map rep)); [apply (rt_mono _ (S n)); [apply (rk_strs rep R n)|lia]|kfield_tac|komit_tac rep R].
  - destruct (doc_Accessors d) eqn:E; [unfold typed in V; rewrite E in V; discriminate|reflexivity].
  - intros j E. cbn [c_slice enc dec] in E |- *. apply bind_ok in E. destruct E as (js & Ejs & E). injection E as <-.
    unfold typed in V. apply (accessors_refused (doc_Accessors d) js); assumption.
Qed.
End Params.

(** ** Documents *)
Lemma embedded_buffer_go X a i b : go_Buffer X b -> go_Buffer X (embedded_buffer a i b).
Proof. unfold embedded_buffer. destruct (buf_Data b); [auto|]. destruct (buf_URI b); [|auto]. destruct (a && _); auto. Qed.
Lemma embedded_buffer_savable X a i b : savable_Buffer X b -> savable_Buffer X (embedded_buffer a i b).
Proof. unfold embedded_buffer. destruct (buf_Data b); [auto|]. destruct (buf_URI b); [|auto]. destruct (a && _); auto. Qed.
Lemma embedded_all (P : Buffer -> Prop) a l : (forall i b, P b -> P (embedded_buffer a i b)) -> Forall (opt P) l -> Forall (opt P) (embedded_buffers a l).
Proof.
  intros H W. unfold embedded_buffers. apply Forall_map. apply Forall_forall. intros [i o] Hin. apply in_combine_r in Hin. cbn [fst snd].
  rewrite Forall_forall in W. specialize (W o Hin). destruct o as [b|]; [|exact I]. cbn [option_map opt] in *. apply H. exact W.
Qed.
Ltac doc_cbn W := cbn [retyped embedded set_doc_Accessors doc_Extensions doc_Extras doc_ExtensionsUsed doc_ExtensionsRequired doc_Accessors doc_Animations doc_Asset doc_Buffers doc_BufferViews doc_Cameras doc_Images doc_Materials doc_Meshes doc_Nodes doc_Samplers doc_Scene doc_Scenes doc_Skins doc_Textures] in W |- *.
Lemma embedded_go X a d : go_Document X d -> go_Document X (embedded a d).
Proof.
  intros W. unfold go_Document in *. decompose [and] W. doc_cbn W. repeat (split; [first [assumption|apply embedded_all; [apply embedded_buffer_go|assumption]]|]). assumption.
Qed.
Lemma embedded_savable X a d : savable_Document X d -> savable_Document X (embedded a d).
Proof.
  intros W. unfold savable_Document in *. decompose [and] W. doc_cbn W. repeat (split; [first [assumption|apply embedded_all; [apply embedded_buffer_savable|assumption]]|]). assumption.
Qed.
Lemma retyped_all (P : Accessor -> Prop) l : (forall b, P b -> P (retype b)) -> Forall (opt P) l -> Forall (opt P) (map (option_map retype) l).
Proof.
  intros H W. apply Forall_map. eapply Forall_impl; [|exact W]. intros [b|] Hb; [|exact I]. cbn [option_map opt] in *. apply H. exact Hb.
Qed.
Lemma retyped_go X d : go_Document X d -> go_Document X (retyped d).
Proof.
  intros W. unfold go_Document in *. decompose [and] W. doc_cbn W. repeat (split; [first [assumption|apply retyped_all; [|assumption]; intros b; unfold retype; destruct (at_valid _); exact (fun H => H)]|]). assumption.
Qed.
Lemma retyped_savable X d : savable_Document X d -> savable_Document X (retyped d).
Proof.
  intros W. unfold savable_Document in *. decompose [and] W. doc_cbn W. repeat (split; [first [assumption|apply retyped_all; [|assumption]; intros b; unfold retype; destruct (at_valid _); exact (fun H => H)]|]). assumption.
Qed.
Lemma retyped_typed d : typed (retyped d) = true.
Proof.
  unfold typed, retyped. cbn [set_doc_Accessors doc_Accessors]. apply forallb_forall. intros o Ho. apply in_map_iff in Ho. destruct Ho as ([a|] & <- & _); [|reflexivity].
  cbn. unfold retype. destruct (at_valid (acr_Type a)) eqn:E; [exact E|reflexivity].
Qed.
Lemma retyped_embedded a d : retyped (embedded a d) = embedded a (retyped d).
Proof. reflexivity. Qed.

(** The tree that is written is read as the kept document. *)
Theorem tree_kept F X rep a d j : float_contract F -> registry_total X -> repairs rep -> go_Document X d ->
  marshal_tree F X a d = Ok j ->
  dec (c_Document F X) zero_Document j = if typed d then Ok (kept_Document X rep (embedded a d)) else Err bad_type.
Proof.
  intros HF T R G M. pose proof (marshal_tree_exact F X HF a d G) as E. rewrite M in E. destruct E as (_ & _ & (m & ->) & S & N).
  assert (NB : Forall (fun o => o <> None) (doc_Buffers d)) by (apply Forall_forall; intros o Ho ->; exact (N Ho)).
  unfold marshal_tree in M. rewrite (custom_buffers_spec a _ 0 NB) in M. cbn [bind] in M.
  fold (embedded_buffers a (doc_Buffers d)) in M. rewrite set_buffers_embedded in M.
  pose proof (embedded_go X a d G) as Ge. pose proof (embedded_savable X a d S) as Se.
  assert (Te : typed (embedded a d) = typed d) by reflexivity. rewrite <- Te. destruct (typed (embedded a d)) eqn:V.
  - destruct (ev_Document X rep T _ Ge Se V) as [_ [n W]].
    destruct (rk_Document F X rep HF R n zero_Document eq_refl _ W) as (j & Ej & _ & D). rewrite M in Ej. injection Ej as <-. exact D.
  - destruct (ev_Document X rep T _ (retyped_go X _ Ge) (retyped_savable X _ Se) (retyped_typed _)) as [_ [n W]].
    cbn [c_Document enc dec] in M |- *. unfold enc_struct in M. apply bind_ok in M. destruct M as (m' & Em & M). injection M as <-.
    exact (document_refused F X rep HF R n _ m' W V Em).
Qed.
