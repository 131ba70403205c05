(** The values of the ext packages: what their encoders return, and what their
    decoders make. *)
From Verif Require Import Base BaseFacts Types Doc F64 SpecText JsonText JsonStringProofs ScanSound Codec DocCodec SpecJson CodecProofs CodecInv DocCodecBase DocInvBase
  SpecGo SpecGoDoc EncodeExact DocExact DocWithin SpecLoaded SpecLoadedDoc LoadedProofs DocLoaded Ext ExtRegistry ExtRegistryProofs SpecExtGo.

Lemma json_parse_lexical text j : json_parse text = Ok j -> lexical j.
Proof.
  unfold json_parse. destruct (scan start text) as [v rest|cf|] eqn:E; [destruct (forallb is_space rest); [|discriminate]| |discriminate].
  - intros [= <-]. destruct (scan_sound _ _ _ E) as (w & t & _ & _ & _ & W). eexists. exact W.
  - destruct (at_eof cf) as [v|] eqn:A; [|discriminate]. intros [= <-]. destruct (scan_sound_eof _ _ _ E A) as (w & t & _ & _ & _ & W). eexists. exact W.
Qed.
Lemma html_lexical j : lexical j -> lexical (html_json j).
Proof. intros [n W]. exists n. apply html_wf. exact W. Qed.
Definition fine (r : res json) : Prop := match r with Ok j => lexical j | Err _ => True | Panic => False end.
Lemma marshaler_fine out : out <> Panic -> fine (marshaler out).
Proof.
  intros H. unfold marshaler. destruct out as [text|e|]; cbn [bind]; [|exact I|contradiction].
  destruct (json_parse text) as [j|e|] eqn:E; cbn [bind fine]; [apply html_lexical; exact (json_parse_lexical _ _ E)|exact I|].
  unfold json_parse in E. destruct (scan start text) as [v rest|cf|]; [destruct (forallb _ _)|destruct (at_eof cf)|]; discriminate.
Qed.

Section Enc.
Context (F : float_lib) (HF : float_contract F).
Lemma empty_finite a : go_float a -> f64_empty a = true -> finite a.
Proof. intros G E. refine (f64_eq_finite a 0 G eq_refl _ E). vm_compute. split; [discriminate|reflexivity]. Qed.
Lemma exf_Spot : exact_fields go_Spot savable_Spot (fields_Spot F).
Proof.
  apply (exact_fields_intro _ _ _ [(fun x => finite (spo_InnerConeAngle x)); (fun x => opt finite (spo_OuterConeAngle x))]).
  - repeat apply Forall2_cons; [..|apply Forall2_nil].
    + apply (fexact_intro _ go_float finite); [name_tac|apply ex_f64, HF|go_tac go_Spot|exact empty_finite].
    + apply (fexact_intro _ (opt go_float) (opt finite)); [name_tac|apply ex_ptr, ex_f64, HF|go_tac go_Spot|omit_exact_tac].
  - intros x. unfold savable_Spot. sav_tac.
Qed.
Lemma ex_Spot : exact go_Spot savable_Spot (c_Spot F).
Proof. exact (exact_struct _ _ _ exf_Spot). Qed.
Lemma exf_Light : exact_fields go_Light savable_Light (fields_Light F).
Proof.
  apply (exact_fields_intro _ _ _ [(fun x => (fun _ => True) (lig_Type x)); (fun x => (fun _ => True) (lig_Name x)); (fun x => opt (Forall finite) (lig_Color x));
    (fun x => opt finite (lig_Intensity x)); (fun x => opt finite (lig_Range x)); (fun x => opt savable_Spot (lig_Spot x))]).
  - repeat apply Forall2_cons; [..|apply Forall2_nil].
    + apply (fexact_intro _ (fun _ => True) (fun _ => True)); [name_tac|apply ex_str|go_tac go_Light|omit_exact_tac].
    + apply (fexact_intro _ (fun _ => True) (fun _ => True)); [name_tac|apply ex_str|go_tac go_Light|omit_exact_tac].
    + apply (fexact_intro _ (opt (go_array 3)) (opt (Forall finite))); [name_tac|apply ex_ptr, ex_array, HF|go_tac go_Light|omit_exact_tac].
    + apply (fexact_intro _ (opt go_float) (opt finite)); [name_tac|apply ex_ptr, ex_f64, HF|go_tac go_Light|omit_exact_tac].
    + apply (fexact_intro _ (opt go_float) (opt finite)); [name_tac|apply ex_ptr, ex_f64, HF|go_tac go_Light|omit_exact_tac].
    + apply (fexact_intro _ (opt go_Spot) (opt savable_Spot)); [name_tac|apply ex_ptr, ex_Spot|go_tac go_Light|omit_exact_tac].
  - intros x. unfold savable_Light. sav_tac.
Qed.
Lemma ex_Light : exact go_Light savable_Light (c_Light F).
Proof. exact (exact_struct _ _ _ exf_Light). Qed.
Lemma ex_lights v : go_lights v -> match lights_Marshal F v with Ok j => lexical j /\ savable_lights v | Err _ => ~ savable_lights v | Panic => False end.
Proof.
  destruct v as [i|l]; cbn [go_lights lights_Marshal savable_lights]; intros G.
  - exact (ex_int i G).
  - exact (ex_oslice _ _ None _ (ex_ptr _ _ zero_Light _ ex_Light) l G).
Qed.
Lemma tt_enc_np t : go_TT t -> tt_MarshalJSON F t <> Panic.
Proof.
  intros G. unfold tt_MarshalJSON.
  assert (E : exact_fields go_TT (fun t => Forall finite (tt_Offset t) /\ finite (tt_Rotation t) /\ Forall finite (tt_Scale t)) (fields_TT F)).
  { apply (exact_fields_intro _ _ _ [(fun x => Forall finite (tt_Offset x)); (fun x => finite (tt_Rotation x)); (fun x => Forall finite (tt_Scale x)); (fun x => opt (fun _ => True) (tt_TexCoord x))]).
    - repeat apply Forall2_cons; [..|apply Forall2_nil].
      + apply (fexact_intro _ (go_array 2) (Forall finite)); [name_tac|apply ex_array, HF|go_tac go_TT|omit_exact_tac].
      + apply (fexact_intro _ go_float finite); [name_tac|apply ex_f64, HF|go_tac go_TT|exact empty_finite].
      + apply (fexact_intro _ (go_array 2) (Forall finite)); [name_tac|apply ex_array, HF|go_tac go_TT|omit_exact_tac].
      + apply (fexact_intro _ (opt in_i64) (opt (fun _ => True))); [name_tac|apply ex_ptr, ex_int|go_tac go_TT|omit_exact_tac].
    - intros x. sav_tac. }
  pose proof (exact_struct _ _ _ E t G) as S. destruct (enc_struct (fields_TT F) t); cbn [bind]; [discriminate|discriminate|contradiction].
Qed.
Lemma sg_enc_np X p : go_SG X p -> sg_MarshalJSON F X p <> Panic.
Proof.
  intros G. unfold sg_MarshalJSON.
  assert (E : exact_fields (go_SG X) (fun p => opt (Forall finite) (sg_DiffuseFactor p) /\ opt (savable_TextureInfo X) (sg_DiffuseTexture p) /\ opt (Forall finite) (sg_SpecularFactor p) /\
      opt finite (sg_GlossinessFactor p) /\ opt (savable_TextureInfo X) (sg_SpecularGlossinessTexture p)) (fields_SG F X)).
  { apply (exact_fields_intro _ _ _ [(fun p => opt (Forall finite) (sg_DiffuseFactor p)); (fun p => opt (savable_TextureInfo X) (sg_DiffuseTexture p)); (fun p => opt (Forall finite) (sg_SpecularFactor p));
      (fun p => opt finite (sg_GlossinessFactor p)); (fun p => opt (savable_TextureInfo X) (sg_SpecularGlossinessTexture p))]).
    - repeat apply Forall2_cons; [..|apply Forall2_nil].
      + apply (fexact_intro _ (opt (go_array 4)) (opt (Forall finite))); [name_tac|apply ex_ptr, ex_array, HF|go_tac go_SG|omit_exact_tac].
      + apply (fexact_intro _ (opt (go_TextureInfo X)) (opt (savable_TextureInfo X))); [name_tac|apply ex_ptr, ex_TextureInfo, HF|go_tac go_SG|omit_exact_tac].
      + apply (fexact_intro _ (opt (go_array 3)) (opt (Forall finite))); [name_tac|apply ex_ptr, ex_array, HF|go_tac go_SG|omit_exact_tac].
      + apply (fexact_intro _ (opt go_float) (opt finite)); [name_tac|apply ex_ptr, ex_f64, HF|go_tac go_SG|omit_exact_tac].
      + apply (fexact_intro _ (opt (go_TextureInfo X)) (opt (savable_TextureInfo X))); [name_tac|apply ex_ptr, ex_TextureInfo, HF|go_tac go_SG|omit_exact_tac].
    - intros x. sav_tac. }
  pose proof (exact_struct _ _ _ E p G) as S. destruct (enc_struct (fields_SG F X) p); cbn [bind]; [discriminate|discriminate|contradiction].
Qed.
Lemma unlit_fine u : go_unlit u -> fine (unlit_Marshal u).
Proof.
  intros G. cbn [unlit_Marshal fine]. apply lexical_obj. unfold lex_members. apply Forall_map. eapply Forall_impl; [|exact G].
  intros [k v] L. split; [apply quote_str_body|apply html_lexical; exact L].
Qed.

Definition library (o : option ext_lib) : ext_lib := match o with Some X => X | None => mkExtLib (fun _ => None) (fun _ _ => Err ErrValue) end.
Lemma Marshal_fine inn p v : go_value (library inn) p v -> fine (Marshal F inn p v).
Proof.
  destruct p; cbn [go_value Marshal].
  - intros (l & -> & G). rewrite lights_inv. cbn [with_value]. pose proof (ex_lights l G) as E. destruct (lights_Marshal F l); cbn [fine]; [apply E|exact I|exact E].
  - intros (s & -> & G). destruct inn as [X|]; [|exact I]. rewrite sg_inv. cbn [with_value library] in *. apply marshaler_fine, sg_enc_np. exact G.
  - intros (t & -> & G). rewrite tt_inv. cbn [with_value]. apply marshaler_fine, tt_enc_np. exact G.
  - intros (u & -> & G). rewrite unlit_inv. cbn [with_value]. apply unlit_fine. exact G.
Qed.
Lemma registry_fine imports depth p v : go_value (library (inner F imports depth)) p v -> go_extv (go_exts F imports depth) (ext_name p) (EVal v).
Proof.
  intros G. cbn [go_extv]. change (fine (ext_enc (go_exts F imports depth) (ext_name p) v)). destruct (imports p) eqn:I.
  - rewrite go_encoder by exact I. apply Marshal_fine. exact G.
  - destruct depth; cbn [go_exts ext_enc]; rewrite package_of_name, I; exact Logic.I.
Qed.
End Enc.

(** ** What the decoders make *)
Section Dec.
Context (F : float_lib) (PC : parse_contract F).
Definition loaded_TT (t : TextureTransform) : Prop :=
  farray 2 (tt_Offset t) /\ float_ok (tt_Rotation t) /\ farray 2 (tt_Scale t) /\ opt in_i64 (tt_TexCoord t).
Lemma il_tt j t : lexical j -> tt_UnmarshalJSON F j = Ok t -> loaded_TT t.
Proof. intros [n W] H. exact (inv_tt F n j t PC W H). Qed.
Lemma tt_go t : loaded_TT t -> go_TT t.
Proof. intros (H1 & H2 & H3 & H4). split; [exact (array_go 2 _ H1)|]. split; [exact (float_go _ H2)|]. split; [exact (array_go 2 _ H3)|exact H4]. Qed.

Definition loaded_SG (Q : string -> extv -> Prop) (p : PBRSpecularGlossiness) : Prop :=
  opt (farray 4) (sg_DiffuseFactor p) /\ opt (loaded_TextureInfo Q) (sg_DiffuseTexture p) /\ opt (farray 3) (sg_SpecularFactor p) /\
  opt float_ok (sg_GlossinessFactor p) /\ opt (loaded_TextureInfo Q) (sg_SpecularGlossinessTexture p).
Lemma il_sg X Q j p : registry_gives X Q -> lexical j -> sg_UnmarshalJSON F X j = Ok p -> loaded_SG Q p.
Proof.
  intros HQ L H. refine (inv_struct _ _ (fields_SG F X) default_SG j p closed_lexical _ _ L H).
  - pose proof (inv_f64 F PC lexical) as IF.
    pose proof (inv_ptr zero_TextureInfo _ _ (loaded_TextureInfo Q) (zero_loaded_TextureInfo Q) (il_TextureInfo F X Q PC HQ)) as IT.
    repeat apply Forall_cons; [..|apply Forall_nil].
    + finv_tac (inv_ptr (repeat 0 4) _ _ (farray 4) (farray_0 4) (inv_array 0 (c_f64 F) _ float_ok 4 closed_lexical float_ok_0 IF)) loaded_SG.
    + finv_tac IT loaded_SG.
    + finv_tac (inv_ptr (repeat 0 3) _ _ (farray 3) (farray_0 3) (inv_array 0 (c_f64 F) _ float_ok 3 closed_lexical float_ok_0 IF)) loaded_SG.
    + finv_tac (inv_ptr 0 (c_f64 F) _ float_ok float_ok_0 IF) loaded_SG.
    + finv_tac IT loaded_SG.
  - split; [exact (farray_one 4)|]. split; [exact I|]. split; [exact (farray_one 3)|]. split; [exact float_ok_one|exact I].
Qed.
Lemma sg_go X (Q : string -> extv -> Prop) p : (forall k e, Q k e -> go_extv X k e) -> loaded_SG Q p -> go_SG X p.
Proof.
  intros HG (H1 & H2 & H3 & H4 & H5).
  split; [exact (impl_opt _ _ _ (array_go 4) H1)|]. split; [exact (impl_opt _ _ _ (lgo_TextureInfo X Q HG) H2)|].
  split; [exact (impl_opt _ _ _ (array_go 3) H3)|]. split; [exact (impl_opt _ _ _ float_go H4)|exact (impl_opt _ _ _ (lgo_TextureInfo X Q HG) H5)].
Qed.

Lemma go_inf : go_float f64_inf.
Proof. vm_compute. split; [discriminate|reflexivity]. Qed.
Lemma go_pi4 : go_float f64_pi4.
Proof. vm_compute. split; [discriminate|reflexivity]. Qed.
Lemma inv_gof : inv (c_f64 F) lexical go_float.
Proof.
  intros old j y Ho L H. destruct j; cbn in H; try discriminate; [injection H as <-; exact Ho|].
  destruct (parse64 F lit) as [f|] eqn:E; [|discriminate]. injection H as <-. exact (float_go _ (PC _ _ E)).
Qed.
Lemma go_zero : go_float 0.
Proof. exact (float_go _ float_ok_0). Qed.
Lemma il_Spot : inv (c_Spot F) lexical go_Spot.
Proof.
  intros old j y _ L H. refine (inv_struct _ _ (fields_Spot F) default_Spot j y closed_lexical _ _ L H).
  - repeat apply Forall_cons; [..|apply Forall_nil].
    + finv_tac inv_gof go_Spot.
    + finv_tac (inv_ptr 0 (c_f64 F) _ go_float go_zero inv_gof) go_Spot.
  - split; [exact go_zero|exact go_pi4].
Qed.
Lemma il_Light : inv (c_Light F) lexical go_Light.
Proof.
  intros old j y _ L H. refine (inv_struct _ _ (fields_Light F) default_Light j y closed_lexical _ _ L H).
  - repeat apply Forall_cons; [..|apply Forall_nil].
    + finv_tac (inv_true c_str lexical) go_Light.
    + finv_tac (inv_true c_str lexical) go_Light.
    + finv_tac (inv_ptr (repeat 0 3) _ _ (go_array 3) (array_go 3 _ (farray_0 3)) (inv_array 0 (c_f64 F) _ go_float 3 closed_lexical go_zero inv_gof)) go_Light.
    + finv_tac (inv_ptr 0 (c_f64 F) _ go_float go_zero inv_gof) go_Light.
    + finv_tac (inv_ptr 0 (c_f64 F) _ go_float go_zero inv_gof) go_Light.
    + finv_tac (inv_ptr zero_Spot (c_Spot F) _ go_Spot (conj go_zero I) il_Spot) go_Light.
  - split; [exact (array_go 3 _ (farray_one 3))|]. split; [exact (float_go _ float_ok_one)|]. split; [exact go_inf|exact I].
Qed.
Definition go_envelop (e : envelop) : Prop := opt (Forall (opt go_Light)) (env_Lights e) /\ opt in_i64 (env_Light e).
Lemma il_lights j v : lexical j -> lights_Unmarshal F j = Ok v -> go_lights v.
Proof.
  intros L H. unfold lights_Unmarshal in H. apply bind_ok in H. destruct H as (e & E & H). injection H as <-.
  assert (G : go_envelop e).
  { refine (inv_struct _ _ (fields_envelop F) (mkEnv None None) j e closed_lexical _ (conj I I) L E). repeat apply Forall_cons; [..|apply Forall_nil].
    - finv_tac (inv_oslice None _ _ (opt go_Light) closed_lexical I (inv_ptr zero_Light _ _ go_Light (conj I (conj I (conj I I))) il_Light)) go_envelop.
    - finv_tac (inv_ptr 0 c_int _ in_i64 in_i64_0 (inv_int lexical)) go_envelop. }
  destruct G as [G1 G2]. destruct (env_Light e) as [i|]; [exact G2|exact G1].
Qed.
Lemma il_unlit j u : lexical j -> unlit_UnmarshalJSON j = Ok u -> go_unlit u.
Proof.
  intros [n W] H. destruct (unlit_ok (S n) j u ltac:(lia) (wf_json_mono _ _ (S n) W (Nat.le_succ_diag_r n)) H) as [_ V].
  eapply Forall_impl; [|exact V]. intros p [_ Wp]. eexists. exact Wp.
Qed.
End Dec.

(** Every value made from a payload by the registered packages is one of the
    Go type. *)
Lemma registry_makes F imports depth : float_contract F -> parse_contract F ->
  forall k e, from_json (go_exts F imports depth) k e -> go_extv (go_exts F imports depth) k e.
Proof.
  intros HF PC. induction depth as [|d IH]; intros k e (j & L & E).
  all: match type of E with match ?r with _ => _ end => destruct r as [f|] eqn:R end; [|rewrite E; exact L].
  all: destruct (f j) as [v|er|] eqn:Ef; [|rewrite E; exact L|contradiction]; subst e.
  all: destruct (go_registered_inv F imports _ k f R) as (p & -> & Ip & U).
  all: apply registry_fine; [exact HF|].
  all: destruct p; cbn [Unmarshal inner] in U; try discriminate U; injection U as <-; apply bind_ok in Ef; destruct Ef as (w & Ew & Ef); injection Ef as <-; cbn [go_value]; exists w; (split; [reflexivity|]).
  all: first [exact (il_lights F PC j w L Ew)|exact (tt_go w (il_tt F PC j w L Ew))|exact (il_unlit j w L Ew)|idtac].
  cbn [library inner]. refine (sg_go _ _ w IH (il_sg F PC (go_exts F imports d) _ j w (gives_from_json _) L Ew)).
Qed.
