(** The payloads of the extensions are read as their specifications say. *)
From Verif Require Import Base BaseFacts Types Doc F64 SpecText SpecString JsonText JsonStringProofs Codec DocCodec SpecJson SpecJsonDoc
  CodecProofs CodecInv DocCodecBase Marshal SpecMarshal MarshalProofs SpecSchema SchemaProofs SchemaAccept SpecMeaning PropsString MeaningProofs
  MeaningUnique PropsMeaning Ext SpecExtMeaning.

Section Params.
Context (F : float_lib) (X : ext_lib).

Lemma dc_str_enum l : dc F c_str (SEnum l).
Proof. intros m old j W C. inversion C; subst. cbn. match goal with H : unquote_str _ = Some _ |- _ => rewrite H end. eexists. reflexivity. Qed.
Lemma rd_str_enum l z : rd c_str (SEnum l) m_str z.
Proof.
  intros m j y W C E. inversion C; subst. apply (rd_str z m _ y W); [constructor|exact E].
Qed.
Ltac dc_tac :=
  first [ apply dc_str_enum | apply dc_str | apply dc_int | apply dc_f64 | assumption
        | apply dc_ptr; dc_tac | apply dc_slice; dc_tac | apply dc_oslice; dc_tac | apply dc_array; dc_tac ].
Ltac sdc_tac fs := apply (dc_struct F fs); [intros old; eexists; intros j; reflexivity|vm_compute; reflexivity|
  repeat apply Forall_cons; try apply Forall_nil; (right; eexists; split; [reflexivity|cbn [fdc snd]; dc_tac])].
Ltac nn_tac := let C := fresh in intros C; inversion C.
Ltac rd_tac :=
  first [ apply rd_str_enum | apply rd_str | apply rd_int | apply rd_f64 | assumption
        | apply rd_ptr; [nn_tac|rd_tac] | apply rd_slice; rd_tac | apply rd_oslice; rd_tac | apply rd_array; [intros; apply rd_f64|reflexivity] ].
Ltac prd_tac := repeat apply Forall_cons; try apply Forall_nil;
  (do 4 eexists; split; [reflexivity|split; [reflexivity|split; [rd_tac|first [left; reflexivity|right; exact eq_refl]]]]).
Ltac srd_tac fs x0 := apply (rd_struct fs x0); [intros j; reflexivity|lens_tac|indep_tac|vm_compute; reflexivity|vm_compute; reflexivity|vm_compute; reflexivity|prd_tac].

(** ** Texture transforms *)
Definition c_TT : codec TextureTransform := mkCodec (fun _ => Err ErrValue) (fun _ j => tt_UnmarshalJSON F j).
Lemma dc_transform : dc F c_TT s_transform.
Proof. sdc_tac (fields_TT F). Qed.
Lemma rd_transform z : rd c_TT s_transform (m_transform F) z.
Proof. srd_tac (fields_TT F) (mkTT [0; 0] 0 tt_DefaultScale None). Qed.

(** ** Lights *)
Lemma dc_spot : dc F (c_Spot F) s_spot.
Proof. sdc_tac (fields_Spot F). Qed.
Lemma rd_spot z : rd (c_Spot F) s_spot (m_spot F) z.
Proof. srd_tac (fields_Spot F) default_Spot. Qed.
Lemma dc_light : dc F (c_Light F) s_light.
Proof. pose proof dc_spot. sdc_tac (fields_Light F). Qed.
Lemma rd_light z : rd (c_Light F) s_light (m_light F) z.
Proof. pose proof (rd_spot zero_Spot). srd_tac (fields_Light F) default_Light. Qed.

(** The envelope: its members are found under any mix of cases. *)
Definition fields_env : list (field envelop) := [
  Fld "lights" env_Lights (fun v e => mkEnv v (env_Light e)) (c_Lights F) never;
  Fld "light" env_Light (fun v e => mkEnv (env_Lights e) v) (c_ptr 0 c_int) never
].
Lemma find_env k : fold_eq "Lights" k = fold_eq "lights" k /\ fold_eq "Light" k = fold_eq "light" k /\
  (fold_eq "lights" k = true -> fold_eq "light" k = false).
Proof.
  unfold fold_eq.
  replace (fold_name (str_bytes "Lights")) with (fold_name (str_bytes "lights")) by (vm_compute; reflexivity).
  replace (fold_name (str_bytes "Light")) with (fold_name (str_bytes "light")) by (vm_compute; reflexivity).
  split; [reflexivity|]. split; [reflexivity|]. destruct (list_eq_dec _ (fold_name (str_bytes "lights")) _) as [E|]; [|discriminate].
  rewrite <- E. intros _. vm_compute. reflexivity.
Qed.
Lemma env_same : forall ms x, dec_members (fields_envelop F) x ms = dec_members fields_env x ms.
Proof.
  induction ms as [|[raw j] ms IH]; intros x; [reflexivity|]. cbn [dec_members]. destruct (key_of raw) as [k| |]; [|reflexivity..]. cbn [bind].
  destruct (find_env k) as (E1 & E2 & E3).
  assert (Q : forall a, String.eqb a k = true -> fold_eq a k = true) by (intros a E; apply String.eqb_eq in E; subst; apply fold_eq_refl).
  assert (S : match find_field (fields_envelop F) k with Some f => dec_field f x j | None => Ok x end =
              match find_field fields_env k with Some f => dec_field f x j | None => Ok x end).
  { unfold find_field. cbn [fields_envelop fields_env find fname].
    pose proof (Q "Lights"%string). pose proof (Q "Light"%string). pose proof (Q "lights"%string). pose proof (Q "light"%string). rewrite E1, E2 in *.
    destruct (fold_eq "lights" k), (fold_eq "light" k); try (specialize (E3 eq_refl); discriminate);
    destruct (String.eqb "Lights" k), (String.eqb "Light" k), (String.eqb "lights" k), (String.eqb "light" k);
    try reflexivity; try (match goal with H : true = true -> false = true |- _ => specialize (H eq_refl); discriminate end). }
  rewrite S. destruct (match find_field fields_env k with Some f => dec_field f x j | None => Ok x end); cbn [bind]; [apply IH|reflexivity..].
Qed.
Definition c_env : codec envelop := mkCodec (fun _ => Err ErrValue) (fun _ j => dec_struct fields_env (mkEnv None None) j).
Lemma dc_Lights : dc F (c_Lights F) (SList 1 s_light).
Proof. pose proof dc_light. unfold c_Lights. dc_tac. Qed.
Lemma rd_Lights : rd (c_Lights F) (SList 1 s_light) (m_some (m_list (m_some (m_light F)))) None.
Proof. pose proof (rd_light zero_Light). unfold c_Lights. rd_tac. Qed.

(** No member goes by that name, in whatever case. *)
Definition apart (name : string) (ms : list (string * json)) : Prop :=
  Forall (fun p => forall k, unquote_str (fst p) = Some k -> fold_eq name k = false) ms.
Definition s_env (both : bool) : schema :=
  if both then SObj [("lights"%string, SList 1 s_light)] [("light"%string, SInt 0)]
  else SObj [("light"%string, SInt 0)] [("lights"%string, SList 1 s_light)].
Lemma dc_env b : dc F c_env (s_env b).
Proof. pose proof dc_Lights. destruct b; sdc_tac fields_env. Qed.
Lemma rd_env b z : rd c_env (s_env b) (m_obj
  [Prp "lights" env_Lights (m_some (m_list (m_some (m_light F)))) (if b then needed else nothing);
   Prp "light" env_Light (m_some m_int) (if b then nothing else needed)]) z.
Proof. pose proof rd_Lights. destruct b; srd_tac fields_env (mkEnv None None). Qed.
Lemma widen num name s other s' ms : apart other ms -> conforms num unrelated (SObj [(name, s)] []) (JObj ms) ->
  conforms num unrelated (SObj [(name, s)] [(other, s')]) (JObj ms).
Proof.
  intros A C. inversion C as [| | | | | | | | | | |? ? ? ND RQ FM]; subst. apply cf_obj; [exact ND|exact RQ|]. unfold apart in A. rewrite Forall_forall in *.
  intros p I. destruct (FM p I) as (k & U & K). exists k. split; [exact U|]. destruct K as [(s0 & I0 & C0)|K].
  - left. exists s0. split; [|exact C0]. apply in_app_or in I0. destruct I0 as [I0|[]]. apply in_or_app. left. exact I0.
  - right. cbn [map fst app] in *. unfold unrelated in *. constructor; [exact (Forall_inv K)|]. constructor; [exact (A p I k U)|constructor].
Qed.
Lemma lights_env ms : lights_Unmarshal F (JObj ms) =
  (e <- dec c_env (mkEnv None None) (JObj ms) ;; Ok (match env_Light e with Some i => LightIndex i | None => LightList (env_Lights e) end)).
Proof. unfold lights_Unmarshal. cbn [dec_struct c_env dec]. rewrite env_same. reflexivity. Qed.
Lemma apart_none name ms k : wf_json k (JObj ms) -> apart name ms -> no_member name ms.
Proof.
  intros W A. destruct (wf_obj_inv _ _ W) as [k' Wl]. unfold no_member, apart in *. rewrite Forall_forall in *. intros p I S.
  apply (says_unquote _ _ (proj1 (Wl p I))) in S. specialize (A p I _ S). rewrite fold_eq_refl in A. discriminate.
Qed.
Lemma read_light_list n ms : wf_json n (JObj ms) -> conforms (in_float_range F) unrelated s_light_list (JObj ms) -> apart "light" ms ->
  exists v, lights_Unmarshal F (JObj ms) = Ok v /\ m_light_list F v (JObj ms).
Proof.
  intros W C A. pose proof (widen _ _ _ _ (SInt 0) ms A C) as C'. destruct (dc_env true n (mkEnv None None) _ W C') as [e E].
  rewrite lights_env, E. cbn [bind].
  assert (CT : conforms (fun _ => True) unrelated (s_env true) (JObj ms)) by exact (conforms_mono _ (fun _ => True) _ unrelated (fun _ _ => I) (fun _ _ H => H) _ _ C').
  destruct (rd_env true _ n _ e W CT E) as (ms' & [= <-] & H). pose proof (Forall_inv H) as H1. pose proof (Forall_inv (Forall_inv_tail H)) as H2.
  cbn [property_holds] in H1, H2. destruct H1 as [(v & M & ls & El & R)|[_ []]].
  destruct H2 as [(w & M' & _)|[_ ->]]; [destruct (member_none _ _ _ M' (apart_none _ _ _ W A))|].
  rewrite El. eexists. split; [reflexivity|]. exists ls, ms, v. split; [reflexivity|]. split; [reflexivity|]. split; [exact M|exact R].
Qed.
Lemma read_light_ref n ms : wf_json n (JObj ms) -> conforms (in_float_range F) unrelated s_light_ref (JObj ms) -> apart "lights" ms ->
  exists v, lights_Unmarshal F (JObj ms) = Ok v /\ m_light_ref v (JObj ms).
Proof.
  intros W C A. pose proof (widen _ _ _ _ (SList 1 s_light) ms A C) as C'. destruct (dc_env false n (mkEnv None None) _ W C') as [e E].
  rewrite lights_env, E. cbn [bind].
  assert (CT : conforms (fun _ => True) unrelated (s_env false) (JObj ms)) by exact (conforms_mono _ (fun _ => True) _ unrelated (fun _ _ => I) (fun _ _ H => H) _ _ C').
  destruct (rd_env false _ n _ e W CT E) as (ms' & [= <-] & H). pose proof (Forall_inv (Forall_inv_tail H)) as H2.
  cbn [property_holds] in H2. destruct H2 as [(v & M & i & Ei & R)|[_ []]].
  rewrite Ei. eexists. split; [reflexivity|]. exists i, ms, v. split; [reflexivity|]. split; [reflexivity|]. split; [exact M|exact R].
Qed.

(** ** Specular-glossiness *)
Lemma dc_texture : registry_total X -> dc F (c_TextureInfo F X) s_textureInfo.
Proof.
  intros RT. apply (dc_struct F (fields_TextureInfo F X)); [intros old; eexists; intros j; reflexivity|vm_compute; reflexivity|].
  repeat apply Forall_cons; try apply Forall_nil; (right; eexists; split; [reflexivity|cbn [fdc snd]; first [apply dc_int|apply (dc_ext F X RT)|apply dc_any]]).
Qed.
Lemma rd_texture : rd (c_TextureInfo F X) s_textureInfo (m_textureInfo F X) zero_TextureInfo.
Proof.
  apply (rd_struct (fields_TextureInfo F X) zero_TextureInfo); [intros j; reflexivity|lens_tac|indep_tac|vm_compute; reflexivity|vm_compute; reflexivity|vm_compute; reflexivity|].
  repeat apply Forall_cons; try apply Forall_nil;
  (do 4 eexists; split; [reflexivity|split; [reflexivity|split; [first [apply rd_int|apply rd_ext|apply rd_any]|first [left; reflexivity|right; exact eq_refl]]]]).
Qed.
Definition c_SG : codec PBRSpecularGlossiness := mkCodec (fun _ => Err ErrValue) (fun _ j => sg_UnmarshalJSON F X j).
Lemma dc_specular : registry_total X -> dc F c_SG s_specular.
Proof. intros RT. pose proof (dc_texture RT). sdc_tac (fields_SG F X). Qed.
Lemma rd_specular z : rd c_SG s_specular (m_specular F X) z.
Proof. pose proof rd_texture. srd_tac (fields_SG F X) default_SG. Qed.

(** ** Unlit *)
Lemma read_unlit n ms : wf_json n (JObj ms) -> exists u, unlit_UnmarshalJSON (JObj ms) = Ok u /\ m_unlit u (JObj ms).
Proof.
  intros W. destruct (wf_obj_inv _ _ W) as [k Wl]. cbn [unlit_UnmarshalJSON].
  assert (exists raw, traverse (fun p => k <- key_of (fst p) ;; Ok (k, snd p)) ms = Ok raw) as [raw T].
  { clear W. induction Wl as [|p l [B _] Wl [raw IH]]; [eexists; reflexivity|]. cbn [traverse]. destruct (unquote_str_total _ B) as [v U].
    unfold key_of. rewrite U. cbn [bind]. unfold key_of in IH. rewrite IH. eexists. reflexivity. }
  rewrite T. cbn [bind]. eexists. split; [reflexivity|]. exists ms. split; [reflexivity|].
  destruct (map_sets_inv (fun _ => True) raw [] sk_nil (Forall_nil _)) as [S _]; [apply Forall_forall; auto|]. rewrite map_sets_sorted by exact S.
  apply dict_sets; [exact (wf_bodies k ms Wl)|]. apply traverse_forall2 in T. apply (Forall2_impl_in _ _ _ _ T). intros p [kk v] I E. cbn [fst snd] in *.
  destruct (key_of (fst p)) as [k0| |] eqn:K; [|discriminate..]. injection E as -> ->. split; [exact (key_of_some _ _ K)|reflexivity].
Qed.

(** ** One meaning *)
Lemma f_transform : func (m_transform F). Proof. obj_tac. Qed.
Lemma f_spot : func (m_spot F). Proof. obj_tac. Qed.
Lemma f_light : func (m_light F). Proof. pose proof f_spot. obj_tac. Qed.
Lemma f_specular : func (m_specular F X). Proof. pose proof (f_textureInfo F X). obj_tac. Qed.
Lemma f_light_list : func (m_light_list F).
Proof.
  intros a b j (l1 & ms & w & -> & -> & M & R) (l2 & ms' & w' & -> & [= <-] & M' & R'). rewrite (member_func _ _ _ _ M' M) in R'.
  f_equal. f_equal. exact (f_list _ (f_some _ f_light) _ _ _ R R').
Qed.
Lemma f_unlit : func m_unlit.
Proof. unfold m_unlit. apply f_dict. intros k a b j -> ->. reflexivity. Qed.
Lemma f_light_ref : func m_light_ref.
Proof.
  intros a b j (l1 & ms & w & -> & -> & M & R) (l2 & ms' & w' & -> & [= <-] & M' & R'). rewrite (member_func _ _ _ _ M' M) in R'.
  f_equal. exact (f_int _ _ _ R R').
Qed.
End Params.
