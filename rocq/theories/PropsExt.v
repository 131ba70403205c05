(** Properties of the extension packages: C47 - C50. *)
From Verif Require Import Base BaseFacts Types Doc F64 F64Facts SpecText JsonText JsonTextProofs JsonStringProofs ScanSound Codec DocCodec SpecJson SpecJsonDoc
  CodecProofs CodecInv DocCodecBase DocCodecProofs Marshal SpecMarshal MarshalProofs Ext SpecExt ExtTransform ExtSpecular ExtProofs HtmlFixed PropsJson.

(** A number format that agrees with strconv on 0, -0, 1 and 10 and meets the
    contracts; the other numbers are written as an integer of their bits. *)
Definition f64_ten : Z := 0x4024000000000000.
Definition text_floats : float_lib := mkFloatLib
  (fun f => if f =? 0 then "0"%string else if f =? neg_zero then "-0"%string else if f =? one then "1"%string else
            if f =? f64_ten then "10"%string else fmt_int (f + 16))
  (fun s => if String.eqb s "-0" then Some neg_zero else
            match parse_uint (2 ^ 64 + 15) s with
            | Some n => if n =? 0 then Some 0 else if n =? 1 then Some one else if n =? 10 then Some f64_ten else
                        if (17 <=? n) && f64_finite (n - 16) then Some (n - 16) else None
            | None => None
            end).
(** Texts with their double quotes written as back quotes. *)
Definition text_lit (s : string) : bytes := map (fun b => if Ascii.eqb b "`" then dquote else b) (str_bytes s).
Lemma text_floats_text : float_text text_floats.
Proof. repeat split. Qed.
Lemma text_floats_contract : float_contract text_floats.
Proof.
  intros f [R Fi]. cbn [parse64 fmt64 text_floats].
  destruct (f =? 0) eqn:E0; [apply Z.eqb_eq in E0; subst; split; [apply (fmt_int_number 0); rewrite big10; lia|reflexivity]|].
  destruct (f =? neg_zero) eqn:E1; [apply Z.eqb_eq in E1; subst; split; [apply neg_zero_number|reflexivity]|].
  destruct (f =? one) eqn:E2; [apply Z.eqb_eq in E2; subst; split; [apply (fmt_int_number 1); rewrite big10; lia|reflexivity]|].
  destruct (f =? f64_ten) eqn:E3; [apply Z.eqb_eq in E3; subst; split; [apply (fmt_int_number 10); rewrite big10; lia|reflexivity]|].
  change (2 ^ 64) with 18446744073709551616 in R.
  split; [apply fmt_int_number; rewrite big10; lia|].
  pose proof (parse_fmt_uint (f + 16) (2 ^ 64 + 15)) as P. change (2 ^ 64) with 18446744073709551616 in *.
  specialize (P ltac:(lia) ltac:(reflexivity)).
  destruct (String.eqb (fmt_int (f + 16)) "-0") eqn:EN.
  - apply String.eqb_eq in EN. rewrite EN in P. vm_compute in P. discriminate.
  - rewrite P.
    replace (f + 16 =? 0) with false by lia. replace (f + 16 =? 1) with false by lia. replace (f + 16 =? 10) with false by lia.
    replace (17 <=? f + 16) with true by lia. replace (f + 16 - 16) with f by lia. rewrite Fi. reflexivity.
Qed.

(** ** C48: KHR_texture_transform *)
Theorem C48_texture_transform : forall F t, float_contract F -> float_text F -> wf_TT t ->
  exists text j,
    tt_MarshalJSON F t = Ok text /\ text_of j text /\ json_parse text = Ok j /\
    marshaler (tt_MarshalJSON F t) = Ok j /\
    tt_UnmarshalJSON F j = Ok (norm_TT t).
Proof.
  intros F t HF HT W. destruct (tt_text F HF HT t W) as (m & Em & T). destruct (tt_fields F HF t W) as (m' & Em' & Wm & D).
  rewrite Em in Em'. injection Em' as <-. exists (print_compact (JObj m)), (JObj m).
  pose proof (parse_print m 2 Wm ltac:(discriminate)) as P.
  split; [exact T|]. split; [apply print_compact_text|]. split; [exact P|]. split; [|exact D].
  unfold marshaler. rewrite T. cbn [bind]. rewrite P. cbn [bind]. f_equal.
  apply (hf_fields (kept_TT F) t); [|exact Em]. unfold kept_TT. hf_tac.
Qed.
Print Assumptions C48_texture_transform.
(** The scale in use is kept, whichever way the default is written. *)
Theorem C48_scale_in_use : forall F t j, float_contract F -> float_text F -> wf_TT t -> marshaler (tt_MarshalJSON F t) = Ok j ->
  exists t', tt_UnmarshalJSON F j = Ok t' /\ tt_ScaleOrDefault t' = tt_ScaleOrDefault t /\
  tt_Offset t' = tt_Offset t /\ tt_TexCoord t' = tt_TexCoord t /\ f64_eq (tt_Rotation t') (tt_Rotation t) = true.
Proof.
  intros F t j HF HT W M. destruct (C48_texture_transform F t HF HT W) as (text & j' & _ & _ & _ & M' & D).
  rewrite M in M'. injection M' as <-. exists (norm_TT t). split; [exact D|]. destruct W as (_ & Wr & Ws & _).
  split; [|split; [reflexivity|split; [reflexivity|]]].
  - unfold tt_ScaleOrDefault, norm_TT. cbn [tt_Scale].
    destruct (tt_Scale t) as [|[| |] [|[| |] [|]]]; reflexivity.
  - cbn [norm_TT tt_Rotation]. unfold plain_zero. destruct Wr as [_ Wr].
    assert (N : f64_is_nan (tt_Rotation t) = false) by (unfold f64_finite, f64_is_nan in *; lia).
    destruct (f64_eq (tt_Rotation t) 0) eqn:E; unfold f64_eq in *; rewrite N in *; [|cbn; apply Z.eqb_refl].
    change (f64_is_nan 0) with false in *. cbn [negb andb] in *. rewrite Z.eqb_sym. exact E.
Qed.
Print Assumptions C48_scale_in_use.
(** Scale [0,0] is written as nothing and comes back as the default. *)
Example C48_case :
  tt_MarshalJSON text_floats (mkTT [f64_ten; one] neg_zero [0; 0] (Some 2)) = Ok (text_lit "{`offset`:[10,1],`texCoord`:2}") /\
  tt_MarshalJSON text_floats (mkTT [0; 0] f64_ten [one; one] None) = Ok (text_lit "{`rotation`:10}") /\
  tt_UnmarshalJSON text_floats (JObj [("rotation"%string, JNum "10")]) = Ok (mkTT [0; 0] f64_ten [one; one] None).
Proof. vm_compute. repeat split. Qed.
Example C48_hypotheses : float_contract text_floats /\ float_text text_floats /\ wf_TT (mkTT [f64_ten; one] neg_zero [0; 0] (Some 2)).
Proof. split; [apply text_floats_contract|]. split; [apply text_floats_text|]. repeat split; repeat constructor; vm_compute; intuition discriminate. Qed.

(** ** C47: KHR_materials_pbrSpecularGlossiness *)
(** The text edits reach into the textures: an extras string changes
    silently, and an extras member can make the output invalid JSON. *)
Definition braces_sg : PBRSpecularGlossiness := mkSG None (Some (mkTextureInfo [] (VStr "{,") 0 0)) None None None.
Definition ten_sg : PBRSpecularGlossiness :=
  mkSG None (Some (mkTextureInfo [] (VObj [("glossinessFactor"%string, VNum f64_ten)]) 0 0)) None (Some one) None.
Theorem C47_refuted :
  (forall F X, wf_SG X 1 braces_sg /\ exists j p, marshaler (sg_MarshalJSON F X braces_sg) = Ok j /\ sg_UnmarshalJSON F X j = Ok p /\
     option_map txi_Extras (sg_DiffuseTexture p) = Some (VStr "{") /\ p <> norm_SG X braces_sg) /\
  (forall X, wf_SG X 2 ten_sg /\ exists text e, sg_MarshalJSON text_floats X ten_sg = Ok text /\ json_parse text = Err e /\
     forall j n, wf_json n j -> Z.of_nat n <= max_depth -> container j -> ~ text_of j text).
Proof.
  split.
  - intros F X. split.
    + split; [exact I|]. split; [|repeat split]. split; [split; constructor|]. split; [constructor; apply ascii_utf8; reflexivity|].
      unfold in_i64. cbn [txi_Index txi_TexCoord]. lia.
    + do 2 eexists. split; [vm_compute; reflexivity|]. split; [vm_compute; reflexivity|]. split; [reflexivity|]. vm_compute. discriminate.
  - intros X. split.
    + split; [exact I|]. split; [|split; [exact I|split; [split; vm_compute; intuition discriminate|exact I]]].
      split; [split; constructor|]. split; [|unfold in_i64; cbn [txi_Index txi_TexCoord]; lia].
      constructor; [constructor|]. constructor; [|constructor]. split; [apply ascii_utf8; reflexivity|]. constructor.
      split; vm_compute; intuition discriminate.
    + do 2 eexists. split; [vm_compute; reflexivity|]. split; [vm_compute; reflexivity|].
      intros j n W D C T. pose proof (scan_container j _ n [] T C W D) as S. vm_compute in S. discriminate.
Qed.
Print Assumptions C47_refuted.

Theorem C47_partial : forall F X n p, float_contract F -> float_text F -> (n + 3 <= Z.to_nat max_depth)%nat ->
  wf_SG X n p -> clean_SG F X p ->
  exists text j,
    sg_MarshalJSON F X p = Ok text /\ text_of j text /\ json_parse text = Ok j /\
    marshaler (sg_MarshalJSON F X p) = Ok j /\
    sg_UnmarshalJSON F X j = Ok (norm_SG X p).
Proof.
  intros F X n p HF HT N W C. destruct (sg_text F X n HF HT p W C) as (m & Em & T). destruct (sg_fields F X n HF p W) as (m' & Em' & Wm & D).
  rewrite Em in Em'. injection Em' as <-. exists (print_compact (JObj m)), (JObj m).
  pose proof (parse_print m _ Wm ltac:(lia)) as P.
  split; [exact T|]. split; [apply print_compact_text|]. split; [exact P|]. split; [|exact D].
  unfold marshaler. rewrite T. cbn [bind]. rewrite P. cbn [bind]. f_equal.
  apply (hf_fields (kept_SG F X) p); [|exact Em]. unfold kept_SG. hf_tac; apply hf_TextureInfo.
Qed.
Print Assumptions C47_partial.

(** Textures without extras and extensions are never touched. *)
Theorem C47_bare_textures : forall F X n p, float_contract F -> float_text F -> (n + 3 <= Z.to_nat max_depth)%nat ->
  wf_SG X n p -> opt bare_texture (sg_DiffuseTexture p) -> opt bare_texture (sg_SpecularGlossinessTexture p) ->
  exists j, marshaler (sg_MarshalJSON F X p) = Ok j /\ sg_UnmarshalJSON F X j = Ok (norm_SG X p).
Proof.
  intros F X n p HF HT N W B1 B2.
  assert (C : forall o, opt (wf_TextureInfo X n) o -> opt bare_texture o -> opt (clean_texture F X) o).
  { intros [t|] Wt B; [|exact I]. destruct Wt as (_ & _ & I1 & I2). exact (bare_clean F X t I1 I2 B). }
  destruct (C47_partial F X n p HF HT N W) as (text & j & _ & _ & _ & M & D).
  - destruct W as (_ & W1 & _ & _ & W2). split; apply C; assumption.
  - exists j. split; assumption.
Qed.
Print Assumptions C47_bare_textures.
Definition full_sg : PBRSpecularGlossiness :=
  mkSG (Some [one; one; one; one]) (Some (mkTextureInfo [] VNull 3 1)) (Some [one; one; one]) (Some one) (Some (mkTextureInfo [] VNull 4 0)).
Example C47_case :
  sg_MarshalJSON text_floats sample_exts full_sg = Ok (text_lit "{`diffuseTexture`:{`index`:3,`texCoord`:1},`specularGlossinessTexture`:{`index`:4}}") /\
  wf_SG sample_exts 1 full_sg /\ opt bare_texture (sg_DiffuseTexture full_sg) /\ opt bare_texture (sg_SpecularGlossinessTexture full_sg).
Proof.
  split; [vm_compute; reflexivity|]. split; [|repeat split].
  assert (O : float_ok one) by (split; vm_compute; intuition discriminate).
  assert (T : forall i c, 0 <= i < 10 -> 0 <= c < 10 -> wf_TextureInfo sample_exts 1 (mkTextureInfo [] VNull i c)).
  { intros i c Hi Hc. split; [split; constructor|]. split; [constructor|]. unfold in_i64. cbn [txi_Index txi_TexCoord]. lia. }
  split; [split; [reflexivity|]; repeat (apply Forall_cons; [exact O|]); constructor|]. split; [apply T; lia|].
  split; [split; [reflexivity|]; repeat (apply Forall_cons; [exact O|]); constructor|]. split; [exact O|]. apply T; lia.
Qed.

(** ** C49: KHR_lights_punctual *)
(** No list of lights and no light reference survives: what Unmarshal returns
    is encoded without the object that Unmarshal expects.  And the default
    range of a decoded light, +Inf, is not encodable at all. *)
Theorem C49_refuted : forall F,
  (forall v j, lights_Marshal F v = Ok j -> v <> LightList None -> exists e, lights_Unmarshal F j = Err e) /\
  (forall old m l, dec (c_Light F) old (JObj m) = Ok l ->
     (forall raw j k, In (raw, j) m -> unquote_str raw = Some k -> fold_eq "range" k = false) ->
     (forall j, enc (c_Light F) l <> Ok j) /\
     forall ls j, In (Some l) ls -> lights_Marshal F (LightList (Some ls)) <> Ok j).
Proof.
  intros F. split; [exact (lights_Marshal_not_object F)|]. intros old m l D R.
  assert (Rl : lig_Range l = Some f64_inf).
  { cbn [c_Light c_fresh dec dec_struct] in D. rewrite (light_range F m _ _ ltac:(apply Forall_forall; intros [raw j] I k U; exact (R raw j k I U)) D). reflexivity. }
  assert (N : forall j, enc (c_Light F) l <> Ok j) by (intros j; apply inf_light; exact Rl).
  split; [exact N|]. intros ls j I E. cbn [lights_Marshal c_Lights c_oslice enc] in E.
  apply bind_ok in E. destruct E as (js & E & _). exact (traverse_in _ _ _ I N _ E).
Qed.
Print Assumptions C49_refuted.
Definition light_json : json := JObj [("lights"%string, JArr [JObj [("type"%string, JStr "point")]])].
Example C49_refuted_cases :
  (exists l, lights_Unmarshal text_floats light_json = Ok (LightList (Some [Some l])) /\ lig_Type l = "point"%string /\
     exists e, lights_Marshal text_floats (LightList (Some [Some l])) = Err e) /\
  lights_Unmarshal text_floats (JObj [("light"%string, JNum "3")]) = Ok (LightIndex 3) /\
  lights_Marshal text_floats (LightIndex 3) = Ok (JNum "3") /\ lights_Unmarshal text_floats (JNum "3") = Err ErrType.
Proof. split; [|repeat split; vm_compute; reflexivity]. eexists. split; [vm_compute; reflexivity|]. split; [reflexivity|]. eexists. vm_compute. reflexivity. Qed.

(** What does survive: with finite ranges, the output put back under its
    member name restores the lights and the reference. *)
Theorem C49_partial : forall F, float_contract F ->
  (forall old l, wf_Light l -> exists j, enc (c_Light F) l = Ok j /\ wf_json 2 j /\ dec (c_Light F) old j = Ok (norm_Light l)) /\
  (forall ls, Forall (opt wf_Light) ls -> exists j, lights_Marshal F (LightList (Some ls)) = Ok j /\ wf_json 3 j /\
     lights_Unmarshal F (JObj [("lights"%string, j)]) = Ok (LightList (Some (map (option_map norm_Light) ls)))) /\
  (forall i, in_i64 i -> exists j, lights_Marshal F (LightIndex i) = Ok j /\
     lights_Unmarshal F (JObj [("light"%string, j)]) = Ok (LightIndex i)).
Proof.
  intros F HF. split; [|split].
  - intros old l W. exact (rt_Light F HF old l W).
  - intros ls W. destruct (rt_Lights F HF (Some ls) W) as (j & E & Wj & D). exists j. split; [exact E|]. split; [exact Wj|].
    unfold lights_Unmarshal. cbn [dec_struct dec_members].
    change (key_of "lights") with (Ok "lights"%string). cbn [bind].
    replace (find_field (fields_envelop F) "lights") with (Some (Fld "Lights" env_Lights (fun v e => mkEnv v (env_Light e)) (c_Lights F) never)) by reflexivity.
    cbn [dec_field env_Lights]. rewrite D. reflexivity.
  - intros i W. destruct (rt_int 0 0 i W) as (j & E & Wj & D). exists j. split; [exact E|].
    unfold lights_Unmarshal. cbn [dec_struct dec_members].
    change (key_of "light") with (Ok "light"%string). cbn [bind].
    replace (find_field (fields_envelop F) "light") with (Some (Fld "Light" env_Light (fun v e => mkEnv (env_Lights e) v) (c_ptr 0 c_int) never)) by reflexivity.
    cbn [dec_field env_Light c_ptr dec]. cbn [c_int enc] in E. injection E as <-. cbn [bind]. rewrite D. reflexivity.
Qed.
Print Assumptions C49_partial.
Definition sample_spot : Light :=
  mkLight "spot" "lamp" None (Some f64_ten) (Some f64_ten) (Some (mkSpot one None)).
Example C49_case : wf_Light sample_spot /\
  enc (c_Light text_floats) sample_spot = Ok (JObj [("type", JStr "spot"); ("name", JStr "lamp"); ("intensity", JNum "10"); ("range", JNum "10");
    ("spot", JObj [("innerConeAngle", JNum "1")])])%string /\
  norm_Light sample_spot = mkLight "spot" "lamp" (Some [one; one; one]) (Some f64_ten) (Some f64_ten) (Some (mkSpot one (Some f64_pi4))).
Proof.
  split; [|split; vm_compute; reflexivity].
  assert (O : float_ok f64_ten) by (split; vm_compute; intuition discriminate).
  assert (P : float_ok one) by (split; vm_compute; intuition discriminate).
  split; [apply ascii_utf8; reflexivity|]. split; [apply ascii_utf8; reflexivity|].
  split; [exact I|]. split; [exact O|]. split; [exact O|]. split; [exact P|exact I].
Qed.

(** ** C50: KHR_materials_unlit *)
Theorem C50_unlit : forall n m, wf_json (S n) (JObj m) ->
  exists u, unlit_UnmarshalJSON (JObj m) = Ok u /\ sorted_keys u /\ (forall k j, In (k, j) u <-> last_member m k j) /\
  exists j u', unlit_Marshal u = Ok j /\ wf_json (S n) j /\ unlit_UnmarshalJSON j = Ok u' /\
    (* the same keys, holding the same values *)
    map fst u' = map fst u /\ (forall F, map (fun p => dec_any F (snd p)) u' = map (fun p => dec_any F (snd p)) u) /\
    (* and from then on the very same text *)
    unlit_Marshal u' = Ok j.
Proof.
  intros n m W. destruct (unlit_reads n m W) as (u & E & S & L). exists u. split; [exact E|]. split; [exact S|]. split; [exact L|].
  assert (V : Forall (fun p => utf8_str (fst p) /\ wf_json n (snd p)) u).
  { apply Forall_forall. intros [k j] I. apply L in I. exact (last_member_wf n m k j W I). }
  destruct (unlit_writes n u S V) as (j & M & Wj & D). exists j, (rendered u). split; [exact M|]. split; [exact Wj|]. split; [exact D|].
  split; [unfold rendered; rewrite map_map; reflexivity|]. split.
  - intros F. unfold rendered. rewrite map_map. apply map_ext_Forall. eapply Forall_impl; [|exact V]. intros [k v] [_ Wv].
    cbn [fst snd]. exact (html_dec_any F v n Wv).
  - unfold unlit_Marshal in *. injection M as <-. unfold rendered. rewrite map_map. f_equal. f_equal. apply map_ext. intros [k v].
    cbn [fst snd]. rewrite html_json_idem. reflexivity.
Qed.
Print Assumptions C50_unlit.
Theorem C50_null : unlit_UnmarshalJSON JNull = Ok [] /\ unlit_Marshal [] = Ok (JObj []) /\ unlit_UnmarshalJSON (JObj []) = Ok [].
Proof. repeat split. Qed.
Print Assumptions C50_null.
Example C50_case :
  unlit_UnmarshalJSON (JObj [("b", JStr "<"); ("a", JNum "1"); ("b", JNull)])%string = Ok [("a", JNum "1"); ("b", JNull)]%string /\
  unlit_Marshal [("a", JStr "<")]%string = Ok (JObj [("a", JStr "\u003c")])%string /\
  wf_json 2 (JObj [("b", JStr "<"); ("a", JNum "1"); ("b", JNull)])%string.
Proof.
  split; [vm_compute; reflexivity|]. split; [vm_compute; reflexivity|].
  assert (B : forall c, 32 <= b2z c -> b2z c <> 34 -> b2z c <> 92 -> string_body [c]) by (intros; constructor; try assumption; constructor).
  constructor. repeat (apply Forall_cons; [split; [apply B; vm_compute; discriminate|]|]); [..|constructor].
  - constructor. apply B; vm_compute; discriminate.
  - constructor. exact one_number.
  - constructor.
Qed.
