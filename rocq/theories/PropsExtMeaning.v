(** C71: what the payloads of the Khronos extensions say is what the decoded
    values hold, and what is written says what the values hold. *)
From Verif Require Import Base BaseFacts Types Doc F64 SpecText SpecString JsonText JsonStringProofs ScanSound Codec DocCodec SpecJson SpecJsonDoc
  CodecProofs CodecInv DocCodecBase Marshal SpecMarshal MarshalProofs PropsJson SpecSchema SchemaProofs SchemaAccept SpecMeaning PropsString MeaningProofs
  MeaningUnique PropsSchema PropsMeaning Ext SpecExt ExtTransform ExtSpecular ExtProofs PropsExt SpecExtMeaning ExtMeaning Strconv PropsFloat.

Lemma any_number F s j : conforms (in_float_range F) unrelated s j -> conforms (fun _ => True) unrelated s j.
Proof. exact (conforms_mono _ (fun _ => True) _ unrelated (fun _ _ => I) (fun _ _ H => H) j s). Qed.
Lemma any_member s j : ok s j -> conforms (fun _ => True) unrelated s j.
Proof. apply (conforms_mono plain_number (fun _ => True) closed unrelated); [tauto|intros l k []]. Qed.

(** ** Reading *)
Theorem C71_transform F n j : wf_json n j -> conforms (in_float_range F) unrelated s_transform j ->
  exists t, tt_UnmarshalJSON F j = Ok t /\ m_transform F t j.
Proof.
  intros W C. destruct (dc_transform F n (mkTT [] 0 [] None) j W C) as [t E]. exists t. split; [exact E|].
  exact (rd_transform F (mkTT [] 0 [] None) n j t W (any_number F _ _ C) E).
Qed.
Print Assumptions C71_transform.

Theorem C71_specular F X n j : registry_total X -> wf_json n j -> conforms (in_float_range F) unrelated s_specular j ->
  exists p, sg_UnmarshalJSON F X j = Ok p /\ m_specular F X p j.
Proof.
  intros RT W C. destruct (dc_specular F X RT n default_SG j W C) as [t E]. exists t. split; [exact E|].
  exact (rd_specular F X default_SG n j t W (any_number F _ _ C) E).
Qed.
Print Assumptions C71_specular.

(** A list of lights, or the index of one; members of both names do not go
    together (see [C71_lights_refuted]). *)
Theorem C71_lights_partial F n ms : wf_json n (JObj ms) ->
  (conforms (in_float_range F) unrelated s_light_list (JObj ms) -> apart "light" ms ->
   exists v, lights_Unmarshal F (JObj ms) = Ok v /\ m_light_list F v (JObj ms)) /\
  (conforms (in_float_range F) unrelated s_light_ref (JObj ms) -> apart "lights" ms ->
   exists v, lights_Unmarshal F (JObj ms) = Ok v /\ m_light_ref v (JObj ms)).
Proof. intros W. split; [exact (read_light_list F n ms W)|exact (read_light_ref F n ms W)]. Qed.
Print Assumptions C71_lights_partial.

Theorem C71_unlit n ms : wf_json n (JObj ms) -> exists u, unlit_UnmarshalJSON (JObj ms) = Ok u /\ m_unlit u (JObj ms).
Proof. exact (read_unlit n ms). Qed.
Print Assumptions C71_unlit.

(** Nothing else is meant by the same payload. *)
Theorem C71_unique F X : 
  (forall t t' j, m_transform F t j -> m_transform F t' j -> t = t') /\
  (forall p p' j, m_specular F X p j -> m_specular F X p' j -> p = p') /\
  (forall v v' j, m_light_list F v j -> m_light_list F v' j -> v = v') /\
  (forall v v' j, m_light_ref v j -> m_light_ref v' j -> v = v') /\
  (forall u u' j, m_unlit u j -> m_unlit u' j -> u = u').
Proof.
  split; [exact (f_transform F)|]. split; [exact (f_specular F X)|]. split; [exact (f_light_list F)|]. split; [exact f_light_ref|exact f_unlit].
Qed.
Print Assumptions C71_unique.

(** ** Writing *)
Section Written.
Context (F : float_lib) (X : ext_lib) (HF : float_contract F).
Ltac in_tac := repeat (first [left; reflexivity | right]).
Ltac ec_tac O :=
  try (apply opt_default_none in O); try (apply oarr_default_none in O);
  first [ apply ec_str
        | apply ec_oint; [assumption|assumption|exact O]
        | apply ec_farray; assumption
        | apply ec_of64; [assumption|assumption|exact O]
        | apply ec_ofarray; [assumption|assumption|exact O]
        | apply ec_f64; [exact HF|assumption] ].
Ltac fields_tac tac := repeat apply Forall_cons; try apply Forall_nil;
  (let O := fresh "O" in intros O; eexists; split; [in_tac|first [ec_tac O | tac O]]).

Lemma kept_transform t m : wf_TT t -> opt (fun i => 0 <= i) (tt_TexCoord t) -> enc_fields (kept_TT F) t = Ok m -> ok s_transform (JObj m).
Proof.
  intros (W1 & W2 & W3 & W4) R E.
  apply (struct_conforms [] _ (kept_TT F) t m) with (pre := []); [vm_compute; reflexivity|apply distinct_NoDup; vm_compute; reflexivity|constructor| |constructor|constructor|exact E].
  fields_tac ltac:(fun O => fail).
Qed.
Lemma kept_specular n p m : wf_SG X n p -> opt r_textureInfo (sg_DiffuseTexture p) -> opt r_textureInfo (sg_SpecularGlossinessTexture p) ->
  enc_fields (kept_SG F X) p = Ok m -> ok s_specular (JObj m).
Proof.
  intros (W1 & W2 & W3 & W4 & W5) R1 R2 E.
  apply (struct_conforms [] _ (kept_SG F X) p m) with (pre := []); [vm_compute; reflexivity|apply distinct_NoDup; vm_compute; reflexivity|constructor| |constructor|constructor|exact E].
  fields_tac ltac:(fun O => eapply ec_ostruct; [exact (ec_TextureInfo F X HF n)|assumption|assumption|exact O]).
Qed.
Definition known_type (l : Light) : Prop := In (lig_Type l) ["directional"; "point"; "spot"]%string.
Lemma ec_spot s : wf_Spot s -> True -> ec (c_Spot F) s_spot s.
Proof.
  intros (W1 & W2) _. apply (ec_struct _ _ (fields_Spot F)); [reflexivity|vm_compute; reflexivity|apply distinct_NoDup; vm_compute; reflexivity|constructor|].
  fields_tac ltac:(fun O => fail).
Qed.
Lemma ec_light l : wf_Light l -> known_type l -> ec (c_Light F) s_light l.
Proof.
  intros (W1 & W2 & W3 & W4 & W5 & W6) K. apply (ec_struct _ _ (fields_Light F)); [reflexivity|vm_compute; reflexivity|apply distinct_NoDup; vm_compute; reflexivity|apply reqb_spec; reflexivity|].
  constructor.
  { intros O. eexists. split; [in_tac|]. intros j E. injection E as <-. unfold known_type in K. 
    apply (cf_enum _ _ _ _ (lig_Type l)); [|exact K]. cbn [In] in K. destruct K as [<-|[<-|[<-|[]]]]; reflexivity. }
  fields_tac ltac:(fun O => eapply ec_ostruct with (r := fun _ => True); [exact ec_spot|assumption| |exact O]; destruct (lig_Spot l); exact I).
Qed.
End Written.

Theorem C71_transform_written F t : float_contract F -> float_text F -> wf_TT t -> opt (fun i => 0 <= i) (tt_TexCoord t) ->
  exists j, marshaler (tt_MarshalJSON F t) = Ok j /\ conforms plain_number closed s_transform j /\ m_transform F (norm_TT t) j.
Proof.
  intros HF HT W R. destruct (tt_text F HF HT t W) as (m & Em & T). destruct (tt_fields F HF t W) as (m' & Em' & Wm & D).
  rewrite Em in Em'. injection Em' as <-. destruct (C48_texture_transform F t HF HT W) as (text & j & T' & _ & P & M & D').
  rewrite T in T'. injection T' as <-. rewrite (parse_print m 2 Wm ltac:(discriminate)) in P. injection P as <-.
  exists (JObj m). split; [exact M|]. pose proof (kept_transform F HF t m W R Em) as C. split; [exact C|].
  exact (rd_transform F (mkTT [] 0 [] None) _ _ _ Wm (any_member _ _ C) D).
Qed.
Print Assumptions C71_transform_written.

Theorem C71_specular_written_partial F X n p : float_contract F -> float_text F -> (n + 3 <= Z.to_nat max_depth)%nat ->
  wf_SG X n p -> clean_SG F X p -> opt r_textureInfo (sg_DiffuseTexture p) -> opt r_textureInfo (sg_SpecularGlossinessTexture p) ->
  exists j, marshaler (sg_MarshalJSON F X p) = Ok j /\ conforms plain_number closed s_specular j /\ m_specular F X (norm_SG X p) j.
Proof.
  intros HF HT N W K R1 R2. destruct (sg_text F X n HF HT p W K) as (m & Em & T). destruct (sg_fields F X n HF p W) as (m' & Em' & Wm & D).
  rewrite Em in Em'. injection Em' as <-. destruct (C47_partial F X n p HF HT N W K) as (text & j & T' & _ & P & M & D').
  rewrite T in T'. injection T' as <-. rewrite (parse_print m _ Wm ltac:(lia)) in P. injection P as <-.
  exists (JObj m). split; [exact M|]. pose proof (kept_specular F X HF n p m W R1 R2 Em) as C. split; [exact C|].
  exact (rd_specular F X default_SG _ _ _ Wm (any_member _ _ C) D).
Qed.
Print Assumptions C71_specular_written_partial.

(** One light of the list.  The list itself is written without the object
    around it (C49). *)
Theorem C71_light_written F l : float_contract F -> wf_Light l -> known_type l ->
  exists j, enc (c_Light F) l = Ok j /\ conforms plain_number closed s_light j /\ m_light F (norm_Light l) j.
Proof.
  intros HF W K. destruct (rt_Light F HF zero_Light l W) as (j & E & Wj & D). exists j. split; [exact E|].
  pose proof (ec_light F HF l W K j E) as C. split; [exact C|]. exact (rd_light F zero_Light _ _ _ Wj (any_member _ _ C) D).
Qed.
Print Assumptions C71_light_written.

Theorem C71_unlit_written n u : sorted_keys u -> Forall (fun p => utf8_str (fst p) /\ wf_json n (snd p)) u ->
  exists j, unlit_Marshal u = Ok j /\ m_unlit (rendered u) j.
Proof.
  intros S V. destruct (unlit_writes n u S V) as (j & M & Wj & D). exists j. split; [exact M|].
  assert (exists ms, j = JObj ms) as [ms ->] by (injection M as <-; eexists; reflexivity).
  destruct (read_unlit _ ms Wj) as (u' & E & R). rewrite D in E. injection E as <-. exact R.
Qed.
Print Assumptions C71_unlit_written.

(** ** Cases *)
Definition f64_half : Z := 0x3FE0000000000000.
Definition transform_tree : json :=
  JObj [("offset", JArr [JNum "0.5"; JNum "-5e-1"]); ("texCoord", JNum "3"); ("rotation", JNum "1.0")]%string.
Lemma tree_wf j : scan start (print_compact j) = Done j [] -> wf_json (Z.to_nat max_depth) j.
Proof. intros S. destruct (scan_sound _ _ _ S) as (_ & _ & _ & _ & _ & W). exact W. Qed.
Ltac conf_tac :=
  repeat first [ apply cf_str | (apply cf_list; [cbn; lia|]) | (apply cf_tuple; [reflexivity|])
    | apply Forall_nil | apply Forall_cons | obj | (apply cf_num; vm_compute; discriminate)
    | (eapply cf_enum; [reflexivity|cbn; tauto])
    | (eapply cf_int; [apply decimal_of_parse; [vm_compute; reflexivity|first [discriminate|reflexivity]]|lia|unfold in_i64; lia]) ].
Example C71_transform_case : exists t, tt_UnmarshalJSON go_floats transform_tree = Ok t /\ m_transform go_floats t transform_tree /\
  t = mkTT [f64_half; 0xBFE0000000000000] one [one; one] (Some 3).
Proof.
  destruct (C71_transform go_floats (Z.to_nat max_depth) transform_tree) as (t & E & M).
  - apply tree_wf. vm_compute. reflexivity.
  - unfold transform_tree, s_transform. conf_tac.
  - exists t. split; [exact E|]. split; [exact M|]. vm_compute in E. injection E as <-. reflexivity.
Qed.
Definition lights_tree : json :=
  JObj [("lights", JArr [JObj [("type", JStr "spot"); ("intensity", JNum "0.5"); ("spot", JObj [("innerConeAngle", JNum "0.5")])];
                         JObj [("type", JStr "point"); ("color", JArr [JNum "1"; JNum "0"; JNum "0.5"]); ("range", JNum "1")]])]%string.
Definition lights_value : lights := LightList (Some
  [Some (mkLight "spot" "" (Some [one; one; one]) (Some f64_half) (Some f64_inf) (Some (mkSpot f64_half (Some f64_pi4))));
   Some (mkLight "point" "" (Some [one; 0; f64_half]) (Some one) (Some one) None)]).
Example C71_lights_case : lights_Unmarshal go_floats lights_tree = Ok lights_value /\ m_light_list go_floats lights_value lights_tree.
Proof.
  assert (W : wf_json (Z.to_nat max_depth) lights_tree) by (apply tree_wf; vm_compute; reflexivity).
  destruct (C71_lights_partial go_floats (Z.to_nat max_depth) _ W) as [H _].
  destruct H as (v & E & M).
  - unfold s_light_list, s_light, s_spot. conf_tac.
  - repeat constructor. intros k [= <-]. vm_compute. reflexivity.
  - assert (V : lights_Unmarshal go_floats lights_tree = Ok lights_value) by (vm_compute; reflexivity). fold lights_tree in E, M.
    rewrite V in E. injection E as <-. split; [exact V|exact M].
Qed.
Example C71_ref_case : exists v, lights_Unmarshal go_floats (JObj [("light", JNum "7")]%string) = Ok v /\ v = LightIndex 7 /\ m_light_ref v (JObj [("light", JNum "7")]%string).
Proof.
  destruct (C71_lights_partial go_floats (Z.to_nat max_depth) [("light", JNum "7")]%string) as [_ H]; [apply tree_wf; vm_compute; reflexivity|].
  destruct H as (v & E & M).
  - unfold s_light_ref. conf_tac.
  - repeat constructor. intros k [= <-]. vm_compute. reflexivity.
  - exists v. split; [exact E|]. split; [|exact M]. vm_compute in E. injection E as <-. reflexivity.
Qed.

(** A member named light beside the list: the list is gone, though the schema
    lets any member be added. *)
Theorem C71_lights_refuted : forall F, exists ms, wf_json 5 (JObj ms) /\ conforms (in_float_range F) unrelated s_light_list (JObj ms) /\
  lights_Unmarshal F (JObj ms) = Ok (LightIndex 0) /\ ~ m_light_list F (LightIndex 0) (JObj ms).
Proof.
  intros F. exists [("lights", JArr [JObj [("type", JStr "point")]]); ("light", JNum "0")]%string.
  assert (B : forall s, In s ["lights"; "type"; "point"; "light"]%string -> string_body (str_bytes s)).
  { assert (B : forall l, forallb (fun c => (32 <=? b2z c) && (b2z c <? 128) && negb (b2z c =? 34) && negb (b2z c =? 92)) l = true -> string_body l).
    { induction l as [|b l IH]; intros H; [constructor|]. cbn [forallb] in H. apply andb_prop in H as [H1 H2]. apply sb_char; [lia..|apply IH; exact H2]. }
    intros s I. cbn [In] in I. repeat (destruct I as [<-|I]; [apply B; reflexivity|]). destruct I. }
  split; [|split; [|split]].
  - constructor. constructor; [split; [apply B; cbn; tauto|]|constructor; [split; [apply B; cbn; tauto|]|constructor]].
    + constructor. constructor; [|constructor]. constructor. constructor; [|constructor]. split; [apply B; cbn; tauto|]. constructor. apply B; cbn; tauto.
    + constructor. apply (fmt_int_number 0). lia.
  - unfold s_light_list, s_light, s_spot. conf_tac.
  - reflexivity.
  - intros (ls & ms & w & E & _). discriminate E.
Qed.
Print Assumptions C71_lights_refuted.

Definition specular_tree : json :=
  JObj [("glossinessFactor", JNum "0.5"); ("diffuseTexture", JObj [("index", JNum "2")]); ("specularFactor", JArr [JNum "0"; JNum "1"; JNum "0.5"])]%string.
Example C71_specular_case : exists p, sg_UnmarshalJSON go_floats sample_exts specular_tree = Ok p /\ m_specular go_floats sample_exts p specular_tree /\
  p = mkSG (Some [one; one; one; one]) (Some (mkTextureInfo [] VNull 2 0)) (Some [0; one; f64_half]) (Some f64_half) None.
Proof.
  destruct (C71_specular go_floats sample_exts (Z.to_nat max_depth) specular_tree) as (t & E & M).
  - exact sample_registry_total.
  - apply tree_wf. vm_compute. reflexivity.
  - unfold specular_tree, s_specular. conf_tac.
  - exists t. split; [exact E|]. split; [exact M|]. vm_compute in E. injection E as <-. reflexivity.
Qed.
Example C71_written_case : exists j, marshaler (tt_MarshalJSON go_floats (mkTT [f64_half; 0] neg_zero [one; f64_half] (Some 1))) = Ok j /\
  conforms plain_number closed s_transform j /\ m_transform go_floats (mkTT [f64_half; 0] 0 [one; f64_half] (Some 1)) j /\
  j = JObj [("offset", JArr [JNum "0.5"; JNum "0"]); ("scale", JArr [JNum "1"; JNum "0.5"]); ("texCoord", JNum "1")]%string.
Proof.
  destruct (C71_transform_written go_floats (mkTT [f64_half; 0] neg_zero [one; f64_half] (Some 1))) as (j & M & C & R).
  - exact (proj1 C69_contracts).
  - exact (proj2 (proj2 C69_contracts)).
  - split; [split; [reflexivity|repeat constructor; vm_compute; intuition discriminate]|].
    split; [split; vm_compute; intuition discriminate|]. split; [split; [reflexivity|repeat constructor; vm_compute; intuition discriminate]|]. cbn. unfold in_i64. lia.
  - cbn. lia.
  - exists j. split; [exact M|]. split; [exact C|]. split; [exact R|]. vm_compute in M. injection M as <-. reflexivity.
Qed.
