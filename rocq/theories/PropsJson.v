(** Properties of the JSON mapping: C39 - C44, C46, C55 (text). *)
From Verif Require Import Base BaseFacts Types Doc F64 ModelerWrite JsonText SpecText JsonTextProofs JsonStringProofs SpecData
  Codec DocCodec SpecJson SpecJsonDoc CodecProofs CodecInv DocCodecBase DocCodecProofs DocInvBase DocCodecInv Marshal SpecMarshal ScanSound MarshalProofs.

(** ** Libraries for the examples *)
(** Numbers written as the integer of their bits: not strconv, but enough to
    satisfy the contracts. *)
Definition sample_floats : float_lib := mkFloatLib fmt_int
  (fun s => match parse_uint (2 ^ 64 - 1) s with
            | Some n => if f64_finite n then Some n else None
            | None => None
            end).
Lemma sample_float_contract : float_contract sample_floats.
Proof.
  intros f [R Fi]. split; [apply fmt_int_number; change (2 ^ 64) with 18446744073709551616 in R; rewrite big10; lia|].
  cbn [parse64 fmt64 sample_floats]. rewrite parse_fmt_uint; [rewrite Fi; reflexivity|lia|reflexivity].
Qed.
Lemma sample_parse_contract : parse_contract sample_floats.
Proof.
  intros s f H. cbn in H. destruct (parse_uint _ s) as [n|] eqn:E; [|discriminate].
  destruct (f64_finite n) eqn:Fi; [|discriminate]. injection H as <-. apply parse_uint_range in E. split; [lia|exact Fi].
Qed.
(** One registered extension, holding a string; the others stay raw. *)
Definition sample_exts : ext_lib := mkExtLib
  (fun k => if String.eqb k "EXT_str" then
     Some (fun j => match j with JStr raw => match unquote_str raw with Some s => Ok (VStr s) | None => Err ErrType end
                    | _ => Err ErrType end) else None)
  (fun k v => match v with VStr s => Ok (JStr (quote_str s)) | _ => Err ErrValue end).
Lemma sample_registry_total : registry_total sample_exts.
Proof.
  intros k f j H. cbn in H. destruct (String.eqb k "EXT_str"); [|discriminate]. injection H as <-.
  destruct j; try discriminate. destruct (unquote_str lit); discriminate.
Qed.
Lemma sample_registry_ok n : registry_ok sample_exts n.
Proof.
  assert (Q : forall s, utf8_str s -> unquote_str (html_str (quote_str s)) = Some s).
  { intros s V. unfold html_str, unquote_str. rewrite ?str_bytes_bytes, ?str_bytes_str. rewrite (proj2 (html_string _ (quote_str_body s))).
    exact (unquote_quote_str s V). }
  apply registry_ok_intro; [exact sample_registry_total|]. intros k f j H W. cbn in H.
  destruct (String.eqb k "EXT_str"); [|discriminate]. injection H as <-.
  destruct j; try (eexists; reflexivity). destruct (unquote_str lit) as [s|] eqn:U.
  - pose proof (unquote_str_utf8 _ _ U) as V. exists (JStr (quote_str s)), (VStr s). split; [reflexivity|].
    split; [constructor; apply quote_str_body|]. cbn [html_json]. rewrite Q by exact V. split; [reflexivity|].
    exists (JStr (quote_str s)). split; [reflexivity|]. cbn [html_json]. rewrite Q by exact V. reflexivity.
  - exists ErrType. cbn [html_json]. inversion W; subst.
    replace (unquote_str (html_str lit)) with (unquote_str lit); [rewrite U; reflexivity|].
    unfold html_str, unquote_str. rewrite ?str_bytes_bytes, ?str_bytes_str.
    match goal with B : string_body _ |- _ => rewrite (proj2 (html_string _ B)) end. reflexivity.
Qed.

(** ** C39 *)
(** [tbl] lists every value a decoder can return, each with its own JSON form,
    which is what the encoder writes and what decodes to it. *)
Definition enum_ok {E} (c : codec E) (tbl : list (E * json)) : Prop :=
  NoDup (map fst tbl) /\ NoDup (map snd tbl) /\
  Forall (fun p => enc c (fst p) = Ok (snd p) /\ forall old, dec c old (snd p) = Ok (fst p)) tbl /\
  forall old j v, dec c old j = Ok v -> In v (map fst tbl).

Lemma nodup_tac_Z (l : list Z) : (if list_eq_dec Z.eq_dec (nodup Z.eq_dec l) l then true else false) = true -> NoDup l.
Proof. destruct (list_eq_dec _ _ _) as [E|]; [|discriminate]. intros _. rewrite <- E. apply NoDup_nodup. Qed.

Ltac nodup := repeat (apply NoDup_cons; [cbn; intros HH; repeat destruct HH as [HH|HH]; first [discriminate|contradiction]|]); apply NoDup_nil.
Ltac rows := repeat (apply Forall_cons; [split; [vm_compute; reflexivity|intros old; vm_compute; reflexivity]|]); apply Forall_nil.
Lemma range_in n k : range n k -> 0 <= k < n. Proof. exact (fun x => x). Qed.

Theorem C39_enums :
  enum_ok c_ct gltf_component_types /\ enum_ok c_at gltf_accessor_types /\ enum_ok c_mode gltf_modes /\
  enum_ok c_alpha gltf_alpha_modes /\ enum_ok c_mag gltf_mag_filters /\ enum_ok c_minf gltf_min_filters /\
  enum_ok c_wrap gltf_wraps /\ enum_ok c_interp gltf_interpolations /\ enum_ok c_trs gltf_paths.
Proof.
  repeat match goal with |- enum_ok _ _ /\ _ => split end; (split; [nodup|split; [nodup|split; [rows|]]]); intros old j v H.
  - destruct v as [| | | | | |k]; cbn; try tauto. exfalso. pose proof (inv_ct (fun _ => True) CFloat j (CTOther k) eq_refl I H) as X. discriminate.
  - destruct v as [| | | | | | |k]; cbn; try tauto. exfalso. pose proof (inv_at (fun _ => True) AScalar j (ATOther k) eq_refl I H) as X. discriminate.
  - pose proof (inv_mode (fun _ => True) 0 j v ltac:(unfold range; lia) I H) as X. unfold range in X. cbn. lia.
  - pose proof (inv_alpha (fun _ => True) 0 j v ltac:(unfold range; lia) I H) as X. unfold range in X. cbn. lia.
  - pose proof (inv_mag (fun _ => True) 0 j v ltac:(unfold range; lia) I H) as X. unfold range in X. cbn. lia.
  - pose proof (inv_minf (fun _ => True) 0 j v ltac:(unfold range; lia) I H) as X. unfold range in X. cbn. lia.
  - pose proof (inv_wrap (fun _ => True) 0 j v ltac:(unfold range; lia) I H) as X. unfold range in X. cbn. lia.
  - pose proof (inv_interp (fun _ => True) 0 j v ltac:(unfold range; lia) I H) as X. unfold range in X. cbn. lia.
  - pose proof (inv_trs (fun _ => True) 0 j v ltac:(unfold range; lia) I H) as X. unfold range in X. cbn. lia.
Qed.
Print Assumptions C39_enums.
(** Target has no methods: every uint16 is kept; the declared ones are
    written as glTF wants them. *)
Theorem C39_target :
  (forall t old, 0 <= t < 65536 -> exists s, enc c_tgt t = Ok (JNum s) /\ dec c_tgt old (JNum s) = Ok t) /\
  (forall t t' j, 0 <= t < 65536 -> 0 <= t' < 65536 -> enc c_tgt t = Ok j -> enc c_tgt t' = Ok j -> t = t') /\
  enc c_tgt TargetArrayBuffer = Ok (num "34962") /\ enc c_tgt TargetElementArrayBuffer = Ok (num "34963").
Proof.
  assert (R : forall t old, 0 <= t < 65536 -> dec c_tgt old (JNum (fmt_int t)) = Ok t).
  { intros t old H. cbn. rewrite parse_fmt_uint; [reflexivity|lia|reflexivity]. }
  split; [|split; [|split; vm_compute; reflexivity]].
  - intros t old H. exists (fmt_int t). split; [reflexivity|apply R; exact H].
  - intros t t' j H H' E E'. cbn in E, E'. injection E as <-. injection E' as E'.
    pose proof (R t 0 H) as A. pose proof (R t' 0 H') as B. rewrite E' in B. congruence.
Qed.
Print Assumptions C39_target.
Example C39_example : dec c_minf 0 (num "9986") = Ok 2 /\ enc c_minf 2 = Ok (num "9986") /\ dec c_at AScalar (str "VEC9") <> Ok AScalar.
Proof. split; [reflexivity|]. split; [reflexivity|]. vm_compute. discriminate. Qed.

(** ** C40 *)
Lemma arr_eq_refl v : Forall float_ok v -> arr_eq v v = true.
Proof.
  intros H. induction H as [|x v [R Fx] H IH]; [reflexivity|]. cbn. rewrite IH, andb_true_r.
  unfold f64_eq, f64_is_nan. unfold f64_finite in Fx. rewrite Z.eqb_refl, andb_true_r.
  replace (f64_inf <? f64_mag x) with false by lia. reflexivity.
Qed.
Lemma same_refl v : Forall float_ok v -> same_numbers v v = true.
Proof. rewrite same_numbers_arr. apply arr_eq_refl. Qed.
Lemma f64_eq_sym a b : f64_eq a b = f64_eq b a.
Proof. unfold f64_eq. rewrite (andb_comm (negb (f64_is_nan a))), Z.eqb_sym. reflexivity. Qed.
Lemma same_sym a b : same_numbers a b = same_numbers b a.
Proof.
  rewrite !same_numbers_arr. revert b. induction a as [|x a IH]; intros [|y b]; try reflexivity. cbn. rewrite IH, f64_eq_sym. reflexivity.
Qed.
Lemma same_trans a b c : same_numbers a b = true -> same_numbers b c = true -> same_numbers a c = true.
Proof.
  rewrite !same_numbers_arr. revert b c. induction a as [|x a IH]; intros [|y b] [|z c]; cbn; try discriminate; [reflexivity|].
  intros H1 H2. apply andb_prop in H1, H2. destruct H1 as [A1 A2], H2 as [B1 B2]. rewrite (IH b c A2 B2), andb_true_r.
  unfold f64_eq in *. destruct (f64_is_nan x), (f64_is_nan y), (f64_is_nan z); cbn in *; try discriminate. lia.
Qed.
Lemma effective_default d z v : Forall float_ok d -> Forall float_ok z -> Forall float_ok v ->
  same_numbers d z = false ->
  same_numbers (if arr_eq v z then d else v) (if arr_eq (or_default d z v) z then d else or_default d z v) = true.
Proof.
  intros D Z0 V N. unfold or_default. destruct (same_numbers v d) eqn:E1; cbn [orb].
  - rewrite <- (same_numbers_arr d z), N. destruct (arr_eq v z) eqn:E2; [apply same_refl; exact D|].
    exact E1.
  - destruct (same_numbers v z) eqn:E2.
    + rewrite <- (same_numbers_arr d z), N. rewrite <- same_numbers_arr, E2. apply same_refl. exact D.
    + rewrite <- same_numbers_arr, E2. apply same_refl. exact V.
Qed.
Lemma translation_kept v : farray 3 v -> same_numbers v (or_default (repeat 0 3) (repeat 0 3) v) = true.
Proof.
  intros [_ V]. unfold or_default. rewrite orb_diag. destruct (same_numbers v (repeat 0 3)) eqn:E; [exact E|apply same_refl; exact V].
Qed.

Section C40.
Context (F : float_lib) (X : ext_lib) (HF : float_contract F) (n : nat).

Theorem C40_node x old : wf_Node X n x -> exists j y,
  enc (c_Node F X) x = Ok j /\ dec (c_Node F X) old j = Ok y /\
  same_numbers (MatrixOrDefault x) (MatrixOrDefault y) = true /\
  same_numbers (RotationOrDefault x) (RotationOrDefault y) = true /\
  same_numbers (ScaleOrDefault x) (ScaleOrDefault y) = true /\
  same_numbers (TranslationOrDefault x) (TranslationOrDefault y) = true /\
  nod_Name y = nod_Name x /\ nod_Camera y = nod_Camera x /\ nod_Children y = nod_Children x /\
  nod_Skin y = nod_Skin x /\ nod_Mesh y = nod_Mesh x /\ nod_Weights y = nod_Weights x /\ nod_Extras y = nod_Extras x /\
  (canon_ext X (nod_Extensions x) -> enc (c_Node F X) y = Ok j).
Proof.
  intros W. destruct (rt_Node F X HF n old x W) as (j & E & _ & D). exists j, (norm_Node X x).
  split; [exact E|]. split; [exact D|]. unfold wf_Node in W. decompose [and] W.
  unfold MatrixOrDefault, RotationOrDefault, ScaleOrDefault, TranslationOrDefault.
  cbn [norm_Node nod_Matrix nod_Rotation nod_Scale nod_Translation nod_Name nod_Camera nod_Children nod_Skin nod_Mesh nod_Weights nod_Extras].
  repeat match goal with H : farray _ _ |- _ => destruct H end.
  split; [apply effective_default; [exact (proj2 farray_matrix)|apply (proj2 (farray_0 16))|assumption|reflexivity]|].
  split; [apply effective_default; [exact (proj2 farray_rotation)|apply (proj2 (farray_0 4))|assumption|reflexivity]|].
  split; [apply effective_default; [exact (proj2 farray_scale)|apply (proj2 (farray_0 3))|assumption|reflexivity]|].
  split; [apply translation_kept; split; assumption|].
  do 7 (split; [reflexivity|]). intros C. rewrite (est_Node F X x C). exact E.
Qed.

Theorem C40_material x old : wf_Material X n x -> exists j y,
  enc (c_Material F X) x = Ok j /\ dec (c_Material F X) old j = Ok y /\
  AlphaCutoffOrDefault y = AlphaCutoffOrDefault x /\
  same_numbers (mat_EmissiveFactor x) (mat_EmissiveFactor y) = true /\
  mat_AlphaMode y = mat_AlphaMode x /\ mat_DoubleSided y = mat_DoubleSided x /\ mat_Name y = mat_Name x /\ mat_Extras y = mat_Extras x /\
  match mat_NormalTexture x, mat_NormalTexture y with
  | Some t, Some t' => NormalScaleOrDefault t' = NormalScaleOrDefault t /\ ntx_Index t' = ntx_Index t /\ ntx_TexCoord t' = ntx_TexCoord t
  | None, None => True | _, _ => False end /\
  match mat_OcclusionTexture x, mat_OcclusionTexture y with
  | Some t, Some t' => StrengthOrDefault t' = StrengthOrDefault t /\ otx_Index t' = otx_Index t /\ otx_TexCoord t' = otx_TexCoord t
  | None, None => True | _, _ => False end /\
  match mat_PBRMetallicRoughness x, mat_PBRMetallicRoughness y with
  | Some p, Some p' => MetallicFactorOrDefault p' = MetallicFactorOrDefault p /\ RoughnessFactorOrDefault p' = RoughnessFactorOrDefault p /\
      BaseColorFactorOrDefault p' = BaseColorFactorOrDefault p
  | None, None => True | _, _ => False end /\
  (canon_Material X x -> enc (c_Material F X) y = Ok j).
Proof.
  intros W. destruct (rt_Material F X HF n old x W) as (j & E & _ & D). exists j, (norm_Material X x).
  split; [exact E|]. split; [exact D|].
  split; [unfold AlphaCutoffOrDefault; cbn; destruct (mat_AlphaCutoff x); reflexivity|].
  split. { cbn [norm_Material mat_EmissiveFactor]. apply translation_kept. unfold wf_Material in W. decompose [and] W. assumption. }
  do 4 (split; [reflexivity|]).
  split. { cbn [norm_Material mat_NormalTexture]. destruct (mat_NormalTexture x) as [t|]; [|exact I]. cbn.
    unfold NormalScaleOrDefault. cbn. destruct (ntx_Scale t); repeat split; reflexivity. }
  split. { cbn [norm_Material mat_OcclusionTexture]. destruct (mat_OcclusionTexture x) as [t|]; [|exact I]. cbn.
    unfold StrengthOrDefault. cbn. destruct (otx_Strength t); repeat split; reflexivity. }
  split. { cbn [norm_Material mat_PBRMetallicRoughness]. destruct (mat_PBRMetallicRoughness x) as [p|]; [|exact I]. cbn [option_map].
    unfold MetallicFactorOrDefault, RoughnessFactorOrDefault, BaseColorFactorOrDefault.
    cbn [norm_PBRMetallicRoughness pbr_MetallicFactor pbr_RoughnessFactor pbr_BaseColorFactor].
    destruct (pbr_MetallicFactor p), (pbr_RoughnessFactor p), (pbr_BaseColorFactor p); repeat split; reflexivity. }
  intros C. rewrite (est_Material F X x C). exact E.
Qed.

Theorem C40_pbr x old : wf_PBRMetallicRoughness X n x -> exists j y,
  enc (c_PBRMetallicRoughness F X) x = Ok j /\ dec (c_PBRMetallicRoughness F X) old j = Ok y /\
  MetallicFactorOrDefault y = MetallicFactorOrDefault x /\ RoughnessFactorOrDefault y = RoughnessFactorOrDefault x /\
  BaseColorFactorOrDefault y = BaseColorFactorOrDefault x /\ pbr_Extras y = pbr_Extras x /\
  (canon_PBRMetallicRoughness X x -> enc (c_PBRMetallicRoughness F X) y = Ok j).
Proof.
  intros W. destruct (rt_PBRMetallicRoughness F X HF n old x W) as (j & E & _ & D). exists j, (norm_PBRMetallicRoughness X x).
  split; [exact E|]. split; [exact D|].
  unfold MetallicFactorOrDefault, RoughnessFactorOrDefault, BaseColorFactorOrDefault.
  cbn [norm_PBRMetallicRoughness pbr_MetallicFactor pbr_RoughnessFactor pbr_BaseColorFactor pbr_Extras].
  split; [destruct (pbr_MetallicFactor x); reflexivity|]. split; [destruct (pbr_RoughnessFactor x); reflexivity|].
  split; [destruct (pbr_BaseColorFactor x); reflexivity|]. split; [reflexivity|].
  intros C. rewrite (est_PBRMetallicRoughness F X x C). exact E.
Qed.

Theorem C40_normal_texture x old : wf_NormalTexture X n x -> exists j y,
  enc (c_NormalTexture F X) x = Ok j /\ dec (c_NormalTexture F X) old j = Ok y /\
  NormalScaleOrDefault y = NormalScaleOrDefault x /\ ntx_Index y = ntx_Index x /\ ntx_TexCoord y = ntx_TexCoord x /\ ntx_Extras y = ntx_Extras x /\
  (canon_NormalTexture X x -> enc (c_NormalTexture F X) y = Ok j).
Proof.
  intros W. destruct (rt_NormalTexture F X HF n old x W) as (j & E & _ & D). exists j, (norm_NormalTexture X x).
  split; [exact E|]. split; [exact D|]. unfold NormalScaleOrDefault. cbn [norm_NormalTexture ntx_Scale ntx_Index ntx_TexCoord ntx_Extras].
  split; [destruct (ntx_Scale x); reflexivity|]. do 3 (split; [reflexivity|]). intros C. rewrite (est_NormalTexture F X x C). exact E.
Qed.
Theorem C40_occlusion_texture x old : wf_OcclusionTexture X n x -> exists j y,
  enc (c_OcclusionTexture F X) x = Ok j /\ dec (c_OcclusionTexture F X) old j = Ok y /\
  StrengthOrDefault y = StrengthOrDefault x /\ otx_Index y = otx_Index x /\ otx_TexCoord y = otx_TexCoord x /\ otx_Extras y = otx_Extras x /\
  (canon_OcclusionTexture X x -> enc (c_OcclusionTexture F X) y = Ok j).
Proof.
  intros W. destruct (rt_OcclusionTexture F X HF n old x W) as (j & E & _ & D). exists j, (norm_OcclusionTexture X x).
  split; [exact E|]. split; [exact D|]. unfold StrengthOrDefault. cbn [norm_OcclusionTexture otx_Strength otx_Index otx_TexCoord otx_Extras].
  split; [destruct (otx_Strength x); reflexivity|]. do 3 (split; [reflexivity|]). intros C. rewrite (est_OcclusionTexture F X x C). exact E.
Qed.
(** Re-encoding an asset gives the same JSON when the version is set; an
    empty version is written first, "2.0" in its place later (below). *)
Theorem C40_asset_partial x old : wf_Asset X n x -> exists j y,
  enc (c_Asset F X) x = Ok j /\ dec (c_Asset F X) old j = Ok y /\
  ast_Version y = (if String.eqb (ast_Version x) "" then "2.0"%string else ast_Version x) /\
  ast_Copyright y = ast_Copyright x /\ ast_Generator y = ast_Generator x /\ ast_MinVersion y = ast_MinVersion x /\ ast_Extras y = ast_Extras x /\
  (canon_ext X (ast_Extensions x) -> ast_Version x <> ""%string -> enc (c_Asset F X) y = Ok j).
Proof.
  intros W. destruct (rt_Asset F X HF n old x W) as (j & E & _ & D). exists j, (norm_Asset X x).
  split; [exact E|]. split; [exact D|]. do 5 (split; [reflexivity|]). intros C V. rewrite (est_Asset F X x (conj C V)). exact E.
Qed.
End C40.
Print Assumptions C40_node.
Print Assumptions C40_material.
Print Assumptions C40_asset_partial.

(** The same JSON up to the order of its members: an asset without version
    and with a generator is written in another order the second time. *)
Theorem C40_asset_refuted :
  exists F X x j y j', float_contract F /\ wf_Asset X 0 x /\ enc (c_Asset F X) x = Ok j /\ dec (c_Asset F X) zero_Asset j = Ok y /\
    enc (c_Asset F X) y = Ok j' /\ j <> j'.
Proof.
  exists sample_floats, sample_exts, (set_ast_Generator "g" zero_Asset). do 3 eexists.
  split; [exact sample_float_contract|]. split.
  { unfold wf_Asset. cbn. split; [apply wf_ext_nil|]. split; [apply wa_null|]. repeat (split; [apply ascii_utf8; reflexivity|]). apply ascii_utf8; reflexivity. }
  split; [vm_compute; reflexivity|]. split; [vm_compute; reflexivity|]. split; [vm_compute; reflexivity|]. vm_compute. discriminate.
Qed.
Print Assumptions C40_asset_refuted.

(** The default rotation, set explicitly, is left out and comes back; a zero
    scale stands for the default one. *)
Example C40_example :
  let x := set_nod_Rotation DefaultRotation (set_nod_Translation [f64_one; 0; 0] zero_Node) in
  exists j y, enc (c_Node sample_floats sample_exts) x = Ok j /\ dec (c_Node sample_floats sample_exts) zero_Node j = Ok y /\
    nod_Rotation y = DefaultRotation /\ nod_Scale y = DefaultScale /\ ScaleOrDefault x = DefaultScale /\ nod_Translation y = [f64_one; 0; 0].
Proof. cbv zeta. do 2 eexists. split; [vm_compute; reflexivity|]. split; [vm_compute; reflexivity|]. vm_compute. repeat split; reflexivity. Qed.

(** ** C41 *)
Theorem C41_lossless_partial F X n asBinary prefix indent d rest :
  float_contract F -> wf_Document X n d -> Forall (fun o => o <> None) (doc_Buffers d) ->
  Z.of_nat n + 7 <= 10000 -> ws prefix -> ws indent ->
  exists text, marshalJSONDoc F X asBinary prefix indent d = Ok text /\
    json_decode (c_Document F X) zero_Document (text ++ rest) = Ok (norm_Document X (embedded asBinary d), rest).
Proof.
  intros HF W N D Hp Hi. destruct (marshal_tree_spec F X n asBinary d HF W N) as (m & E & Wm & Dm).
  exists (printed prefix indent (JObj m)). unfold marshalJSONDoc. rewrite E. split; [reflexivity|].
  apply (json_decode_text _ _ (JObj m) _ (n + 7)%nat); [apply printed_text; assumption|exact I|exact Wm|unfold max_depth; lia|exact Dm].
Qed.
Print Assumptions C41_lossless_partial.

(** Encoding fails on a camera without projection, and an undeclared value of
    an enumeration silently becomes another. *)
Definition cameraless : Document := set_doc_Cameras [Some zero_Camera] zero_Document.
Definition odd_mode : Document :=
  set_doc_Meshes [Some (set_msh_Primitives (Some [Some (set_pri_Mode 9 zero_Primitive)]) zero_Mesh)] zero_Document.
Theorem C41_lossless_refuted :
  exists F X, float_contract F /\
    (exists e, marshalJSONDoc F X false [] [] cameraless = Err e) /\
    (exists text y, marshalJSONDoc F X false [] [] odd_mode = Ok text /\
       json_decode (c_Document F X) zero_Document text = Ok (y, []) /\
       map (option_map msh_Primitives) (doc_Meshes y) <> map (option_map msh_Primitives) (doc_Meshes odd_mode)).
Proof.
  exists sample_floats, sample_exts. split; [exact sample_float_contract|]. split.
  - eexists. vm_compute. reflexivity.
  - do 2 eexists. split; [vm_compute; reflexivity|]. split; [vm_compute; reflexivity|]. vm_compute. discriminate.
Qed.
Print Assumptions C41_lossless_refuted.

(** A document meeting the hypotheses, with a buffer that gets embedded, a
    registered extension and one that is not. *)
Definition sample_doc : Document :=
  set_doc_Buffers [Some (mkBuffer [] VNull "b" "" 3 (str_bytes "abc"))]
  (set_doc_Nodes [Some (set_nod_Name "n" (set_nod_Extras (VArr [VNum f64_one; VStr "x"]) zero_Node))]
  (set_doc_Extensions [("EXT_other", ERaw (JArr [JNum "1.50"; JStr "a<b"])); ("EXT_str", EVal (VStr "v"))]%string zero_Document)).
Lemma sample_doc_wf : wf_Document sample_exts 2 sample_doc.
Proof.
  unfold wf_Document. cbn.
  assert (U : forall s, forallb (fun b => b2z b <? 128) (str_bytes s) = true -> utf8_str s) by exact ascii_utf8.
  split.
  { split; [apply sk_cons; [reflexivity|apply sk_one]|]. constructor; [split; [apply U; reflexivity|]|constructor; [split; [apply U; reflexivity|]|constructor]].
    - split; [|intros f H; vm_compute in H; discriminate]. constructor. constructor; [|constructor; [|constructor]].
      + constructor. exists [], (str_bytes "1"), (str_bytes ".50"), []. split; [reflexivity|]. split; [left; reflexivity|].
        split; [right; exists "1"%char, []; split; [reflexivity|split; [vm_compute; split; discriminate|constructor]]|].
        split; [|left; reflexivity]. right. exists (str_bytes "50"). split; [reflexivity|]. split; [discriminate|].
        constructor; [vm_compute; split; discriminate|constructor; [vm_compute; split; discriminate|constructor]].
      + constructor. repeat (apply sb_char; [vm_compute; discriminate|vm_compute; discriminate|vm_compute; discriminate|]). constructor.
    - exists (JStr "v"). split; [reflexivity|]. split; [constructor; apply (quote_str_body "v")|]. intros f H. exact (sample_registry_total "EXT_str"%string f _ H). }
  split; [constructor|]. split; [constructor|]. split; [constructor|]. split; [constructor|]. split; [constructor|].
  split. { unfold wf_Asset. cbn. split; [apply wf_ext_nil|]. split; [apply wa_null|]. repeat (split; [apply U; reflexivity|]). apply U; reflexivity. }
  split. { constructor; [|constructor]. unfold wf_Buffer. cbn. split; [apply wf_ext_nil|]. split; [apply wa_null|].
    split; [apply U; reflexivity|]. split; [apply U; reflexivity|]. unfold in_i64. rewrite p63. lia. }
  split; [constructor|]. split; [constructor|]. split; [constructor|]. split; [constructor|]. split; [constructor|].
  split. { constructor; [|constructor]. unfold wf_Node. cbn. split; [apply wf_ext_nil|].
    split. { constructor. constructor; [constructor; exact float_ok_one|constructor; [constructor; apply U; reflexivity|constructor]]. }
    split; [apply U; reflexivity|]. split; [exact I|]. split; [constructor|]. split; [exact I|]. split; [apply (farray_0 16)|]. split; [exact I|].
    split; [apply (farray_0 4)|]. split; [apply (farray_0 3)|]. split; [apply (farray_0 3)|constructor]. }
  split; [constructor|]. split; [exact I|]. split; [constructor|]. split; constructor.
Qed.
Example C41_example :
  exists text, marshalJSONDoc sample_floats sample_exts false [] (str_bytes "  ") sample_doc = Ok text /\
    json_decode (c_Document sample_floats sample_exts) zero_Document text = Ok (norm_Document sample_exts (embedded false sample_doc), []) /\
    doc_Buffers (norm_Document sample_exts (embedded false sample_doc)) =
      [Some (mkBuffer [] VNull "b" "data:application/octet-stream;base64,YWJj" 3 [])] /\
    doc_Extensions (norm_Document sample_exts (embedded false sample_doc)) =
      [("EXT_other", ERaw (JArr [JNum "1.50"; JStr "a\u003cb"])); ("EXT_str", EVal (VStr "v"))]%string.
Proof.
  destruct (C41_lossless_partial sample_floats sample_exts 2 false [] (str_bytes "  ") sample_doc [] sample_float_contract sample_doc_wf) as (t & E & D).
  - constructor; [discriminate|constructor].
  - lia.
  - constructor.
  - repeat (constructor; [cbn; tauto|]). constructor.
  - exists t. split; [exact E|]. rewrite app_nil_r in D. split; [exact D|]. split; vm_compute; reflexivity.
Qed.

(** ** C42 *)
(** What was decoded, written and decoded again is [norm] of it: defaults
    filled in.  From then on nothing changes. *)
Definition projected (d : Document) : Prop :=
  Forall (opt (fun c => cam_Orthographic c <> None \/ cam_Perspective c <> None)) (doc_Cameras d).
Lemma decoded_wf X n d : decoded_Document X n d -> projected d -> wf_Document X n d.
Proof.
  intros D P. unfold decoded_Document in D. unfold wf_Document. decompose [and] D. repeat (split; [assumption|]).
  split; [|repeat (split; [assumption|]); assumption].
  match goal with H : Forall (opt (decoded_Camera X n)) _ |- _ => rename H into HC end.
  unfold projected in P. rewrite Forall_forall in *. intros o Ho. specialize (HC o Ho). specialize (P o Ho). destruct o as [c|]; [|exact I].
  cbn in *. unfold decoded_Camera in HC. unfold wf_Camera. decompose [and] HC. repeat (split; [assumption|]). assumption.
Qed.


(** Decoding never sets the bytes of a buffer. *)
Definition no_data (d : Document) : Prop := Forall (opt (fun b => buf_Data b = [])) (doc_Buffers d).
Ltac other := let y := fresh in let j := fresh in let v := fresh in let P := fresh in intros y j v P _ _; exact P.
Lemma closed_true : closed (fun _ => True).
Proof. split; intros; apply Forall_forall; intros; exact I. Qed.
Lemma no_data_Buffer F X : inv (c_Buffer F X) (fun _ => True) (fun b => buf_Data b = []).
Proof.
  intros old j y Ho _ H. refine (inv_struct (fun _ => True) (fun b => buf_Data b = []) (fields_Buffer F X) old j y closed_true _ Ho I H).
  repeat apply Forall_cons; [..|apply Forall_nil]; other.
Qed.
Lemma no_data_Document F X : inv (c_Document F X) (fun _ => True) no_data.
Proof.
  intros old j y Ho _ H. refine (inv_struct (fun _ => True) no_data (fields_Document F X) old j y closed_true _ Ho I H).
  repeat apply Forall_cons; [..|apply Forall_nil]; try other.
  intros d jj v Pd _ E. unfold no_data. cbn [set_doc_Buffers doc_Buffers].
  refine (inv_slice None _ (fun _ => True) (opt (fun b => buf_Data b = [])) closed_true I _ (doc_Buffers d) jj v Pd I E).
  exact (inv_ptr zero_Buffer _ _ (fun b => buf_Data b = []) eq_refl (no_data_Buffer F X)).
Qed.
Lemma embedded_no_data a d : no_data d -> embedded a d = d.
Proof.
  intros H. unfold embedded.
  assert (E : embedded_buffers a (doc_Buffers d) = doc_Buffers d).
  { unfold embedded_buffers. unfold no_data in H. generalize 0%nat. induction H as [|o l Ho H IH]; intros k; [reflexivity|].
    cbn [List.length seq combine map fst snd]. rewrite IH. f_equal. destruct o as [b|]; [|reflexivity]. cbn in Ho |- *.
    unfold embedded_buffer. rewrite Ho. reflexivity. }
  rewrite E. destruct d. reflexivity.
Qed.
Lemma norm_no_data X d : no_data (norm_Document X d).
Proof.
  unfold no_data. cbn [norm_Document doc_Buffers]. apply Forall_map. apply Forall_forall. intros [b|] _; [reflexivity|exact I].
Qed.
Lemma norm_projected X n d : wf_Document X n d -> projected (norm_Document X d).
Proof.
  intros W. unfold projected. cbn [norm_Document doc_Cameras]. apply Forall_map. unfold wf_Document in W. decompose [and] W.
  match goal with H : Forall (opt (wf_Camera X n)) _ |- _ => eapply Forall_impl; [|exact H] end.
  intros [c|]; [|exact (fun x => x)]. cbn. unfold wf_Camera. intros Wc. decompose [and] Wc.
  match goal with H : _ \/ _ |- _ => destruct H; [left|right] end; destruct (cam_Orthographic c), (cam_Perspective c); cbn; congruence.
Qed.

Theorem C42_stable_partial F X n asBinary prefix indent v w t rest y :
  float_contract F -> parse_contract F -> registry_total X -> registry_ok X n ->
  Z.of_nat n + 7 <= 10000 -> ws prefix -> ws indent ->
  ws w -> text_of v t -> container v -> wf_json n v ->
  json_decode (c_Document F X) zero_Document (w ++ t ++ rest) = Ok (y, rest) ->
  projected y -> Forall (fun o => o <> None) (doc_Buffers y) ->
  exists text1,
    marshalJSONDoc F X asBinary prefix indent y = Ok text1 /\
    json_decode (c_Document F X) zero_Document text1 = Ok (norm_Document X y, []) /\
    exists text2,
      marshalJSONDoc F X asBinary prefix indent (norm_Document X y) = Ok text2 /\
      json_decode (c_Document F X) zero_Document text2 = Ok (norm_Document X y, []).
Proof.
  intros HF PC RT RO D Hp Hi Hw T C W E P N.
  unfold json_decode, start in E. rewrite scan_ws in E by (try exact Hw; exact I).
  pose proof (scan_container v t n rest T C W ltac:(unfold max_depth; lia)) as S. unfold start in S. rewrite S in E.
  apply bind_ok in E. destruct E as (y' & Ey & E). injection E as ->.
  assert (Dy : decoded_Document X n y).
  { refine (inv_Document F X n PC RT (proj1 RO) zero_Document v y _ W Ey). apply wf_zero_Document. }
  pose proof (decoded_wf X n y Dy P) as Wy.
  assert (Ny : no_data y). { refine (no_data_Document F X zero_Document v y _ I Ey). constructor. }
  destruct (C41_lossless_partial F X n asBinary prefix indent y [] HF Wy N D Hp Hi) as (t1 & E1 & D1).
  rewrite app_nil_r in D1. rewrite (embedded_no_data _ _ Ny) in D1.
  exists t1. split; [exact E1|]. split; [exact D1|].
  assert (N1 : Forall (fun o => o <> None) (doc_Buffers (norm_Document X y))).
  { cbn [norm_Document doc_Buffers]. apply Forall_map. eapply Forall_impl; [|exact N]. intros [b|] H; [discriminate|congruence]. }
  destruct (C41_lossless_partial F X n asBinary prefix indent (norm_Document X y) [] HF (wf_norm_Document X n (proj1 RO) y Wy) N1 D Hp Hi) as (t2 & E2 & D2).
  assert (Sy : settled_Document X y) by (refine (inv_settled_Document F X n RO zero_Document v y _ W Ey); apply settled_zero_Document).
  rewrite app_nil_r in D2. rewrite (embedded_no_data _ _ (norm_no_data X y)), (norm_idem_Document X y Sy) in D2.
  exists t2. split; [exact E2|exact D2].
Qed.
Print Assumptions C42_stable_partial.

(** The first round trip may change a decoded document: an empty object has
    no asset version, and an explicit null leaves an optional value unset. *)
Theorem C42_stable_refuted :
  exists F X text y text1 y1, float_contract F /\ parse_contract F /\ registry_total X /\ (forall n, registry_ok X n) /\
    json_decode (c_Document F X) zero_Document text = Ok (y, []) /\
    marshalJSONDoc F X false [] [] y = Ok text1 /\
    json_decode (c_Document F X) zero_Document text1 = Ok (y1, []) /\ y1 <> y.
Proof.
  exists sample_floats, sample_exts, (str_bytes "{""asset"":{""version"":""2.0""},""materials"":[{""alphaCutoff"":null}]}"). do 3 eexists.
  split; [exact sample_float_contract|]. split; [exact sample_parse_contract|]. split; [exact sample_registry_total|]. split; [exact sample_registry_ok|].
  split; [vm_compute; reflexivity|]. split; [vm_compute; reflexivity|]. split; [vm_compute; reflexivity|]. vm_compute. discriminate.
Qed.
Print Assumptions C42_stable_refuted.

(** The hypotheses are met by a small file. *)
Example C42_example :
  let text := str_bytes "{""scene"":0,""scenes"":[{""name"":""s""}]}" in
  exists y, json_decode (c_Document sample_floats sample_exts) zero_Document text = Ok (y, []) /\ projected y /\
    Forall (fun o => o <> None) (doc_Buffers y) /\ doc_Scene y = Some 0 /\
    map (option_map scn_Name) (doc_Scenes y) = [Some "s"%string].
Proof. cbv zeta. eexists. split; [vm_compute; reflexivity|]. split; [constructor|]. split; [constructor|]. split; vm_compute; reflexivity. Qed.

(** ** C43 *)
Lemma closed_no_null : closed no_null.
Proof. split; intros l H; inversion H; subst; assumption. Qed.
Lemma not_null_ptr {A} (zero : A) c old j y : no_null j -> dec (c_ptr zero c) old j = Ok y -> y <> None.
Proof.
  intros N H. assert (G : forall o, bind (dec c o j) (fun a => Ok (Some a)) = Ok y -> y <> None).
  { intros o E. apply bind_ok in E. destruct E as (a & _ & E). injection E as <-. discriminate. }
  cbn in H. destruct j; try exact (G _ H). inversion N.
Qed.

Section C43.
Context (F : float_lib) (X : ext_lib).
Lemma filled_pbr_inv : inv (c_PBRMetallicRoughness F X) no_null filled_pbr.
Proof.
  intros old j y Ho Hj H.
  refine (inv_struct no_null filled_pbr (fields_PBRMetallicRoughness F X) default_PBRMetallicRoughness j y closed_no_null _ _ Hj H).
  2:{ repeat split; discriminate. }
  repeat apply Forall_cons; [..|apply Forall_nil]; try other; intros p jj v (P1 & P2 & P3) Hjj E; apply not_null_ptr in E; try exact Hjj;
    (split; [|split]); assumption.
Qed.
Lemma filled_normal_inv : inv (c_NormalTexture F X) no_null (fun t => ntx_Scale t <> None).
Proof.
  intros old j y Ho Hj H.
  refine (inv_struct no_null (fun t => ntx_Scale t <> None) (fields_NormalTexture F X) default_NormalTexture j y closed_no_null _ _ Hj H); [|discriminate].
  repeat apply Forall_cons; [..|apply Forall_nil]; try other; intros p jj v P Hjj E; apply not_null_ptr in E; assumption.
Qed.
Lemma filled_occlusion_inv : inv (c_OcclusionTexture F X) no_null (fun t => otx_Strength t <> None).
Proof.
  intros old j y Ho Hj H.
  refine (inv_struct no_null (fun t => otx_Strength t <> None) (fields_OcclusionTexture F X) default_OcclusionTexture j y closed_no_null _ _ Hj H); [|discriminate].
  repeat apply Forall_cons; [..|apply Forall_nil]; try other; intros p jj v P Hjj E; apply not_null_ptr in E; assumption.
Qed.
(** A pointer to a struct with defaults: what was there before is not looked at. *)
Lemma filled_ptr {A} (zero : A) c (P : A -> Prop) : (forall old j y, no_null j -> dec c old j = Ok y -> P y) ->
  inv (c_ptr zero c) no_null (opt P).
Proof.
  intros G old j y _ Hj H. assert (K : forall o, bind (dec c o j) (fun a => Ok (Some a)) = Ok y -> opt P y).
  { intros o E. apply bind_ok in E. destruct E as (a & Ea & E). injection E as <-. exact (G o j a Hj Ea). }
  cbn in H. destruct j; try exact (K _ H). injection H as <-. exact I.
Qed.
(** These decoders ignore the old value. *)
Lemma filled_pbr_fresh old j y : no_null j -> dec (c_PBRMetallicRoughness F X) old j = Ok y -> filled_pbr y.
Proof. intros N H. refine (filled_pbr_inv default_PBRMetallicRoughness j y _ N H). repeat split; discriminate. Qed.
Lemma filled_normal_fresh old j y : no_null j -> dec (c_NormalTexture F X) old j = Ok y -> ntx_Scale y <> None.
Proof. intros N H. exact (filled_normal_inv default_NormalTexture j y ltac:(discriminate) N H). Qed.
Lemma filled_occlusion_fresh old j y : no_null j -> dec (c_OcclusionTexture F X) old j = Ok y -> otx_Strength y <> None.
Proof. intros N H. exact (filled_occlusion_inv default_OcclusionTexture j y ltac:(discriminate) N H). Qed.
Lemma filled_material_fresh old j y : no_null j -> dec (c_Material F X) old j = Ok y -> filled_material y.
Proof.
  intros Hj H.
  refine (inv_struct no_null filled_material (fields_Material F X) default_Material j y closed_no_null _ _ Hj H).
  2:{ split; [discriminate|]. repeat split. }
  repeat apply Forall_cons; [..|apply Forall_nil]; try other; intros m jj v (P1 & P2 & P3 & P4) Hjj E.
  - split; [exact P1|]. split; [|split; assumption]. exact (filled_ptr _ _ filled_pbr filled_pbr_fresh _ jj v P2 Hjj E).
  - split; [exact P1|]. split; [exact P2|]. split; [|exact P4]. exact (filled_ptr _ _ (fun t => ntx_Scale t <> None) filled_normal_fresh _ jj v P3 Hjj E).
  - split; [exact P1|]. split; [exact P2|]. split; [exact P3|]. exact (filled_ptr _ _ (fun t => otx_Strength t <> None) filled_occlusion_fresh _ jj v P4 Hjj E).
  - split; [exact (not_null_ptr _ _ _ _ _ Hjj E)|]. split; [exact P2|]. split; assumption.
Qed.
Lemma filled_doc : inv (c_Document F X) no_null filled.
Proof.
  intros old j y Ho Hj H. refine (inv_struct no_null filled (fields_Document F X) old j y closed_no_null _ Ho Hj H).
  repeat apply Forall_cons; [..|apply Forall_nil]; try other.
  intros d jj v Pd Hjj E. unfold filled. cbn [set_doc_Materials doc_Materials].
  exact (inv_slice None _ no_null (opt filled_material) closed_no_null I (filled_ptr _ _ filled_material filled_material_fresh) (doc_Materials d) jj v Pd Hjj E).
Qed.

(** For JSON without null. *)
Theorem C43_filled_partial text v rest y :
  scan start text = Done v rest -> no_null v ->
  json_decode (c_Document F X) zero_Document text = Ok (y, rest) -> filled y.
Proof.
  intros S N H. unfold json_decode in H. rewrite S in H. apply bind_ok in H. destruct H as (y' & E & H). injection H as <-.
  refine (filled_doc zero_Document v y' _ N E). constructor.
Qed.
End C43.
Print Assumptions C43_filled_partial.

(** A text of a value without null is read as that value. *)
Theorem C43_text_partial F X n w t v rest y :
  ws w -> text_of v t -> container v -> wf_json n v -> Z.of_nat n <= 10000 -> no_null v ->
  json_decode (c_Document F X) zero_Document (w ++ t ++ rest) = Ok (y, rest) -> filled y.
Proof.
  intros Hw T C W D N H. refine (C43_filled_partial F X (w ++ t ++ rest) v rest y _ N H).
  unfold start. rewrite scan_ws by (try exact Hw; exact I). exact (scan_container v t n rest T C W D).
Qed.
Print Assumptions C43_text_partial.

Theorem C43_filled_refuted :
  exists F X text y, float_contract F /\ parse_contract F /\ registry_total X /\
    json_decode (c_Document F X) zero_Document text = Ok (y, []) /\ ~ filled y.
Proof.
  exists sample_floats, sample_exts, (str_bytes "{""materials"":[{""alphaCutoff"":null}]}"). eexists.
  split; [exact sample_float_contract|]. split; [exact sample_parse_contract|]. split; [exact sample_registry_total|].
  split; [vm_compute; reflexivity|]. intros H. apply Forall_inv in H. destruct H as [H _]. apply H. reflexivity.
Qed.
Print Assumptions C43_filled_refuted.
Example C43_example :
  exists y, json_decode (c_Document sample_floats sample_exts) zero_Document
      (str_bytes "{""materials"":[{""pbrMetallicRoughness"":{},""normalTexture"":{""index"":1}}]}") = Ok (y, []) /\
    filled y /\ map (option_map (fun m => option_map pbr_MetallicFactor (mat_PBRMetallicRoughness m))) (doc_Materials y) = [Some (Some (Some f64_one))].
Proof.
  eexists. split; [vm_compute; reflexivity|]. split; [|vm_compute; reflexivity].
  constructor; [|constructor]. split; [discriminate|]. split; [cbn; repeat split; discriminate|]. split; [discriminate|exact I].
Qed.

(** ** C44 *)
(** Decoding any extensions object into a map [old]: succeeds, and the result
    has exactly the keys of the object and of [old]. *)
Theorem C44_extensions X old m : registry_total X -> sorted_keys old ->
  Forall (fun p => string_body (str_bytes (fst p))) m ->
  exists y, dec (c_ext X) old (JObj m) = Ok y /\ sorted_keys y /\
  forall k e, In (k, e) y <->
    (exists j, last_member m k j /\ e = payload (registry X k) j) \/ (absent m k /\ In (k, e) old).
Proof. exact (dec_ext_spec X old m). Qed.
Print Assumptions C44_extensions.
(** At the top of a document text, too. *)
Theorem C44_document F X n w t m rest y :
  registry_total X -> ws w -> text_of (JObj [("extensions"%string, JObj m)]) t ->
  wf_json n (JObj [("extensions"%string, JObj m)]) -> Z.of_nat n <= 10000 ->
  json_decode (c_Document F X) zero_Document (w ++ t ++ rest) = Ok (y, rest) ->
  forall k e, In (k, e) (doc_Extensions y) <-> exists j, last_member m k j /\ e = payload (registry X k) j.
Proof.
  intros RT Hw T W D H k e. unfold json_decode, start in H. rewrite scan_ws in H by (try exact Hw; exact I).
  pose proof (scan_container _ t n rest T I W ltac:(unfold max_depth; lia)) as S. unfold start in S. rewrite S in H.
  assert (Wm : Forall (fun p => string_body (str_bytes (fst p))) m).
  { inversion W as [| | | | |? ? F1]; subst. pose proof (proj2 (Forall_inv F1)) as W2. cbn in W2. inversion W2 as [| | | | |? ? F2]; subst.
    eapply Forall_impl; [|exact F2]. intros p [B _]. exact B. }
  destruct (dec_ext_spec X [] m RT (sk_nil) Wm) as (z & Ez & _ & Iz).
  cbn [c_Document c_struct dec dec_struct dec_members] in H. change (key_of "extensions") with (Ok "extensions"%string) in H. cbn [bind] in H.
  change (find_field (fields_Document F X) "extensions") with
    (Some (Fld "extensions" doc_Extensions set_doc_Extensions (c_ext X) is_nil)) in H.
  cbn [dec_field c_ext dec] in H. change (doc_Extensions zero_Document) with (@nil (string * extv)) in H. rewrite Ez in H. cbn [bind] in H.
  injection H as <-. cbn [set_doc_Extensions doc_Extensions]. rewrite Iz. split; [intros [H|[_ []]]; exact H|intros H; left; exact H].
Qed.
Print Assumptions C44_document.
Example C44_example :
  exists y, dec (c_ext sample_exts) [] (JObj [("B", JNum "1"); ("EXT_str", JStr "a"); ("B", JNull); ("EXT_str", JStr "b"); ("A", JObj [])]%string) = Ok y /\
    y = [("A", ERaw (JObj [])); ("B", ERaw JNull); ("EXT_str", EVal (VStr "b"))]%string.
Proof. eexists. split; vm_compute; reflexivity. Qed.

(** ** C46 *)
(** A scene with the name [s], written and read: the name is [s] with invalid
    UTF-8 replaced. *)
Definition named (s : string) : Scene := set_scn_Name s zero_Scene.
Lemma named_dec F X s s' : unquote_str (quote_str s) = Some s' -> s <> ""%string ->
  dec (c_Scene F X) zero_Scene (JObj [("name"%string, JStr (quote_str s))]) = Ok (named s').
Proof.
  intros U N. cbn [c_Scene c_struct dec dec_struct dec_members]. change (key_of "name") with (Ok "name"%string). cbn [bind].
  change (find_field (fields_Scene F X) "name") with (Some (Fld "name" scn_Name set_scn_Name c_str str_empty)).
  cbn [dec_field c_str dec str_of_json]. rewrite U. reflexivity.
Qed.
Theorem C46_repaired F X prefix indent s rest : s <> ""%string -> ws prefix -> ws indent ->
  exists j s', enc (c_Scene F X) (named s) = Ok j /\ repaired (str_bytes s) (str_bytes s') /\
    json_decode (c_Scene F X) zero_Scene (printed prefix indent j ++ rest) = Ok (named s', rest).
Proof.
  intros N Hp Hi. destruct (unquote_quote (str_bytes s)) as (s' & R & U).
  exists (JObj [("name"%string, JStr (quote_str s))]), (bytes_str s').
  split. { destruct s; [contradiction N; reflexivity|]. reflexivity. }
  split; [rewrite str_bytes_bytes; exact R|].
  apply (json_decode_text _ _ (JObj [("name"%string, JStr (quote_str s))]) _ 1); [apply printed_text; assumption|exact I| |unfold max_depth; lia|].
  - constructor. constructor; [|constructor]. split; [apply (quote_str_body "name")|constructor; apply quote_str_body].
  - apply named_dec; [|exact N]. unfold unquote_str, quote_str. rewrite str_bytes_bytes, U. reflexivity.
Qed.
Print Assumptions C46_repaired.
Theorem C46_strings_partial F X prefix indent s rest : utf8_str s -> ws prefix -> ws indent ->
  exists j, enc (c_Scene F X) (named s) = Ok j /\
    json_decode (c_Scene F X) zero_Scene (printed prefix indent j ++ rest) = Ok (named s, rest).
Proof.
  intros U Hp Hi. destruct (String.eqb_spec s "") as [->|N].
  - exists (JObj []). split; [vm_compute; reflexivity|].
    apply (json_decode_text _ _ (JObj []) _ 1); [apply printed_text; assumption|exact I|constructor; constructor|unfold max_depth; lia|reflexivity].
  - destruct (C46_repaired F X prefix indent s rest N Hp Hi) as (j & s' & E & R & D). exists j. split; [exact E|].
    assert (Q : s' = s). { rewrite <- (bytes_str_bytes s'), <- (bytes_str_bytes s). f_equal. destruct U as (rs & Hr & Es). rewrite Es in R. rewrite Es. exact (repaired_valid_eq rs _ Hr R). }
    rewrite Q in D. exact D.
Qed.
Print Assumptions C46_strings_partial.
Theorem C46_strings_refuted :
  exists F X s j y, enc (c_Scene F X) (named s) = Ok j /\
    json_decode (c_Scene F X) zero_Scene (printed [] [] j) = Ok (y, []) /\ scn_Name y <> s.
Proof.
  exists sample_floats, sample_exts, (bytes_str [z2b 255]). do 2 eexists.
  split; [vm_compute; reflexivity|]. split; [vm_compute; reflexivity|]. vm_compute. discriminate.
Qed.
Print Assumptions C46_strings_refuted.
Example C46_example : exists j, enc (c_Scene sample_floats sample_exts) (named "a""<é\") = Ok j /\
  json_decode (c_Scene sample_floats sample_exts) zero_Scene (printed [] (str_bytes "  ") j) = Ok (named "a""<é\", []).
Proof. eexists. split; [vm_compute; reflexivity|]. vm_compute. reflexivity. Qed.

(** ** C55, JSON text *)
(** The tree that is written does not depend on the indentation, and its text
    reads back as that tree whatever the white space. *)
Theorem C55_text_read F X n asBinary prefix indent d rest :
  float_contract F -> wf_Document X n d -> Forall (fun o => o <> None) (doc_Buffers d) ->
  Z.of_nat n + 7 <= 10000 -> ws prefix -> ws indent ->
  exists text0 text,
    marshalJSONDoc F X asBinary [] [] d = Ok text0 /\ marshalJSONDoc F X asBinary prefix indent d = Ok text /\
    json_decode (c_Document F X) zero_Document (text ++ rest) = json_decode (c_Document F X) zero_Document (text0 ++ rest) /\
    exists y, json_decode (c_Document F X) zero_Document (text0 ++ rest) = Ok (y, rest).
Proof.
  intros HF W N D Hp Hi.
  destruct (C41_lossless_partial F X n asBinary [] [] d rest HF W N D ltac:(constructor) ltac:(constructor)) as (t0 & E0 & D0).
  destruct (C41_lossless_partial F X n asBinary prefix indent d rest HF W N D Hp Hi) as (t & E & D1).
  exists t0, t. split; [exact E0|]. split; [exact E|]. rewrite D0, D1. split; [reflexivity|]. eexists. reflexivity.
Qed.
Print Assumptions C55_text_read.
Example C55_example : exists t0 t, marshalJSONDoc sample_floats sample_exts false [] [] sample_doc = Ok t0 /\
  marshalJSONDoc sample_floats sample_exts false [z2b 9] [] sample_doc = Ok t /\ t0 <> t /\
  json_decode (c_Document sample_floats sample_exts) zero_Document t = json_decode (c_Document sample_floats sample_exts) zero_Document t0.
Proof. do 2 eexists. split; [vm_compute; reflexivity|]. split; [vm_compute; reflexivity|]. split; [vm_compute; discriminate|]. vm_compute. reflexivity. Qed.
