(** C83: documents that were read, and writing them again. *)
From Verif Require Import Base BaseFacts Types Doc F64 Base64 Url SpecText JsonText Codec DocCodec SpecJson SpecJsonDoc CodecProofs CodecInv DocInvBase Marshal SpecMarshal Stream StreamProofs File SpecFile PropsJson PropsFile
  SpecGo SpecGoDoc EncodeExact IndentProofs PropsIndent SpecKeep SpecKeepDoc KeepProofs PropsKeep SpecLoaded SpecLoadedDoc LoadedProofs DocLoaded Ext SpecExt ExtRegistry ExtRegistryProofs SpecExtGo ExtLoaded LoadedFile
  Strconv PropsFloat PropsExt PropsExtDoc.

(** ** The packages under ext/ *)
(** Whatever value of its Go type a program gives to a package's encoder, with
    whatever other packages imported, the encoder returns a JSON value or an
    error.  So the hypothesis on extensions that C77, C80 and C81 have holds for
    them. *)
Theorem C83_values F imports depth p v :
  float_contract F -> go_value (library (inner F imports depth)) p v ->
  go_extv (go_exts F imports depth) (ext_name p) (EVal v).
Proof. intros HF. exact (registry_fine F HF imports depth p v). Qed.
Print Assumptions C83_values.

(** Lights are encoded just when all their numbers are finite. *)
Theorem C83_lights F v :
  float_contract F -> go_lights v ->
  match lights_Marshal F v with Ok j => lexical j /\ savable_lights v | Err _ => ~ savable_lights v | Panic => False end.
Proof. intros HF. exact (ex_lights F HF v). Qed.
Print Assumptions C83_lights.

(** ** Documents that were read *)
(** Whatever is read, into an empty document or one that was read before: the
    numbers are finite, strings are UTF-8, enumerations have declared values,
    and every extension was made from JSON. *)
Theorem C83_loaded F X old text y rest :
  parse_contract F -> loaded_Document (from_json X) old -> json_decode (c_Document F X) old text = Ok (y, rest) ->
  loaded_Document (from_json X) y.
Proof.
  intros PC L D. destruct (json_decode_lexical _ _ _ _ _ D) as (j & Lj & E). exact (il_Document F X _ PC (gives_from_json X) old j y L Lj E).
Qed.
Print Assumptions C83_loaded.
Theorem C83_empty X : loaded_Document (from_json X) zero_Document.
Proof. apply zero_loaded_Document. Qed.
Print Assumptions C83_empty.

Lemma loaded_file F X U fsys b t y : parse_contract F -> Decode F X U fsys zero_Document b = (t, Ok y) ->
  exists d, loaded_Document (from_json X) d /\ finished d y.
Proof.
  intros PC D. destruct (decode_finished _ _ _ _ _ _ _ _ D) as (j & d & L & E & Fi). exists d. split; [|exact Fi].
  exact (il_Document F X _ PC (gives_from_json X) zero_Document j d (zero_loaded_Document _) L E).
Qed.

(** What Decode returns, from any reader and file system and with any of the
    packages imported, satisfies the hypotheses of C77, C80 and C81. *)
Theorem C83_decoded F imports depth U fsys b t y :
  let X := go_exts F imports depth in
  float_contract F -> parse_contract F -> Decode F X U fsys zero_Document b = (t, Ok y) ->
  go_Document X y /\ typed y = true /\ ~ In None (doc_Buffers y) /\ ~ In None (doc_Images y).
Proof.
  intros X HF PC D. destruct (loaded_file _ _ _ _ _ _ _ PC D) as (d & L & Fi). destruct (finished_rest d y Fi) as (_ & T & N).
  split; [|split; [rewrite T; exact (loaded_typed _ d L)|exact N]].
  apply (finished_go X d y Fi). exact (lgo_Document X _ (registry_makes F imports depth HF PC) d L).
Qed.
Print Assumptions C83_decoded.

(** ** Writing them again *)
(** What was read is written again if and only if every camera has a projection
    and every extension is accepted by its encoder; otherwise there is an error,
    and never a panic. *)
Theorem C83_saves_iff_partial F imports depth U fsys b t y asBinary prefix indent :
  let X := go_exts F imports depth in
  float_contract F -> parse_contract F -> Decode F X U fsys zero_Document b = (t, Ok y) -> ws prefix -> ws indent ->
  match marshalJSONDoc F X asBinary prefix indent y with
  | Ok _ => Forall (opt has_projection) (doc_Cameras y) /\ all_ext (savable_extv X) (exts_Document y)
  | Err _ => ~ (Forall (opt has_projection) (doc_Cameras y) /\ all_ext (savable_extv X) (exts_Document y))
  | Panic => False
  end.
Proof.
  intros X HF PC D Hp Hi. destruct (C83_decoded F imports depth U fsys b t y HF PC D) as (G & _ & N & _).
  destruct (loaded_file _ _ _ _ _ _ _ PC D) as (d & L & Fi).
  assert (S : savable_Document X y <-> Forall (opt has_projection) (doc_Cameras y) /\ all_ext (savable_extv X) (exts_Document y)).
  { rewrite <- (finished_savable X d y Fi), (finished_all d y Fi), (proj1 (finished_rest d y Fi)). exact (loaded_savable X _ d L). }
  pose proof (C77_encodes_or_fails F X asBinary prefix indent y HF G Hp Hi) as E.
  destruct (marshalJSONDoc F X asBinary prefix indent y) as [text|e|]; tauto.
Qed.
Print Assumptions C83_saves_iff_partial.

(** Without specular-glossiness: the only other obstacle is a light with an
    infinite range, as every light without a range is read. *)
Theorem C83_obstacles_partial imports depth U fsys b t y asBinary prefix indent :
  let X := go_exts go_floats imports depth in
  imports Specular = false -> Decode go_floats X U fsys zero_Document b = (t, Ok y) -> ws prefix -> ws indent ->
  ((exists text, marshalJSONDoc go_floats X asBinary prefix indent y = Ok text) <->
   Forall (opt has_projection) (doc_Cameras y) /\
   forall ls l, In ("KHR_lights_punctual"%string, EVal (lights_any (LightList (Some ls)))) (exts_Document y) -> In (Some l) ls -> lig_Range l <> Some f64_inf).
Proof.
  intros X NS D Hp Hi. destruct C69_contracts as (HF & PC & HT). pose proof (C83_saves_iff_partial go_floats imports depth U fsys b t y asBinary prefix indent HF PC D Hp Hi) as E.
  cbv zeta in E. fold X in E.
  destruct (loaded_file _ _ _ _ _ _ _ PC D) as (d & L & Fi). pose proof (lall_Document _ d L) as A. rewrite <- (finished_all d y Fi) in A.
  assert (Q : all_ext (savable_extv X) (exts_Document y) <-> forall ls l, In ("KHR_lights_punctual"%string, EVal (lights_any (LightList (Some ls)))) (exts_Document y) -> In (Some l) ls -> lig_Range l <> Some f64_inf).
  { unfold all_ext in *. rewrite Forall_forall in *. split.
    - intros V ls l I1 I2. pose proof (proj1 (made_savable go_floats PC HF HT imports depth _ _ NS (A _ I1)) (V _ I1) (LightList (Some ls)) eq_refl eq_refl) as B.
      cbn [bounded opt] in B. rewrite Forall_forall in B. exact (B _ I2).
    - intros V [k e] I1. cbn [fst snd]. apply (made_savable go_floats PC HF HT imports depth k e NS (A _ I1)). intros [i|[ls|]] -> ->; [exact I| |exact I].
      cbn [bounded opt]. apply Forall_forall. intros [l|] I2; [|exact I]. exact (V ls l I1 I2). }
  destruct (marshalJSONDoc go_floats X asBinary prefix indent y) as [text|e|].
  - split; [intros _; tauto|intros _; exists text; reflexivity].
  - split; [intros [text H]; discriminate|intros H; exfalso; tauto].
  - contradiction.
Qed.
Print Assumptions C83_obstacles_partial.
(** With only texture transforms and unlit materials, cameras are the only
    obstacle. *)
Theorem C83_no_lights imports depth U fsys b t y asBinary prefix indent :
  let X := go_exts go_floats imports depth in
  imports Specular = false -> imports Lightspunctual = false -> Decode go_floats X U fsys zero_Document b = (t, Ok y) -> ws prefix -> ws indent ->
  ((exists text, marshalJSONDoc go_floats X asBinary prefix indent y = Ok text) <-> Forall (opt has_projection) (doc_Cameras y)).
Proof.
  intros X NS NL D Hp Hi. pose proof (C83_obstacles_partial imports depth U fsys b t y asBinary prefix indent NS D Hp Hi) as E. cbv zeta in E. fold X in E. rewrite E.
  split; [tauto|]. intros C. split; [exact C|]. intros ls l I1 _ _. destruct C69_contracts as (HF & PC & HT).
  destruct (loaded_file _ _ _ _ _ _ _ PC D) as (d & L & Fi). pose proof (lall_Document _ d L) as A. rewrite <- (finished_all d y Fi) in A.
  unfold all_ext in A. rewrite Forall_forall in A. destruct (A _ I1) as (j & _ & R). cbn [fst snd] in R.
  destruct (registry _ "KHR_lights_punctual") as [f|] eqn:Ef; [|discriminate R].
  destruct (go_registered_inv go_floats imports depth _ f Ef) as (p & N & Ip & _). destruct p; try discriminate N. congruence.
Qed.
Print Assumptions C83_no_lights.

(** What was read and written again is read back as C80 says, unless it is
    nested too deep. *)
Theorem C83_again F imports depth U fsys b t y rep asBinary prefix indent text rest :
  let X := go_exts F imports depth in
  float_contract F -> parse_contract F -> repairs rep -> Decode F X U fsys zero_Document b = (t, Ok y) -> ws prefix -> ws indent ->
  marshalJSONDoc F X asBinary prefix indent y = Ok text ->
  exists j, text_of j text /\
    json_decode (c_Document F X) zero_Document (text ++ rest) =
    if 10000 <? Z.of_nat (nesting j) then Err (ErrMsg "invalid character") else Ok (kept_Document X rep (embedded asBinary y), rest).
Proof.
  intros X HF PC R D Hp Hi M. destruct (C83_decoded F imports depth U fsys b t y HF PC D) as (G & T & _).
  destruct (C80_kept F X rep asBinary prefix indent y rest HF (go_total F imports depth) R G Hp Hi text M) as (j & Tj & E). exists j. split; [exact Tj|]. rewrite T in E. exact E.
Qed.
Print Assumptions C83_again.

(** ** Files that are opened and cannot be saved *)
Definition read_whole (text : bytes) : bufio := NewReader (mkReader [text] ErrEOF false).
Definition lamp_text : bytes := text_lit
  "{`asset`:{`version`:`2.0`},`extensionsUsed`:[`KHR_lights_punctual`],`extensions`:{`KHR_lights_punctual`:{`lights`:[{`type`:`point`}]}}}".
Definition blind_text : bytes := text_lit
  "{`asset`:{`version`:`2.0`},`cameras`:[{`type`:`perspective`}]}".
Definition three_packages (p : package) : bool := match p with Specular => false | _ => true end.
Theorem C83_saves_again_refuted :
  (exists y e, snd (Decode go_floats (go_exts go_floats three_packages 2) sample_url None zero_Document (read_whole lamp_text)) = Ok y /\
     marshalJSONDoc go_floats (go_exts go_floats three_packages 2) false [] [] y = Err e) /\
  (exists y e, snd (Decode go_floats (go_exts go_floats two_packages 2) sample_url None zero_Document (read_whole blind_text)) = Ok y /\
     marshalJSONDoc go_floats (go_exts go_floats two_packages 2) false [] [] y = Err e).
Proof. split; do 2 eexists; (split; [vm_compute; reflexivity|]); vm_compute; reflexivity. Qed.
Print Assumptions C83_saves_again_refuted.

(** ** The hypotheses are met *)
Definition bright_text : bytes := text_lit
  "{`asset`:{`version`:`2.0`},`extensions`:{`KHR_lights_punctual`:{`lights`:[{`type`:`point`,`range`:7.5}]}},`cameras`:[{`type`:`perspective`,`perspective`:{`yfov`:1,`znear`:0.5}},null],`images`:[{`uri`:`a%20b.png`}],`extras`:{`k`:[1,2]}}".
Example C83_case : exists y l text,
  Decode go_floats (go_exts go_floats three_packages 2) sample_url None zero_Document (read_whole bright_text) = ([], Ok y) /\
  exts_Document y = [("KHR_lights_punctual"%string, EVal (lights_any (LightList (Some [Some l]))))] /\ lig_Range l <> Some f64_inf /\
  Forall (opt has_projection) (doc_Cameras y) /\
  marshalJSONDoc go_floats (go_exts go_floats three_packages 2) false [] [] y = Ok text.
Proof.
  eexists. exists (mkLight "point" "" (Some [one; one; one]) (Some one) (Some 4620130267728707584) None). eexists. split; [vm_compute; reflexivity|]. split; [vm_compute; reflexivity|]. split; [discriminate|]. split.
  - cbn [doc_Cameras]. apply Forall_cons; [right; cbn [cam_Perspective]; discriminate|]. apply Forall_cons; [exact I|apply Forall_nil].
  - vm_compute. reflexivity.
Qed.
Example C83_values_case : go_value (library None) Lightspunctual (lights_any (LightList (Some [Some (mkLight "point" "" None None (Some f64_inf) None); None]))).
Proof. eexists. split; [reflexivity|]. repeat constructor; cbn; vm_compute; discriminate || reflexivity. Qed.
