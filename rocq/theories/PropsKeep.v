(** C80: what writing a document to JSON and reading it again makes of every
    document a Go program can hold. *)
From Verif Require Import Base BaseFacts Types Doc F64 SpecText JsonText JsonTextProofs Codec DocCodec SpecJson CodecProofs CodecInv Marshal SpecMarshal MarshalProofs PropsJson
  SpecGo SpecGoDoc EncodeExact ScanDepth IndentProofs PropsIndent SpecKeep SpecKeepDoc KeepProofs DocKeepProofs KeepTree.

(** There is exactly one way to repair strings. *)
Theorem C80_repair : (exists rep, repairs rep) /\ (forall r1 r2, repairs r1 -> repairs r2 -> forall s, r1 s = r2 s) /\
  (forall rep, repairs rep -> forall s, utf8_str s -> rep s = s).
Proof. split; [exact repairs_exists|]. split; [exact repairs_unique|exact repairs_utf8]. Qed.
Print Assumptions C80_repair.

(** Whatever encodes is read again as [kept_Document] says, unless it is nested
    too deep or an accessor has an undeclared type, which are refused. *)
Theorem C80_kept F X rep asBinary prefix indent d rest :
  float_contract F -> registry_total X -> repairs rep -> go_Document X d -> ws prefix -> ws indent ->
  forall text, marshalJSONDoc F X asBinary prefix indent d = Ok text ->
  exists j, text_of j text /\
    json_decode (c_Document F X) zero_Document (text ++ rest) =
    if 10000 <? Z.of_nat (nesting j) then Err (ErrMsg "invalid character")
    else if typed d then Ok (kept_Document X rep (embedded asBinary d), rest)
    else Err (ErrMsg "gltf: unknown accessor's type").
Proof.
  intros HF T R G Hp Hi text M. unfold marshalJSONDoc in M. pose proof (marshal_tree_exact F X HF asBinary d G) as E.
  destruct (marshal_tree F X asBinary d) as [j|e|] eqn:Mt; cbn [bind] in M; try discriminate. injection M as <-. fold (printed prefix indent j).
  destruct E as (L & C & _). exists j. split; [exact (printed_text prefix indent j Hp Hi)|]. unfold json_decode.
  rewrite (scan_any_depth j _ rest (printed_text prefix indent j Hp Hi) C L). change max_depth with 10000.
  rewrite Z.leb_antisym. destruct (10000 <? Z.of_nat (nesting j)); cbn [negb]; [reflexivity|]. cbn [bind].
  rewrite (tree_kept F X rep asBinary d j HF T R G Mt). destruct (typed d); reflexivity.
Qed.
Print Assumptions C80_kept.

(** ** Examples *)
(** [odd_doc] with an accessor of a declared type; two attributes whose names
    become the same, extras with such keys, and an extension whose name is not
    UTF-8. *)
Definition bad_utf8 : string := bytes_str [z2b 255].
Definition fffd : string := bytes_str [z2b 239; z2b 191; z2b 189].
Definition odd_typed : Document :=
  set_doc_Extensions [("EXT_str"%string, EVal (VStr bad_utf8)); (fffd, ERaw JNull); (bad_utf8, ERaw (JBool true))]
  (set_doc_Extras (VObj [("a"%string, VStr bad_utf8); (fffd, VBool true); (bad_utf8, VNull)])
  (set_doc_Accessors [Some (set_acr_Count (-5) (set_acr_Type AVec3 (set_acr_ComponentType (CTOther 99) zero_Accessor)))]
  (set_doc_Meshes [Some (set_msh_Primitives (Some [Some (set_pri_Attributes (Some [(fffd, 4); (bad_utf8, 3)]) (set_pri_Mode 77 zero_Primitive))]) zero_Mesh)] odd_doc))).
Lemma odd_typed_go : go_Document sample_exts odd_typed.
Proof.
  unfold go_Document, odd_typed, odd_doc; cbn -[go_ext in_i64 go_float range Z.pow sample_exts bad_utf8 fffd]. go_example; cbn [fst snd]; go_example.
  - exists 0%nat. constructor. apply (quote_str_body bad_utf8).
  - exists 0%nat. constructor.
  - exists 0%nat. constructor.
  - unfold go_Accessor; cbn -[go_ext in_i64]; go_example.
  - unfold go_Asset; cbn -[go_ext in_i64]; go_example.
  - unfold go_Buffer; cbn -[go_ext in_i64]; go_example.
  - unfold go_Mesh, go_Primitive; cbn -[go_ext in_i64 range]; go_example; unfold go_Primitive; cbn -[go_ext in_i64 range bad_utf8 fffd]; go_example; unfold go_attrs; go_example; cbn [snd]; go_example.
  - unfold go_Scene; cbn -[go_ext in_i64]; go_example.
Qed.
(** The document is written, and read back with the changes that [kept_Document]
    describes. *)
Definition kept_parts (d : Document) : any * list (option (list (option Primitive))) * list (option (ComponentType * Z)) * list (option string) * Extensions :=
  (doc_Extras d, map (fun o => match o with Some m => msh_Primitives m | None => None end) (doc_Meshes d),
   map (option_map (fun a => (acr_ComponentType a, acr_Count a))) (doc_Accessors d), map (option_map scn_Name) (doc_Scenes d), doc_Extensions d).
Example C80_example : exists rep text y, repairs rep /\
  marshalJSONDoc sample_floats sample_exts false [] [] odd_typed = Ok text /\
  json_decode (c_Document sample_floats sample_exts) zero_Document text = Ok (y, []) /\
  y = kept_Document sample_exts rep (embedded false odd_typed) /\
  kept_parts y = (VObj [("a"%string, VStr fffd); (fffd, VNull)],
    [Some [Some (set_pri_Attributes (Some [(fffd, 3)]) (set_pri_Mode 1 zero_Primitive))]],
    [Some (CFloat, -5)], [None; Some (fffd ++ fffd)%string],
    [("EXT_str"%string, EVal (VStr fffd)); (fffd, ERaw (JBool true))]).
Proof.
  destruct repairs_exists as [rep R].
  assert (M : exists text, marshalJSONDoc sample_floats sample_exts false [] [] odd_typed = Ok text) by (eexists; vm_compute; reflexivity).
  destruct M as [text M]. exists rep, text.
  destruct (C80_kept sample_floats sample_exts rep false [] [] odd_typed [] sample_float_contract sample_registry_total R odd_typed_go) with (text := text) as (j & Tj & D); [constructor|constructor|exact M|].
  rewrite app_nil_r in D. destruct (10000 <? Z.of_nat (nesting j)) eqn:N.
  - exfalso. vm_compute in M. injection M as <-. vm_compute in D. discriminate D.
  - change (typed odd_typed) with true in D. cbv iota in D. eexists. split; [exact R|]. split; [exact M|]. split; [exact D|]. split; [reflexivity|].
    clear Tj N. assert (V : exists y, json_decode (c_Document sample_floats sample_exts) zero_Document text = Ok (y, []) /\ kept_parts y = (VObj [("a"%string, VStr fffd); (fffd, VNull)],
    [Some [Some (set_pri_Attributes (Some [(fffd, 3)]) (set_pri_Mode 1 zero_Primitive))]],
    [Some (CFloat, -5)], [None; Some (fffd ++ fffd)%string],
    [("EXT_str"%string, EVal (VStr fffd)); (fffd, ERaw (JBool true))])).
    { clear D. vm_compute in M. injection M as <-. eexists. split; [vm_compute; reflexivity|]. vm_compute. reflexivity. }
    destruct V as (y & Dy & P). rewrite Dy in D. injection D as <-. exact P.
Qed.
(** An undeclared accessor type is written, and refused when it is read. *)
Example C80_example_type : exists text, marshalJSONDoc sample_floats sample_exts false [] [] odd_doc = Ok text /\
  json_decode (c_Document sample_floats sample_exts) zero_Document text = Err (ErrMsg "gltf: unknown accessor's type").
Proof. eexists. split; [vm_compute; reflexivity|]. vm_compute. reflexivity. Qed.
