(** C101 for interleaved []uint8: what every reading of the saved file has of them. *)
From Verif Require Import Base BaseFacts Types Binary SpecLayout Doc SpecDoc SpecAccessor AccessorProofs AccessorWriteProofs SpecImage F64 Base64 Url UrlProofs GoUrl GoUrlProofs SpecText SpecString SpecPath SpecData SpecUrl
  JsonText JsonTextProofs JsonStringProofs ScanSound Codec DocCodec SpecJson SpecJsonDoc CodecProofs CodecInv DocCodecBase DocCodecProofs DocInvBase Marshal SpecMarshal MarshalProofs Stream StreamProofs
  File SpecFile DecodeProofs EncodeProofs PropsUri PropsJson PropsFile PropsRoundTrip SpecSchema SchemaProofs SchemaAccept PropsSchema SpecMeaning MeaningProofs MeaningUnique PropsMeaning ConformProofs PropsConform
  SpecAsset AssetProofs PropsAsset PropsUrl PropsAssetWritten SpecExchange SpecTarget ModelerTargetProofs ModelerRead ModelerWrite ModelerWriteProofs ModelerReadProofs PropsModelerWrite PropsModelerRead Image PropsImage ModelerShapeProofs BinaryProofs PropsTarget
  SpecSaved SavedProofs SavedReads SavedAgain PropsSaved PropsAccessor PropsAccessorFile PropsExchange NewDoc SpecAppend PropsAppend SpecAdded PropsAdded SpecRules PropsRules SpecBuilt SpecSingle PropsSingle SpecFetch SpecRows PropsRows PropsBytes PropsBytesFile PropsBuilt.
Local Open Scope nat_scope.

(** WriteAccessorsInterleaved in a program that saves: the last []uint8 of the
    slices has, in every reading of the saved file, as many elements as were
    given, and in the place [j] the element [j] times as far on as a row has
    bytes, or 0. *)
Theorem C101_bytes before data after k s :
  Forall proper (before ++ OpInterleaved data :: after) -> fits_memory (before ++ OpInterleaved data :: after) -> 2 <= List.length data ->
  nth_error data k = Some s -> sk s = SK CUbyte AScalar -> (forall j s', k < j -> nth_error data j = Some s' -> sk s' <> SK CUbyte AScalar) ->
  exists d0 d, run_ops NewDocument before = Ok d0 /\ run_ops NewDocument (before ++ OpInterleaved data :: after) = Ok d /\
  forall F X asBinary prefix indent w fs, float_contract F -> ws prefix -> ws indent -> no_failures w fs -> small_glb F X asBinary prefix indent d ->
  exists w' fs', Encode F X go_url asBinary prefix indent d w (Some fs) = (Ok tt, w', Some fs') /\
    forall num other names d', asset F X num other (file_reader (cf_files fs')) (wr_out w') names d' ->
    names = [] /\
    exists a, nth_error (doc_Accessors d') (List.length (doc_Accessors d0) + k) = Some (Some a) /\
      gltf_elements d' a (map (fun j => nth (j * sum_sizes data) (els s) [0%Z]) (seq 0 (List.length (els s)))) /\
      (gltf_elements d' a (els s) <-> Forall (fun v => v = [0%Z]) (tl (els s))).
Proof.
  intros P M L Hk Hu HA. destruct (C101_built _ P M) as (d & R & B). destruct (run_app _ _ _ _ R) as (d0 & R0 & R1). exists d0, d. split; [exact R0|]. split; [exact R|].
  intros F X asBinary prefix indent w fs HF Hp Hi NF SZ. destruct (B F X asBinary prefix indent w fs HF Hp Hi NF SZ) as (w' & fs' & dd & E & _ & A & CA).
  exists w', fs'. split; [exact E|]. intros num other names d' A'. destruct (C93_determined _ _ _ _ _ _ _ _ _ _ _ _ A A') as [<- <-]. split; [reflexivity|].
  assert (PO : proper (OpInterleaved data)) by (rewrite Forall_app in P; destruct P as [_ P]; apply Forall_cons_iff in P; apply P).
  cbn [run_ops] in R1. inv_ok R1. rename x into d1. destruct (given_facts _ PO) as [G1 G2]. cbn [given] in G1, G2.
  destruct (proper_succeeds _ _ _ PO Hx) as (d1' & idx & W). assert (d1' = d1) as -> by (cbn [run_op] in Hx; rewrite W in Hx; cbn in Hx; congruence).
  assert (NE : els s <> []) by (rewrite Forall_forall in G2; apply G2; exact (nth_error_In _ _ Hk)).
  assert (RA : row_allowed data).
  { destruct PO as (_ & _ & _ & (_ & _ & RF & _) & _). cbn [op_slices] in RF. destruct RF as [RF|[RF1 RF2]]; [lia|]. split; [lia|].
    apply Z.mod_divide in RF2; [|lia]. apply Nat2Z.inj. rewrite Nat2Z.inj_mod. exact RF2. }
  destruct (C105_has d0 data d1 idx k s W L RA G1 Hk Hu NE HA) as (a & Ha & K). set (vs := map _ _) in K |- *.
  destruct (C105_kept d0 data d1 idx k s W L RA G1 Hk Hu NE HA) as (a' & Ha' & KZ). assert (a' = a) as -> by congruence.
  assert (HM : means d1 a (mkSlice (SK CUbyte AScalar) vs)).
  { destruct (rows_shape _ _ _ _ _ _ W L Hk) as (c & t & a' & v & b & vo & i & Ks & Ha2 & A1 & A2 & A3 & _). assert (a' = a) as -> by congruence.
    rewrite Hu in Ks. split; [exact A3|]. split; [rewrite A1, A2; exact Ks|]. apply K. reflexivity. }
  pose proof (run_ops_extends _ _ _ R1) as X1. destruct (means_mono _ _ _ _ X1 HM) as (_ & _ & GE). cbn [els] in GE.
  assert (HA2 : nth_error (doc_Accessors d) (List.length (doc_Accessors d0) + k) = Some (Some a)).
  { destruct X1 as ([l ->] & _). rewrite nth_error_app1; [exact Ha|]. apply nth_error_Some. congruence. }
  destruct (proj1 CA _ a vs HA2 GE) as (a2 & Ha2 & GE2 & _). exists a2. split; [exact Ha2|]. split; [exact GE2|].
  rewrite <- KZ, K. split.
  - intros Q. exact (gltf_elements_det _ _ _ _ Q GE2).
  - intros ->. exact GE2.
Qed.
Print Assumptions C101_bytes.

(** The rows of shorts, signed and unsigned bytes of C105. *)
Example C101_bytes_example : Forall proper [OpInterleaved five_rows] /\ fits_memory [OpInterleaved five_rows] /\
  nth_error five_rows 2 = Some (five CUbyte) /\ ~ Forall (fun v => v = [0%Z]) (tl (els (five CUbyte))) /\
  map (fun j => nth (j * sum_sizes five_rows) (els (five CUbyte)) [0%Z]) (seq 0 5) = [[1]; [5]; [0]; [0]; [0]]%Z.
Proof.
  split; [constructor; [|constructor]|split; [vm_compute; discriminate|split; [reflexivity|split; [intros Q; inversion Q; discriminate|reflexivity]]]].
  split.
  { split; [repeat constructor; eexists; eexists; reflexivity|]. assert (S5 : forall s, In s five_rows -> List.length (els s) = 5) by (intros s [<-|[<-|[<-|[]]]]; reflexivity). intros x y J1 J2. rewrite (S5 x J1), (S5 y J2). reflexivity. }
  split; [exact I|]. split; [cbn; small_typed|]. split; [|exact I].
  split; [cbn; auto|]. split; [eexists; split; [reflexivity|discriminate]|]. split; [right; split; [vm_compute; discriminate|exists 1%Z; reflexivity]|].
  intros _ before s after c t E K. cbn [op_slices] in E. unfold five_rows in E.
  destruct before as [|x [|y [|z l]]]; cbn [app] in E.
  - exists 0%Z. reflexivity.
  - injection E as <- <- _. cbn in K. injection K as <- <-. exists 2%Z. reflexivity.
  - injection E as <- <- <- _. cbn in K. injection K as <- <-. exists 3%Z. reflexivity.
  - destruct l; discriminate E.
Qed.
