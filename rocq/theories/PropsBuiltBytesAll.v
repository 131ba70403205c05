(** C101 for each interleaved []uint8 of a row, and not only the last. *)
From Verif Require Import Base BaseFacts Types Binary SpecLayout Doc SpecDoc SpecAccessor AccessorProofs AccessorWriteProofs SpecImage F64 Base64 Url UrlProofs GoUrl GoUrlProofs SpecText SpecString SpecPath SpecData SpecUrl
  JsonText JsonTextProofs JsonStringProofs ScanSound Codec DocCodec SpecJson SpecJsonDoc CodecProofs CodecInv DocCodecBase DocCodecProofs DocInvBase Marshal SpecMarshal MarshalProofs Stream StreamProofs
  File SpecFile DecodeProofs EncodeProofs PropsUri PropsJson PropsFile PropsRoundTrip SpecSchema SchemaProofs SchemaAccept PropsSchema SpecMeaning MeaningProofs MeaningUnique PropsMeaning ConformProofs PropsConform
  SpecAsset AssetProofs PropsAsset PropsUrl PropsAssetWritten SpecExchange SpecTarget ModelerTargetProofs ModelerRead ModelerWrite ModelerWriteProofs ModelerReadProofs PropsModelerWrite PropsModelerRead Image PropsImage ModelerShapeProofs BinaryProofs PropsTarget
  SpecSaved SavedProofs SavedReads SavedAgain PropsSaved PropsAccessor PropsAccessorFile PropsExchange NewDoc SpecAppend PropsAppend SpecAdded PropsAdded SpecRules PropsRules SpecBuilt SpecSingle PropsSingle SpecFetch SpecRows PropsRows PropsBytes PropsBytesFile PropsBytesAll PropsBuilt.
Local Open Scope nat_scope.

(** WriteAccessorsInterleaved in a program that saves: every reading of the saved
    file finds, of a []uint8, the first element, and behind it elements of the
    last []uint8, or 0. *)
Theorem C101_every_byte before data after k s m s' :
  Forall proper (before ++ OpInterleaved data :: after) -> fits_memory (before ++ OpInterleaved data :: after) -> 2 <= List.length data ->
  nth_error data k = Some s -> sk s = SK CUbyte AScalar -> k <= m ->
  nth_error data m = Some s' -> sk s' = SK CUbyte AScalar -> (forall j x, m < j -> nth_error data j = Some x -> sk x <> SK CUbyte AScalar) ->
  exists d0 d, run_ops NewDocument before = Ok d0 /\ run_ops NewDocument (before ++ OpInterleaved data :: after) = Ok d /\
  forall F X asBinary prefix indent w fs, float_contract F -> ws prefix -> ws indent -> no_failures w fs -> small_glb F X asBinary prefix indent d ->
  exists w' fs', Encode F X go_url asBinary prefix indent d w (Some fs) = (Ok tt, w', Some fs') /\
    forall num other names d', asset F X num other (file_reader (cf_files fs')) (wr_out w') names d' ->
    names = [] /\
    exists a, nth_error (doc_Accessors d') (List.length (doc_Accessors d0) + k) = Some (Some a) /\
      forall vs, gltf_elements d' a vs <->
        vs = nth 0 (els s) [0%Z] :: map (fun j => nth (sum_sizes (firstn k data) + j * sum_sizes data - sum_sizes (firstn m data)) (els s') [0%Z]) (seq 1 (List.length (els s) - 1)).
Proof.
  intros P M L Hk Hu KM Hm Hu' HA. destruct (C101_built _ P M) as (d & R & B). destruct (run_app _ _ _ _ R) as (d0 & R0 & R1). exists d0, d. split; [exact R0|]. split; [exact R|].
  intros F X asBinary prefix indent w fs HF Hp Hi NF SZ. destruct (B F X asBinary prefix indent w fs HF Hp Hi NF SZ) as (w' & fs' & dd & E & _ & A & CA).
  exists w', fs'. split; [exact E|]. intros num other names d' A'. destruct (C93_determined _ _ _ _ _ _ _ _ _ _ _ _ A A') as [<- <-]. split; [reflexivity|].
  assert (PO : proper (OpInterleaved data)) by (rewrite Forall_app in P; destruct P as [_ P]; apply Forall_cons_iff in P; apply P).
  cbn [run_ops] in R1. inv_ok R1. rename x into d1. destruct (given_facts _ PO) as [G1 G2]. cbn [given] in G1, G2.
  destruct (proper_succeeds _ _ _ PO Hx) as (d1' & idx & W). assert (d1' = d1) as -> by (cbn [run_op] in Hx; rewrite W in Hx; cbn in Hx; congruence).
  assert (NE : els s <> []) by (rewrite Forall_forall in G2; apply G2; exact (nth_error_In _ _ Hk)).
  assert (RA : row_allowed data).
  { destruct PO as (_ & _ & _ & (_ & _ & RF & _) & _). cbn [op_slices] in RF. destruct RF as [RF|[RF1 RF2]]; [lia|]. split; [lia|].
    apply Z.mod_divide in RF2; [|lia]. apply Nat2Z.inj. rewrite Nat2Z.inj_mod. exact RF2. }
  destruct (C105_every d0 data d1 idx k s m s' W L RA G1 NE Hk Hu KM Hm Hu' HA) as (a & Ha & K). set (vs := nth 0 _ _ :: _) in K |- *.
  assert (HM : means d1 a (mkSlice (SK CUbyte AScalar) vs)).
  { destruct (rows_shape _ _ _ _ _ _ W L Hk) as (c & t & a' & v & b & vo & i & Ks & Ha2 & A1 & A2 & A3 & _). assert (a' = a) as -> by congruence.
    rewrite Hu in Ks. split; [exact A3|]. split; [rewrite A1, A2; exact Ks|]. apply K. reflexivity. }
  pose proof (run_ops_extends _ _ _ R1) as X1. destruct (means_mono _ _ _ _ X1 HM) as (_ & _ & GE). cbn [els] in GE.
  assert (HA2 : nth_error (doc_Accessors d) (List.length (doc_Accessors d0) + k) = Some (Some a)).
  { destruct X1 as ([l ->] & _). rewrite nth_error_app1; [exact Ha|]. apply nth_error_Some. congruence. }
  destruct (proj1 CA _ a vs HA2 GE) as (a2 & Ha2 & GE2 & _). exists a2. split; [exact Ha2|]. intros vs'. split.
  - intros Q. exact (gltf_elements_det _ _ _ _ Q GE2).
  - intros ->. exact GE2.
Qed.
Print Assumptions C101_every_byte.

(** The four slices of C105. *)
Example C101_every_byte_example : Forall proper [OpInterleaved four_rows] /\ fits_memory [OpInterleaved four_rows] /\
  nth_error four_rows 0 = Some (bytes_from 1) /\ nth_error four_rows 3 = Some (bytes_from 31) /\
  map (fun j => nth (sum_sizes (firstn 0 four_rows) + j * sum_sizes four_rows - sum_sizes (firstn 3 four_rows)) (els (bytes_from 31)) [0%Z]) (seq 1 4) = [[32]; [0]; [0]; [0]]%Z.
Proof.
  split; [constructor; [|constructor]|split; [vm_compute; discriminate|split; [reflexivity|split; reflexivity]]].
  split.
  { split; [repeat constructor; eexists; eexists; reflexivity|]. assert (S5 : forall s, In s four_rows -> List.length (els s) = 5) by (intros s [<-|[<-|[<-|[<-|[]]]]]; reflexivity). intros x y J1 J2. rewrite (S5 x J1), (S5 y J2). reflexivity. }
  split; [exact I|]. split; [cbn; small_typed|]. split; [|exact I].
  split; [cbn; auto|]. split; [eexists; split; [reflexivity|discriminate]|]. split; [right; split; [vm_compute; discriminate|exists 1%Z; reflexivity]|].
  intros _ before s after c t E K. assert (S : In s four_rows) by (cbn [op_slices] in E; rewrite E; apply in_elt).
  assert (c = CUbyte) as -> by (destruct S as [<-|[<-|[<-|[<-|[]]]]]; cbn in K; congruence). apply Z.divide_1_l.
Qed.
