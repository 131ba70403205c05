(** C101 for single slices that are not faithful: what every reading of the saved
    file has of them. *)
From Verif Require Import Base BaseFacts Types Binary SpecLayout Doc SpecDoc SpecAccessor AccessorProofs SpecImage F64 Base64 Url UrlProofs GoUrl GoUrlProofs SpecText SpecString SpecPath SpecData SpecUrl
  JsonText JsonTextProofs JsonStringProofs ScanSound Codec DocCodec SpecJson SpecJsonDoc CodecProofs CodecInv DocCodecBase DocCodecProofs DocInvBase Marshal SpecMarshal MarshalProofs Stream StreamProofs
  File SpecFile DecodeProofs EncodeProofs PropsUri PropsJson PropsFile PropsRoundTrip SpecSchema SchemaProofs SchemaAccept PropsSchema SpecMeaning MeaningProofs MeaningUnique PropsMeaning ConformProofs PropsConform
  SpecAsset AssetProofs PropsAsset PropsUrl PropsAssetWritten SpecExchange SpecTarget ModelerTargetProofs ModelerRead ModelerWrite ModelerWriteProofs ModelerReadProofs PropsModelerWrite PropsModelerRead Image PropsImage ModelerShapeProofs BinaryProofs PropsTarget
  SpecSaved SavedProofs SavedReads SavedAgain PropsSaved PropsAccessor PropsAccessorFile PropsExchange NewDoc SpecAppend PropsAppend SpecAdded PropsAdded SpecRules PropsRules SpecBuilt SpecSingle PropsSingle PropsBuilt.

(** WriteAccessor in a program that saves: the accessor conforms, with as many
    elements as were given; they are those given if the slice is stored plainly,
    and otherwise the second of them starts with 0. *)
Theorem C101_single before target s after c t :
  Forall proper (before ++ OpAccessor target s :: after) -> fits_memory (before ++ OpAccessor target s :: after) -> kind_ct (sk s) = Some (c, t) ->
  exists d0 d, run_ops NewDocument before = Ok d0 /\ run_ops NewDocument (before ++ OpAccessor target s :: after) = Ok d /\
  forall F X asBinary prefix indent w fs, float_contract F -> ws prefix -> ws indent -> no_failures w fs -> small_glb F X asBinary prefix indent d ->
  exists w' fs', Encode F X go_url asBinary prefix indent d w (Some fs) = (Ok tt, w', Some fs') /\
    forall num other names d', asset F X num other (file_reader (cf_files fs')) (wr_out w') names d' ->
    names = [] /\
    exists a vs, nth_error (doc_Accessors d') (List.length (doc_Accessors d0)) = Some (Some a) /\ gltf_elements d' a vs /\
      List.length vs = List.length (els s) /\
      (stored_plainly target c t (List.length (els s)) -> vs = els s) /\
      (~ stored_plainly target c t (List.length (els s)) -> exists v, nth_error vs 1 = Some v /\ hd_error v = Some 0).
Proof.
  intros P M Hs. destruct (C101_built _ P M) as (d & R & B). destruct (run_app _ _ _ _ R) as (d0 & R0 & R1). exists d0, d. split; [exact R0|]. split; [exact R|].
  intros F X asBinary prefix indent w fs HF Hp Hi NF SZ. destruct (B F X asBinary prefix indent w fs HF Hp Hi NF SZ) as (w' & fs' & dd & E & _ & A & CA).
  exists w', fs'. split; [exact E|]. intros num other names d' A'. destruct (C93_determined _ _ _ _ _ _ _ _ _ _ _ _ A A') as [<- <-]. split; [reflexivity|].
  assert (PO : proper (OpAccessor target s)) by (rewrite Forall_app in P; destruct P as [_ P]; apply Forall_cons_iff in P; apply P).
  cbn [run_ops] in R1. inv_ok R1. rename x into d1. destruct (given_facts _ PO) as [G1 G2]. cbn [run_op] in Hx. apply fst_res_inv in Hx as (r & Hx).
  cbn [given op_slices] in G1, G2. apply Forall_inv in G1, G2.
  destruct (C103_stored d0 target s d1 r after d c t Hx R1 G1 Hs G2) as (a & vs & Ha & G & L & K1 & K2).
  destruct (proj1 CA _ a vs Ha G) as (a2 & Ha2 & GE & _). exists a2, vs. auto.
Qed.
Print Assumptions C101_single.


(** Two elements of three bytes, without a target: proper, and not stored plainly. *)
Example C101_single_example : Forall proper [OpAccessor 0 s_rgb] /\ fits_memory [OpAccessor 0 s_rgb] /\
  kind_ct (sk s_rgb) = Some (CUbyte, AVec3) /\ ~ stored_plainly 0 CUbyte AVec3 (List.length (els s_rgb)) /\ stored_plainly 0 CUbyte AVec3 1.
Proof.
  destruct C101_data_refuted as [(P & M & _) _]. split; [constructor; [exact P|constructor]|]. split; [exact M|]. split; [reflexivity|].
  unfold stored_plainly. split; [intros [Q|[Q|Q]]; vm_compute in Q; discriminate|auto].
Qed.
