(** Documents that are built with package modeler, saved, and loaded again: C101,
    the library's own reading. *)
From Verif Require Import Base BaseFacts Types Binary SpecLayout Doc SpecDoc SpecAccessor AccessorProofs SpecImage F64 Base64 Url SpecText SpecString SpecPath SpecData
  JsonText Codec DocCodec SpecJson SpecJsonDoc CodecProofs CodecInv DocCodecBase DocInvBase Marshal SpecMarshal PropsUri PropsJson Stream StreamProofs File SpecFile DecodeProofs EncodeProofs PropsFile PropsRoundTrip
  ModelerRead ModelerWrite ModelerWriteProofs ModelerReadProofs ModelerLayoutProofs ModelerShapeProofs BinaryProofs PropsModelerWrite Image PropsImage AccessorWriteProofs
  SpecSaved SavedProofs SavedReads SavedAgain PropsSaved PropsAccessor NewDoc SpecAppend PropsAppend SpecAdded PropsAdded SpecRules PropsRules SpecBuilt PropsBuilt.

Lemma shaped_reads d tgt data d' : shaped d tgt data d' -> Forall wf_slice data ->
  (2 <= List.length data -> Forall (fun s => ~ byte_scalar (sk s)) data)%nat ->
  forall k s, nth_error data k = Some s ->
  exists a, nth_error (doc_Accessors d') (List.length (doc_Accessors d) + k) = Some (Some a) /\
    forall buffer p, (buffer = [] \/ sk s <> SK CUint AMat3) -> ReadAccessor d' a buffer p = Ok (mkSlice (read_kind (sk s)) (els s)).
Proof.
  intros (d0 & d1 & vi & accs & HP & HV & -> & [_ HF]) HW HB k s Hk. destruct (HF k s Hk) as (c & t & a & Hs & Ha & HC). exists a. split.
  { unfold with_accs. cbn [doc_Accessors set_doc_Accessors]. rewrite nth_error_app2 by lia. replace (_ + k - _)%nat with k by lia. rewrite nth_error_map, Ha. reflexivity. }
  intros buffer p Hb. rewrite (same_core_read _ _ _ buffer p HC). unfold ReadAccessor.
  cbn [acr_ComponentType acr_Type acr_BufferView acr_ByteOffset acr_Count acr_Sparse new_accessor set_acr_BufferView set_acr_ByteOffset set_acr_ComponentType set_acr_Type set_acr_Count].
  assert (Hb' : buffer = [] \/ ~ (c = CUint /\ t = AMat3)).
  { destruct Hb as [Hb|Hb]; [left; exact Hb|right; intros [-> ->]; apply Hb]. destruct (sk s) as [c' t'| | | |]; try discriminate. cbn in Hs. destruct (ct_valid c' && at_valid t'); [|discriminate]. congruence. }
  pose proof (writeBufferViews_read _ _ _ _ _ HV HW HB k s c t buffer Hk Hs Hb') as E.
  erewrite (read_dense_mono d1); [| |exact E]; [|unfold with_accs; rewrite <- (ensurePadding_accessors _ _ HP), <- (writeBufferViews_accessors _ _ _ _ _ HV); apply extends_accessors; apply extends_refl]. cbn. rewrite (read_kind_ct _ _ _ Hs). reflexivity.
Qed.

Lemma ops_bytes ops : forall d d', Forall proper ops -> ~ last_nil d -> last_bytes d + cost ops <= 2 ^ 48 -> run_ops d ops = Ok d' -> last_bytes d' <= last_bytes d + cost ops.
Proof.
  induction ops as [|op ops IH]; intros d d' F NL SZ H; cbn [run_ops cost] in *; [injection H as <-; lia|]. apply Forall_cons_iff in F as [P F]. pose proof (cost_nonneg ops).
  destruct (op_runs d op P NL ltac:(lia)) as (x & E & NL' & B). rewrite E in H. cbn [bind] in H. specialize (IH x d' F NL' ltac:(lia) H). lia.
Qed.
Lemma built_in_memory ops d : Forall proper ops -> fits_memory ops -> run_ops NewDocument ops = Ok d -> forall b, In (Some b) (doc_Buffers d) -> zlen (buf_Data b) <= max_alloc.
Proof.
  intros F M R b I. assert (NL : ~ last_nil NewDocument) by (intros [l H]; cbn in H; destruct l; discriminate). pose proof (ops_bytes ops NewDocument d F NL M R) as B.
  unfold fits_memory in M. change (last_bytes NewDocument) with 0 in B. destruct (run_ops_sole _ _ _ new_sole R) as [E|(b0 & E & _)]; rewrite E in I; [destruct I|]. destruct I as [I|[]]. assert (b0 = b) as -> by congruence.
  unfold last_bytes in B. rewrite E in B. cbn in B. unfold max_alloc. lia.
Qed.

(** Slices that the library itself reads back: also those that others see
    otherwise, but of several slices none is a []uint8 or []int8. *)
Definition separate (op : wop) : Prop := (2 <= List.length (op_slices op) -> Forall (fun s => ~ byte_scalar (sk s)) (op_slices op))%nat.
Definition read_back (op : wop) (d0 d : Document) : Prop :=
  (forall k s, nth_error (given op) k = Some s ->
   exists a, nth_error (doc_Accessors d) (List.length (doc_Accessors d0) + k) = Some (Some a) /\
     forall buffer p, (buffer = [] \/ sk s <> SK CUint AMat3) -> ReadAccessor d a buffer p = Ok (mkSlice (read_kind (sk s)) (els s))) /\
  (forall name mime data, op = OpImage name mime (Ok data) ->
   exists im i, nth_error (doc_Images d) (List.length (doc_Images d0)) = Some (Some im) /\ img_Name im = name /\ img_MimeType im = mime /\
     img_BufferView im = Some i /\ readBufferView d i = Ok data).

(** ** C101: what is built, saved and loaded is read as it was given *)
Theorem C101_read_partial before op after : Forall proper (before ++ op :: after) -> fits_memory (before ++ op :: after) -> separate op ->
  exists d0 d, run_ops NewDocument before = Ok d0 /\ run_ops NewDocument (before ++ op :: after) = Ok d /\
  read_back op d0 d /\
  forall F X U asBinary prefix indent, float_contract F -> ws prefix -> ws indent -> small_glb F X asBinary prefix indent d ->
  survives F X U asBinary prefix indent d (read_back op d0).
Proof.
  intros P M SE. destruct (C101_runs _ P M) as (d & R). destruct (run_app _ _ _ _ R) as (d0 & R0 & R1). exists d0, d. split; [exact R0|]. split; [exact R|].
  assert (PO : proper op) by (rewrite Forall_app in P; destruct P as [_ P']; apply Forall_cons_iff in P'; apply P').
  cbn [run_ops] in R1. inv_ok R1. rename x into d1. destruct (given_facts op PO) as [G1 _].
  assert (RB : read_back op d0 d).
  { split.
    - intros k s Hk. assert (GN : given op <> []) by (intros E; rewrite E in Hk; destruct k; discriminate).
      assert (B : (2 <= List.length (given op) -> Forall (fun s => ~ byte_scalar (sk s)) (given op))%nat) by (destruct (given_slices op) as [E|E]; [contradiction|rewrite E; exact SE]).
      destruct (shaped_reads _ _ _ _ (given_shaped _ _ _ Hx (proper_succeeds _ _ _ PO Hx) GN) G1 B k s Hk) as (a & Ha & HR). pose proof (run_ops_extends _ _ _ R1) as EX.
      exists a. split; [destruct EX as ([l ->] & _); rewrite nth_error_app1; [exact Ha|apply nth_error_Some; congruence]|]. intros buffer p Hb. eapply ReadAccessor_mono; [exact EX|]. exact (HR buffer p Hb).
    - intros name mime data ->. cbn [run_op] in Hx. apply fst_res_inv in Hx as (r & Hx).
      destruct (C87_stored (fun z => z) d0 name mime (SrcBuffer (Some data)) data d1 r (SrcBuffer (Some data)) eq_refl) as (im & _ & _ & N1 & N2 & _ & _ & _ & _ & _ & _ & ST).
      { unfold WriteImageFrom. cbn [image_data]. rewrite Hx. reflexivity. }
      destruct (ST after d R1) as [N IB]. destruct (C87_read d im data IB (built_in_memory _ d P M R)) as (i & v & E1 & E2 & E3). exists im, (Z.of_nat i). do 4 (split; [assumption|]).
      unfold readBufferView. assert (i < List.length (doc_BufferViews d))%nat by (apply nth_error_Some; congruence). replace (zlen (doc_BufferViews d) <=? Z.of_nat i) with false by (unfold zlen; lia).
      rewrite (ModelerWriteProofs.index_ok _ _ _ E2). exact E3. }
  split; [exact RB|]. intros F X U asBinary prefix indent HF Hp Hi SZ. destruct (built_storable X _ d P M R) as (SD & _).
  intros w fs NF. destruct (storable_survives F X U 2 asBinary prefix indent d HF SD Hp Hi SZ w fs NF) as (w' & fs' & E & K). exists w', fs'. split; [exact E|].
  intros rf r HR HE ES AL. destruct (K rf r HR HE ES AL) as (d2 & D2 & (L & RA & RV & RI)). exists d2. split; [exact D2|]. destruct RB as [B1 B2]. split.
  - intros k s Hk. destruct (B1 k s Hk) as (a & Ha & HA). destruct (RA _ a Ha) as (a2 & Ha2 & RR & _). exists a2. split; [exact Ha2|]. intros buffer p Hb. rewrite RR. exact (HA buffer p Hb).
  - intros name mime data E0. destruct (B2 name mime data E0) as (im & i & N & N1 & N2 & N3 & N4).
    pose proof (f_equal (fun l => nth_error l (List.length (doc_Images d0))) RI) as Q. cbv beta in Q. rewrite !nth_error_map, N in Q. cbn in Q.
    destruct (nth_error (doc_Images d2) (List.length (doc_Images d0))) as [[im2|]|]; cbn in Q; try discriminate. injection Q as Q1 Q2 Q3. exists im2, i. split; [reflexivity|]. split; [congruence|]. split; [congruence|]. split; [congruence|]. rewrite RV. exact N4.
Qed.
Print Assumptions C101_read_partial.
Example C101_read_example : Forall separate saved_ops.
Proof.
  repeat (constructor; [intros H; try (cbn in H; lia)|]); [|constructor]. cbn. repeat constructor; intros [E|E]; discriminate.
Qed.
