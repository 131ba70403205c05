(** Documents that are built with the writers of package modeler and saved: C101. *)
From Verif Require Import Base BaseFacts Types Binary SpecLayout Doc SpecDoc SpecAccessor AccessorProofs SpecImage F64 Base64 Url UrlProofs GoUrl GoUrlProofs SpecText SpecString SpecPath SpecData SpecUrl
  JsonText JsonTextProofs JsonStringProofs ScanSound Codec DocCodec SpecJson SpecJsonDoc CodecProofs CodecInv DocCodecBase DocCodecProofs DocInvBase Marshal SpecMarshal MarshalProofs Stream StreamProofs
  File SpecFile DecodeProofs EncodeProofs PropsUri PropsJson PropsFile PropsRoundTrip SpecSchema SchemaProofs SchemaAccept PropsSchema SpecMeaning MeaningProofs MeaningUnique PropsMeaning ConformProofs PropsConform
  SpecAsset AssetProofs PropsAsset PropsUrl PropsAssetWritten SpecExchange SpecTarget ModelerTargetProofs ModelerRead ModelerWrite ModelerWriteProofs ModelerReadProofs PropsModelerWrite PropsModelerRead Image PropsImage ModelerShapeProofs BinaryProofs PropsTarget
  SpecSaved SavedProofs SavedReads SavedAgain PropsSaved PropsAccessor PropsAccessorFile PropsExchange NewDoc SpecAppend PropsAppend SpecAdded PropsAdded SpecRules PropsRules SpecBuilt.

Lemma shaped_typed op : well_shaped op -> op_typed op.
Proof. destruct op; cbn; try exact (fun H => H). intros H. unfold typed_attrs. rewrite Forall_forall. intros a0 I s E. eapply H; eauto. Qed.

Lemma never_err d op e : op_typed op -> run_op d op <> Err e.
Proof.
  assert (FE : forall {A B} (r : res (A * B)), fst_res r = Err e -> r = Err e).
  { intros A B r. unfold fst_res. destruct r as [[a b]|x|]; cbn; congruence. }
  assert (AC : forall tgt s, typed s -> WriteAccessor d tgt s <> Err e).
  { intros tgt s T H. pose proof (accessor_fate d tgt s T) as F. rewrite H in F. exact F. }
  assert (NO : forall check s, typed s -> write_normalized check d s <> Err e).
  { intros check s T H. unfold write_normalized in H. destruct (check s) as [n|x|]; cbn [check_or_panic bind] in H; try discriminate.
    pose proof (accessor_fate d TargetArrayBuffer s T) as F. destruct (WriteAccessor d TargetArrayBuffer s) as [[d' i]|x|]; cbn [bind] in H; [|contradiction|discriminate].
    destruct F as (_ & a & E & P). destruct (update_ok d' i a (set_acr_Normalized n) E P) as (d2 & E2 & _). rewrite E2 in H. discriminate. }
  intros T H. destruct op; cbn [run_op op_typed op_slices] in *; apply FE in H; try (apply Forall_cons_iff in T; destruct T as [T _]).
  - assert (C : WriteIndices d d0 = WriteAccessor d TargetElementArrayBuffer d0 \/ WriteIndices d d0 = Panic) by (unfold WriteIndices; destruct (sk d0) as [[] []| | | |]; auto).
    destruct C as [C|C]; rewrite C in H; [exact (AC _ _ T H)|discriminate].
  - exact (AC _ _ T H).
  - exact (AC _ _ T H).
  - exact (NO _ _ T H).
  - exact (NO _ _ T H).
  - unfold WriteJoints in H. destruct (checkJoints d0) as [u|x|]; cbn [check_or_panic bind] in H; try discriminate. exact (AC _ _ T H).
  - exact (AC _ _ T H).
  - unfold WritePosition in H. pose proof (accessor_fate d TargetArrayBuffer _ T) as F. destruct (WriteAccessor d TargetArrayBuffer {| sk := SK CFloat AVec3; els := d0 |}) as [[d' i]|x|]; cbn [bind] in H; [|contradiction|discriminate].
    destruct F as (_ & a & E & P). destruct (minMaxFloat32 d0) as [mn mx]. destruct (update_ok d' i a (set_acr_Min mn) E P) as (d2 & E2 & E3). rewrite E2 in H. cbn [bind] in H.
    destruct (update_ok d2 i _ (set_acr_Max mx) E3 P) as (d3 & E4 & _). rewrite E4 in H. discriminate.
  - exact (NO _ _ T H).
  - unfold WriteImage in H. destruct r as [data|x|]; try discriminate.
    assert (TY : typed {| sk := SK CUbyte AScalar; els := map (fun b => [b2z b]) data |}).
    { intros c t [= <- <-]. apply Forall_forall. intros v I. cbn [els] in I. apply in_map_iff in I. destruct I as (x & <- & _). split; [reflexivity|]. constructor; [|constructor]. pose proof (b2z_range x). cbn. lia. }
    pose proof (view_fate d TargetNone _ TY) as F. destruct (WriteBufferView d TargetNone _) as [[d' i]|x|]; cbn [bind] in H; [discriminate|contradiction|discriminate].
  - exact (AC _ _ T H).
  - pose proof (interleaved_fate d d0 T) as F. rewrite H in F. exact F.
  - pose proof (attributes_fate d a T) as F. rewrite H in F. exact F.
  - pose proof (view_fate d target d0 T) as F. rewrite H in F. exact F.
  - unfold WriteBufferViewInterleaved in H. pose proof (append_fate d TargetArrayBuffer d0 T) as F. rewrite H in F. exact F.
Qed.

Lemma proper_no_crash d op : proper op -> ~ last_nil d -> last_bytes d + op_cost op <= 2 ^ 48 -> ~ op_crashes d op.
Proof.
  intros (A & OT & _ & (_ & SD & _) & _) NL SZ.
  assert (AG := accepted_agree op A). pose proof (total_nonneg (op_slices op)) as T0. pose proof (pad_range (op_aligned op) d) as PR. rewrite <- last_bytes_buffer in PR. unfold op_cost in SZ.
  assert (NC : ~ append_crashes (op_aligned op) d (op_slices op)).
  { intros [O|[[_ [O|O]]|[_ [O|[_ O]]]]].
    - exact (other_type_not _ O AG).
    - exact (NL O).
    - unfold beyond in O. lia.
    - unfold beyond in O. lia.
    - destruct SD as (s & E & NE). destruct (op_slices op) as [|x l]; [discriminate|]. injection E as ->. apply Forall_cons_iff in O as [O _]. exact (NE O). }
  destruct op; cbn [op_crashes]; try (intros [N|C]; [exact (N OT)|exact (NC C)]).
  - destruct r as [data|e|]; cbn [accepted] in A; try contradiction. intros [N|C]; [exact (N OT)|exact (NC C)].
  - destruct A as [F _]. intros [O|[_ C]]; [|exact (NC C)]. exact (first_not_all unsliced a unsliced_not O F).
Qed.

Lemma op_runs d op : proper op -> ~ last_nil d -> last_bytes d + op_cost op <= 2 ^ 48 ->
  exists d', run_op d op = Ok d' /\ ~ last_nil d' /\ last_bytes d' <= last_bytes d + op_cost op.
Proof.
  intros P NL SZ. assert (T : op_typed op) by (apply shaped_typed; apply P). pose proof (proper_no_crash d op P NL SZ) as NC.
  destruct (run_op d op) as [d'|e|] eqn:E; [|destruct (never_err d op e T E)|destruct NC; apply (C98_panics_iff d op T); exact E].
  exists d'. split; [reflexivity|]. destruct (C99_added d op d' (proj1 P) E) as (new & accs & LN & _ & ->). split.
  - intros [l H]. cbn [added doc_Buffers] in H. apply app_inj_tail in H as [_ H]. discriminate.
  - pose proof (pad_range (op_aligned op) d) as PR. rewrite (last_bytes_buffer (added d op new accs)). rewrite (last_bytes_buffer d).
    assert (LB : last_buffer (added d op new accs) = longer (last_buffer d) (start (op_aligned op) d) new).
    { unfold last_buffer at 1, added. cbn [doc_Buffers]. rewrite rev_app_distr. reflexivity. }
    rewrite LB. unfold longer. cbn [buf_Data]. unfold op_cost. rewrite !zlen_app. fold (zeros (Z.to_nat (start (op_aligned op) d - zlen (buf_Data (last_buffer d))))). rewrite (zlen_zeros (start (op_aligned op) d - zlen (buf_Data (last_buffer d)))) by lia. lia.
Qed.

(** ** The calls of a program that follows the rules go through *)
Lemma ops_run ops : forall d, Forall proper ops -> ~ last_nil d -> last_bytes d + cost ops <= 2 ^ 48 -> exists d', run_ops d ops = Ok d'.
Proof.
  induction ops as [|op ops IH]; intros d F NL SZ; cbn [run_ops cost] in *; [eauto|]. apply Forall_cons_iff in F as [P F]. pose proof (cost_nonneg ops).
  destruct (op_runs d op P NL ltac:(lia)) as (d' & -> & NL' & B). cbn [bind]. apply IH; [exact F|exact NL'|lia].
Qed.
Theorem C101_runs ops : Forall proper ops -> fits_memory ops -> exists d, run_ops NewDocument ops = Ok d.
Proof. intros F M. apply ops_run; [exact F| |exact M]. intros [l H]. cbn in H. destruct l; discriminate. Qed.
Print Assumptions C101_runs.

Lemma slices_total data : agree data -> some_data data -> zlen data <= total_bytes data.
Proof.
  intros [S _] (s & E & NE). destruct data as [|x l]; [discriminate|]. injection E as ->. cbn [total_bytes].
  assert (L : forall l, Forall supported l -> (List.length l <= sum_sizes l)%nat).
  { clear. induction l as [|x l IH]; intros F; cbn [List.length]; [lia|]. apply Forall_cons_iff in F as [X F]. rewrite sum_cons. pose proof (elem_bytes_pos x X). specialize (IH F). lia. }
  specialize (L _ S). unfold zlen at 1. assert (1 <= zlen (els s)) by (destruct (els s); [congruence|unfold zlen; cbn [List.length]; lia]). nia.
Qed.
Lemma entries_bound op : zlen (op_entries op) <= zlen (op_slices op).
Proof. destruct (entries_of op) as [->|[<- _]]; [apply zlen_nonneg|]. unfold zlen. rewrite map_length. lia. Qed.

Definition counted (n : Z) (d : Document) : Prop :=
  zlen (doc_Accessors d) <= n /\ zlen (doc_BufferViews d) <= n /\ zlen (doc_Images d) <= n /\
  Forall (opt (fun v => bvw_ByteStride v < 2 ^ 63)) (doc_BufferViews d) /\
  forall pre b, doc_Buffers d = pre ++ [Some b] -> buf_Data b <> [].
Lemma op_counted n d op d' : counted n d -> accepted op -> lawful op -> run_op d op = Ok d' -> counted (n + op_cost op) d'.
Proof.
  intros (CA & CV & CI & CS & CD) A L H. pose proof (C100_rules d op d' A H) as (v & accs & EV & EA & EQ). destruct (proj2 EQ L) as [(_ & _ & _ & VS & _) _].
  destruct (C99_added d op d' A H) as (new & accs' & LN & (DL & _) & ->). pose proof (accepted_agree op A) as AG. destruct L as (_ & SD & _).
  pose proof (slices_total _ AG SD) as ST. pose proof (entries_bound op) as EB. pose proof (total_nonneg (op_slices op)). apply (data_total _ AG) in SD.
  cbn [added doc_BufferViews] in EV. apply app_inj_tail in EV as [_ EV]. unfold op_cost, counted. cbn [added doc_Accessors doc_BufferViews doc_Images doc_Buffers].
  refine (conj _ (conj _ (conj _ (conj _ _)))).
  - rewrite zlen_app. unfold zlen at 2. rewrite map_length, DL. fold (zlen (op_entries op)). lia.
  - rewrite zlen_app. change (zlen [Some (new_view d op)]) with 1. lia.
  - rewrite zlen_app. assert (zlen (new_images d op) <= 1) by (destruct op; cbn; lia). lia.
  - apply Forall_app. split; [exact CS|]. constructor; [|constructor]. rewrite EV. cbn. destruct VS as [->|[VS _]]; lia.
  - intros pre b E. apply app_inj_tail in E as [_ E]. injection E as <-. unfold longer. cbn [buf_Data]. intros E. apply app_eq_nil in E as [_ E]. apply app_eq_nil in E as [_ ->]. change (zlen (@nil byte)) with 0 in LN. lia.
Qed.
Lemma ops_counted ops : forall n d d', counted n d -> Forall (fun op => accepted op /\ lawful op) ops -> run_ops d ops = Ok d' -> counted (n + cost ops) d'.
Proof.
  induction ops as [|op ops IH]; intros n d d' C F H; cbn [run_ops cost] in *; [injection H as <-; rewrite Z.add_0_r; exact C|].
  apply Forall_cons_iff in F as [[A L] F]. inv_ok H. rewrite Z.add_assoc. exact (IH _ _ _ (op_counted n d op x C A L Hx) F H).
Qed.
Lemma new_sole : sole NewDocument. Proof. left. reflexivity. Qed.
Lemma new_ready : ready NewDocument.
Proof. unfold ready, NewDocument. cbn. repeat split; try constructor; cbn; try constructor; unfold index; lia. Qed.

(** What the theorems about saving ask of a document. *)
Lemma built_storable X ops d : Forall proper ops -> fits_memory ops -> run_ops NewDocument ops = Ok d ->
  storable_doc X 2 d /\ ready d /\ places (doc_Buffers d) [].
Proof.
  intros F M R. unfold fits_memory in M. assert (F2 : Forall (fun op => accepted op /\ lawful op) ops) by (revert F; apply Forall_impl; unfold proper; tauto).
  assert (F3 : Forall plain_op ops) by (revert F; apply Forall_impl; unfold proper; tauto). pose proof (cost_nonneg ops).
  assert (C0 : counted 0 NewDocument). { unfold counted. cbn. repeat split; try lia; [constructor|]. intros pre b E. destruct pre; discriminate. }
  destruct (ops_counted ops 0 NewDocument d C0 F2 R) as (CA & CV & CI & CS & CD). rewrite Z.add_0_l in *.
  destruct (new_storable X) as (N1 & N2 & N3). pose proof (run_ops_sole _ _ _ new_sole R) as S. pose proof (run_ops_consistent _ _ _ N2 R) as CO.
  assert (B : zlen (doc_Buffers d) <= 1) by (destruct S as [->|(b & -> & _)]; cbn; lia).
  refine (conj _ (conj _ _)).
  - apply (C68_storable X 2 NewDocument ops d N1 N2 N3 R F3); [|exact CD]. unfold go_sized. refine (conj _ (conj _ (conj _ (conj _ CS)))); lia.
  - apply (C100_ready ops NewDocument d new_ready F2); [|exact R]. change (buf_ByteLength (last_buffer NewDocument)) with 0. lia.
  - destruct S as [E|(b & E & U)]; rewrite E in *; [constructor|]. apply pl_inside; [|exact (CD [] b eq_refl)|left; exact U|constructor].
    destruct CO as (VB & _). rewrite E in VB. apply Forall_cons_iff in VB as [(b0 & Eb & V) _]. assert (b = b0) as -> by congruence. exact V.
Qed.

(** ** C101: what is built is saved, by the rules, and others read the data *)
Theorem C101_built ops : Forall proper ops -> fits_memory ops ->
  exists d, run_ops NewDocument ops = Ok d /\
  forall F X asBinary prefix indent w fs, float_contract F -> ws prefix -> ws indent -> no_failures w fs -> small_glb F X asBinary prefix indent d ->
  exists w' fs' d', Encode F X go_url asBinary prefix indent d w (Some fs) = (Ok tt, w', Some fs') /\
    cf_files fs' = cf_files fs /\
    asset F X numeral (fun _ _ => False) (file_reader (cf_files fs')) (wr_out w') [] d' /\ carries d d'.
Proof.
  intros P M. destruct (C101_runs ops P M) as (d & R). exists d. split; [exact R|]. intros F X asBinary prefix indent w fs HF Hp Hi NF SZ.
  destruct (built_storable X ops d P M R) as (SD & RD & PL). destruct SD as (W & D & PB & PI).
  destruct (C93_written_partial F X 2 asBinary prefix indent d w fs [] HF W D RD Hp Hi NF PL (NoDup_nil _) SZ) as (w' & fs' & d' & E & A & C).
  exists w', fs', d'. split; [exact E|]. split; [|split; [exact A|exact C]].
  destruct (round_trip F X go_url 2 asBinary prefix indent d w fs HF (conj W (conj D (conj PB PI))) Hp Hi NF SZ) as (text & w2 & fs2 & _ & E2 & FS & _).
  rewrite E in E2. assert (fs' = fs2) by congruence. subst fs2. rewrite FS. pose proof (run_ops_sole _ _ _ new_sole R) as S.
  destruct S as [Eb|(b & Eb & U)]; rewrite Eb; cbn; [reflexivity|]. assert (is_file b = false) as -> by (unfold is_file; rewrite U; reflexivity). reflexivity.
Qed.
Print Assumptions C101_built.

Lemma run_app l : forall d m d', run_ops d (l ++ m) = Ok d' -> exists d1, run_ops d l = Ok d1 /\ run_ops d1 m = Ok d'.
Proof.
  induction l as [|op l IH]; intros d m d' H; cbn [run_ops app] in *; [eauto|]. inv_ok H. destruct (IH _ _ _ H) as (d1 & E & H2). exists d1. rewrite Hx. cbn [bind]. auto.
Qed.
Lemma proper_succeeds d op d' : proper op -> run_op d op = Ok d' -> succeeds d op.
Proof.
  intros (A & _ & WS & _) H. apply shaped_typed in WS. destruct op; cbn [succeeds run_op op_typed op_slices] in *; try exact I; apply fst_res_inv in H as (r & H); exists d'.
  - pose proof (interleaved_fate d d0 WS) as F. rewrite H in F. destruct r as [r|e|]; [eauto| |contradiction]. destruct F as [F _]. destruct (other_length_not _ F A).
  - pose proof (attributes_fate d a WS) as F. rewrite H in F. destruct r as [r|e|]; [eauto| |contradiction]. destruct A as [FI AG]. destruct F as [[[F _]|[_ F]] _]; [destruct (first_not_all refused a refused_not F FI)|destruct (other_length_not _ F AG)].
Qed.
Lemma given_slices op : given op = [] \/ given op = op_slices op.
Proof. destruct op; auto. Qed.
Lemma given_facts op : proper op -> Forall wf_slice (given op) /\ Forall (fun s => els s <> []) (given op).
Proof.
  intros (A & _ & WS & (_ & SD & _) & _). pose proof (accepted_agree op A) as AG. apply shaped_typed in WS. destruct (given_slices op) as [->|E]; [split; constructor|]. rewrite E.
  assert (TY : Forall typed (op_slices op)).
  { destruct op; cbn [op_typed op_slices] in *; try exact WS; [cbn in E; destruct r; cbn in E; try discriminate; constructor|]. exact (typed_slices _ WS). }
  destruct SD as (s & HS & NE). destruct AG as [SU SL]. rewrite Forall_forall in SU, TY. split; apply Forall_forall; intros x I.
  - destruct (SU x I) as (c & t & K). exists c, t. split; [exact K|]. exact (TY x I c t K).
  - intros N. assert (In s (op_slices op)) by (destruct (op_slices op); [discriminate|injection HS as ->; left; reflexivity]). specialize (SL s x H I). rewrite N in SL. destruct (els s); [congruence|discriminate].
Qed.

Lemma divide_mod n m : (Z.of_nat m | Z.of_nat n) -> m <> 0%nat -> (n mod m = 0)%nat.
Proof. intros D N. apply Nat2Z.inj. rewrite Nat2Z.inj_mod. apply Z.mod_divide in D; lia. Qed.
Lemma given_entries op : given op <> [] -> op_entries op <> [].
Proof.
  intros G E. assert (M : map e_slice (op_entries op) = given op).
  { destruct op; cbn [op_entries given op_slices] in *; try reflexivity; try (exfalso; exact (G eq_refl)); [rewrite map_map; cbn; apply map_id|]. rewrite entries_slices. symmetry. apply kept_named. }
  rewrite E in M. apply G. symmetry. exact M.
Qed.
Lemma writable_nil tgt : writable tgt [].
Proof. split; [reflexivity|]. split; [cbn; lia|]. split; [constructor|]. intros [|k] s c t N; discriminate. Qed.
Lemma faithful_writable op : proper op -> faithful op -> writable (op_target op) (given op).
Proof.
  intros (_ & _ & _ & (_ & _ & RF & RA) & _) FA. pose proof (given_entries op) as GE. destruct (given_slices op) as [E|E]; [rewrite E; apply writable_nil|]. rewrite E in *.
  unfold faithful in FA. destruct (op_slices op) as [|s0 [|s1 l]] eqn:ES; [apply writable_nil|exact FA|]. specialize (RA (GE ltac:(discriminate))).
  destruct RF as [RF|[R1 R2]]; [cbn in RF; lia|]. destruct FA as [F1 F2]. refine (conj _ (conj _ (conj F1 _))); [apply divide_mod; [exact R2|lia]|lia|].
  intros k s c t N K. apply nth_error_split in N as (before & after & EQ & LK). assert (FK : firstn k (s0 :: s1 :: l) = before) by (rewrite EQ, <- LK, firstn_app, Nat.sub_diag, firstn_O, firstn_all, app_nil_r; reflexivity). rewrite FK.
  destruct (Nat.eqb_spec (columns t) 1) as [C|C]; apply divide_mod; [exact (RA _ _ _ _ _ EQ K)| |exact (F2 _ _ _ _ _ EQ K C)|lia].
  destruct (kind_ct_valid _ _ _ K) as [V _]. destruct c; discriminate.
Qed.

(** Every slice of every call, and every image, is in any reading of the file by
    the rules of glTF, at the index the call returned. *)
Theorem C101_data_partial before op after : Forall proper (before ++ op :: after) -> fits_memory (before ++ op :: after) -> faithful op ->
  exists d0 d, run_ops NewDocument before = Ok d0 /\ run_ops NewDocument (before ++ op :: after) = Ok d /\
  forall F X asBinary prefix indent w fs, float_contract F -> ws prefix -> ws indent -> no_failures w fs -> small_glb F X asBinary prefix indent d ->
  exists w' fs', Encode F X go_url asBinary prefix indent d w (Some fs) = (Ok tt, w', Some fs') /\
    forall num other names d', asset F X num other (file_reader (cf_files fs')) (wr_out w') names d' ->
    names = [] /\
    (forall k s, nth_error (given op) k = Some s ->
     exists a, nth_error (doc_Accessors d') (List.length (doc_Accessors d0) + k) = Some (Some a) /\
       kind_ct (sk s) = Some (acr_ComponentType a, acr_Type a) /\ gltf_elements d' a (els s)) /\
    (forall name mime data, op = OpImage name mime (Ok data) ->
     exists im, nth_error (doc_Images d') (List.length (doc_Images d0)) = Some (Some im) /\ image_bytes d' im data).
Proof.
  intros P M WR. destruct (C101_built _ P M) as (d & R & B). destruct (run_app _ _ _ _ R) as (d0 & R0 & R1). exists d0, d. split; [exact R0|]. split; [exact R|].
  intros F X asBinary prefix indent w fs HF Hp Hi NF SZ. destruct (B F X asBinary prefix indent w fs HF Hp Hi NF SZ) as (w' & fs' & dd & E & _ & A & CA).
  exists w', fs'. split; [exact E|]. intros num other names d' A'. destruct (C93_determined _ _ _ _ _ _ _ _ _ _ _ _ A A') as [<- <-]. split; [reflexivity|].
  assert (PO : proper op) by (rewrite Forall_app in P; destruct P as [_ P]; apply Forall_cons_iff in P; apply P).
  cbn [run_ops] in R1. inv_ok R1. rename x into d1. destruct (given_facts op PO) as [G1 G2]. split.
  - intros k s Hk. assert (WR' : writable (ModelerTargetProofs.op_target op) (given op)) by (pose proof (faithful_writable op PO WR) as Q; destruct op; exact Q).
    destruct (C86_written_partial d0 op d1 after d Hx (proper_succeeds _ _ _ PO Hx) R1 G1 G2 WR' k s Hk) as (a & Ha & K & G & _).
    destruct (proj1 CA _ a (els s) Ha G) as (a2 & Ha2 & G2' & K1 & K2 & _). exists a2. split; [exact Ha2|]. split; [rewrite K1, K2; exact K|exact G2'].
  - intros name mime data ->. cbn [run_op] in Hx. apply fst_res_inv in Hx as (r & Hx).
    destruct (C87_stored (fun z => z) d0 name mime (SrcBuffer (Some data)) data d1 r (SrcBuffer (Some data)) eq_refl) as (im & _ & _ & _ & _ & _ & _ & _ & _ & _ & _ & ST).
    { unfold WriteImageFrom. cbn [image_data]. rewrite Hx. reflexivity. }
    destruct (ST after d R1) as [N IB]. exact (proj2 CA _ im data N IB).
Qed.
Print Assumptions C101_data_partial.

(** ** Calls that follow the rules and store other data *)
(** Elements that are padded in a view without stride, and several []uint8 in one
    view: the accessors of the file have other elements. *)
Definition u8_slices : list slice := map (fun l => mkSlice (SK CUbyte AScalar) l) [[[1]; [2]]; [[3]; [4]]; [[5]; [6]]; [[7]; [8]]].
Definition lost (op : wop) (given_data stored : list elem) : Prop :=
  proper op /\ fits_memory [op] /\ (exists s, hd_error (given op) = Some s /\ els s = given_data) /\ stored <> given_data /\
  exists d, run_ops NewDocument [op] = Ok d /\
  forall F X asBinary prefix indent w fs, float_contract F -> ws prefix -> ws indent -> no_failures w fs -> small_glb F X asBinary prefix indent d ->
  exists w' fs' d' a, Encode F X go_url asBinary prefix indent d w (Some fs) = (Ok tt, w', Some fs') /\
    asset F X numeral (fun _ _ => False) (file_reader (cf_files fs')) (wr_out w') [] d' /\
    nth_error (doc_Accessors d') 0 = Some (Some a) /\ gltf_elements d' a stored.
Lemma lost_by op s vs : proper op -> fits_memory [op] -> hd_error (given op) = Some s -> vs <> els s ->
  (exists d a, run_ops NewDocument [op] = Ok d /\ nth_error (doc_Accessors d) 0 = Some (Some a) /\ gltf_elements d a vs) -> lost op (els s) vs.
Proof.
  intros P M HS NE (d & a & R & Ha & G). split; [exact P|]. split; [exact M|]. split; [eauto|]. split; [exact NE|].
  destruct (C101_built [op] (Forall_cons _ P (Forall_nil _)) M) as (d2 & R2 & B). assert (d2 = d) as -> by congruence. exists d. split; [exact R|].
  intros F X asBinary prefix indent w fs HF Hp Hi NF SZ. destruct (B F X asBinary prefix indent w fs HF Hp Hi NF SZ) as (w' & fs' & d' & E & _ & A & CA).
  destruct (proj1 CA 0%nat a vs Ha G) as (a2 & Ha2 & G2 & _). exists w', fs', d', a2. auto.
Qed.
Lemma agree_two l : Forall (fun s => kind_ct (sk s) <> None /\ List.length (els s) = 2%nat) l -> agree l.
Proof.
  intros F. rewrite Forall_forall in F. split; [apply Forall_forall; intros s I; destruct (F s I) as [H _]; unfold supported; destruct (kind_ct (sk s)) as [[c t]|]; [eauto|congruence]|].
  intros x y I J. destruct (F x I) as [_ ->], (F y J) as [_ ->]. reflexivity.
Qed.
Ltac small_typed := repeat first [apply Forall_nil | apply Forall_cons]; intros c t K; cbn in K; injection K as <- <-; repeat first [apply Forall_nil | apply Forall_cons | split; [reflexivity|] | lia]; cbn; lia.
Ltac stored_at l := split; [reflexivity|]; split; [reflexivity|]; exists 2%nat; eexists; split; [reflexivity|]; split; [lia|]; split; [|reflexivity];
  exists 0%nat, 0%nat; split; [reflexivity|]; split; [reflexivity|];
  eexists; exists 0%nat; eexists; exists 0%nat, 8%nat, l; split; [reflexivity|]; split; [reflexivity|]; split; [reflexivity|];
  do 3 (split; [reflexivity|]); split; [vm_compute; lia|].
Theorem C101_data_refuted :
  lost (OpAccessor 0 s_rgb) [[1; 2; 3]; [4; 5; 6]] [[1; 2; 3]; [0; 4; 5]] /\
  lost (OpInterleaved u8_slices) [[1]; [2]] [[1]; [8]].
Proof.
  split.
  - apply (lost_by (OpAccessor 0 s_rgb) s_rgb); [|vm_compute; discriminate|reflexivity|discriminate|].
    + split; [apply agree_two; repeat constructor; discriminate|]. split; [exact I|]. split; [cbn; small_typed|]. split; [|cbn; lia].
      split; [cbn; auto|]. split; [exists s_rgb; split; [reflexivity|discriminate]|]. split; [left; cbn; lia|]. intros _ before s after c t E K. destruct before as [|x [|y l]]; cbn [app] in E; try discriminate. exists 0. reflexivity.
    + eexists. eexists. split; [vm_compute; reflexivity|]. split; [reflexivity|]. stored_at 0%nat. split; [left; reflexivity|]. split; [reflexivity|]. split; [reflexivity|].
      split; [intros E; exfalso; apply E; reflexivity|]. split; [lia|]. split; [vm_compute; lia|]. vm_compute. reflexivity.
  - apply (lost_by (OpInterleaved u8_slices) (mkSlice (SK CUbyte AScalar) [[1]; [2]])); [|vm_compute; discriminate|reflexivity|discriminate|].
    + split; [apply agree_two; repeat constructor; discriminate|]. split; [exact I|]. split; [cbn; small_typed|]. split; [|exact I].
      split; [cbn; auto|]. split; [eexists; split; [reflexivity|discriminate]|]. split; [right; split; [vm_compute; discriminate|exists 1; reflexivity]|].
      intros _ before s after c t E K. assert (S : In s u8_slices) by (cbn [op_slices] in E; rewrite E; apply in_elt). assert (c = CUbyte) as -> by (destruct S as [<-|[<-|[<-|[<-|[]]]]]; cbn in K; congruence). apply Z.divide_1_l.
    + eexists. eexists. split; [vm_compute; reflexivity|]. split; [reflexivity|]. stored_at 4%nat. split; [right; vm_compute; repeat split; lia|]. split; [reflexivity|]. split; [reflexivity|].
      split; [intros E; exfalso; apply E; reflexivity|]. split; [lia|]. split; [vm_compute; lia|]. vm_compute. reflexivity.
Qed.
Print Assumptions C101_data_refuted.

(** Positions, an image, bytes, and attributes of a primitive: all of them proper
    and faithful. *)
Lemma one_lawful op s : op_slices op = [s] -> els s <> [] -> In (op_target op) [0; 34962; 34963] -> lawful op.
Proof.
  intros E N T. split; [exact T|]. rewrite E. split; [exists s; auto|]. split; [left; cbn; lia|]. intros _ before x after c t EQ _. destruct before as [|y [|z l]]; cbn [app] in EQ; try discriminate. exists 0. reflexivity.
Qed.
Example C101_example : Forall (fun op => proper op /\ faithful op) saved_ops /\ fits_memory saved_ops.
Proof.
  split; [|vm_compute; discriminate]. pose proof saved_plain as PL. unfold saved_ops in *. repeat (apply Forall_cons_iff in PL as [?P PL]). clear PL.
  constructor; [|constructor; [|constructor; [|constructor; [|constructor]]]].
  - split; [|intros c t K; right; reflexivity]. split; [apply agree_two; repeat constructor; discriminate|]. split; [exact I|]. split; [cbn; small_typed|]. split; [|assumption]. eapply one_lawful; [reflexivity|discriminate|cbn; auto].
  - split; [|intros c t K; cbn in K; injection K as <- <-; left; reflexivity]. split; [exact I|]. split; [exact I|]. split; [exact I|]. split; [|assumption]. eapply one_lawful; [reflexivity|discriminate|cbn; auto].
  - split; [|intros c t K; right; reflexivity]. split; [apply agree_two; repeat constructor; discriminate|]. split; [exact I|]. split; [cbn; small_typed|]. split; [|assumption]. eapply one_lawful; [reflexivity|discriminate|cbn; auto].
  - split.
    + split; [split; [|apply agree_two; repeat constructor; discriminate]|].
      * repeat (constructor; [split; [intros (s & E & K); cbn in E; try discriminate; injection E as <-; discriminate|intros (s & E & _ & _ & K); cbn in E; try discriminate; injection E as <-; apply K; unfold attr_permitted; cbn; intuition discriminate]|]). constructor.
      * split; [exact I|]. split.
        { intros a s [<-|[<-|[<-|[]]]] E; cbn in E; try discriminate; injection E as <-; [|]; small_typed. }
        split; [|assumption]. split; [cbn; auto|]. split; [eexists; split; [reflexivity|discriminate]|]. split; [right; split; [vm_compute; discriminate|exists 4; reflexivity]|].
        intros _ before s after c t E K. destruct before as [|x [|y l]]; cbn in E; [exists 0; reflexivity| |destruct l; discriminate]. injection E as <- <- _. cbn in K. injection K as <- <-. exists 12. reflexivity.
    + split; [repeat constructor; discriminate|]. intros before s after c t E K C. exfalso. apply C. destruct before as [|x [|y l]]; cbn in E; [injection E as <- _|injection E as _ <- _|destruct l; discriminate]; cbn in K; injection K as <- <-; reflexivity.
Qed.
