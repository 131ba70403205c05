(** Proofs about documents written with the modeler and then saved: they stay
    storable, and reading sees only data, views and formats. *)
From Verif Require Import Base BaseFacts Types Binary SpecLayout BinaryProofs SliceProofs Doc F64 F64Facts SpecText SpecData JsonText Codec SpecJson SpecJsonDoc
  CodecProofs DocCodecBase DocInvBase SpecMarshal SpecFile SpecDoc SpecSaved ModelerWrite ModelerRead ModelerWriteProofs ModelerReadProofs
  ModelerLayoutProofs ModelerShapeProofs ModelerAttrProofs.

(** ** Storable parts *)
Section Storable.
Context (X : ext_lib) (n : nat).

Definition acr_part (a : Accessor) : Prop :=
  wf_ext X n (acr_Extensions a) /\ wf_any n (acr_Extras a) /\ utf8_str (acr_Name a) /\
  Forall float_ok (acr_Max a) /\ Forall float_ok (acr_Min a).
Definition view_part (v : BufferView) : Prop :=
  wf_ext X n (bvw_Extensions v) /\ wf_any n (bvw_Extras v) /\ range 65536 (bvw_Target v) /\ utf8_str (bvw_Name v).
Definition img_part (im : Image) : Prop :=
  wf_ext X n (img_Extensions im) /\ wf_any n (img_Extras im) /\ utf8_str (img_Name im) /\ utf8_str (img_URI im) /\
  utf8_str (img_MimeType im).
Definition open_buffer (b : Buffer) : Prop :=
  wf_ext X n (buf_Extensions b) /\ wf_any n (buf_Extras b) /\ utf8_str (buf_Name b) /\ utf8_str (buf_URI b) /\
  (buf_URI b = ""%string \/ plain_uri (buf_URI b)) /\ zlen (buf_Data b) < 2 ^ 63.
Definition bufs_ok (l : list (option Buffer)) : Prop :=
  l = [] \/ exists pre b, l = pre ++ [Some b] /\ Forall plain_buffer pre /\ Forall (opt (wf_Buffer X n)) pre /\ open_buffer b.
Definition parts (d : Document) : Prop :=
  Forall (opt acr_part) (doc_Accessors d) /\ Forall (opt view_part) (doc_BufferViews d) /\
  Forall (opt img_part) (doc_Images d) /\ Forall plain_image (doc_Images d) /\ bufs_ok (doc_Buffers d).

Lemma open_zero : open_buffer zero_Buffer.
Proof.
  unfold open_buffer. cbn. split; [apply wf_ext_nil|]. split; [apply wa_null|]. split; [exact utf8_nil|]. split; [exact utf8_nil|].
  split; [left; reflexivity|]. reflexivity.
Qed.
Lemma bufs_last d pre b : bufs_ok (doc_Buffers d) -> last_buffer_is d pre b ->
  Forall plain_buffer pre /\ Forall (opt (wf_Buffer X n)) pre /\ open_buffer b.
Proof.
  intros H [E|(E & -> & ->)].
  - destruct H as [H|(pre' & b' & H & P)]; [rewrite H in E; destruct pre; discriminate|]. rewrite H in E. apply app_inj_tail in E as [-> E]. injection E as ->. exact P.
  - split; [constructor|]. split; [constructor|]. exact open_zero.
Qed.
Lemma open_data b data len : open_buffer b -> zlen data <= max_alloc -> open_buffer (set_buf_ByteLength len (set_buf_Data data b)).
Proof. intros (H1 & H2 & H3 & H4 & H5 & _) L. unfold open_buffer. cbn. repeat (split; [assumption|]). unfold max_alloc in L. lia. Qed.
Lemma ensurePadding_parts d d' : parts d -> ensurePadding d = Ok d' -> parts d'.
Proof.
  intros (A & V & I & PI & B) H. apply ensurePadding_inv in H as (pre & b & b' & pad & Hl & -> & _ & -> & _ & L).
  destruct (bufs_last d pre b B Hl) as (P1 & P2 & P3). unfold parts. cbn. repeat (split; [assumption|]).
  right. do 2 eexists. split; [reflexivity|]. split; [exact P1|]. split; [exact P2|]. apply open_data; [exact P3|exact L].
Qed.
Lemma writeBufferViews_parts d t data d' r : parts d -> 0 <= t < 65536 -> writeBufferViews d t data = Ok (d', r) -> parts d'.
Proof.
  intros P T H. apply writeBufferViews_inv in H as [(e & _ & -> & _)|(pre & b & stride & size & written & b' & _ & _ & Hl & _ & L & _ & E & _ & -> & ->)]; [exact P|].
  destruct P as (A & V & I & PI & B). destruct (bufs_last d pre b B Hl) as (P1 & P2 & P3). unfold parts. cbn [doc_Accessors doc_BufferViews doc_Images doc_Buffers set_doc_BufferViews set_doc_Buffers].
  split; [exact A|]. split.
  { apply Forall_app. split; [exact V|]. constructor; [|constructor]. unfold view_part, mk_view. cbn. split; [apply wf_ext_nil|]. split; [apply wa_null|].
    split; [exact T|exact utf8_nil]. }
  split; [exact I|]. split; [exact PI|]. right. do 2 eexists. split; [reflexivity|]. split; [exact P1|]. split; [exact P2|].
  destruct P3 as (H1 & H2 & H3 & H4 & H5 & _). unfold open_buffer. cbn. repeat (split; [assumption|]). unfold max_alloc in L. lia.
Qed.
Lemma add_parts d a : parts d -> acr_part a -> parts (add_accessor d a).
Proof.
  intros (A & V & I & PI & B) Ha. unfold parts, add_accessor. cbn. split; [apply Forall_app; split; [exact A|constructor; [exact Ha|constructor]]|].
  repeat (split; [assumption|]). exact B.
Qed.
Lemma new_part bv off c t k : acr_part (new_accessor bv off c t k).
Proof.
  unfold acr_part, new_accessor. cbn. split; [apply wf_ext_nil|]. split; [apply wa_null|]. split; [exact utf8_nil|]. split; constructor.
Qed.
Lemma Forall_set_nth {A} (P : A -> Prop) k x l : Forall P l -> P x -> Forall P (set_nth k x l).
Proof. intros H Hx. revert k. induction H as [|y l Hy H IH]; intros [|k]; cbn; constructor; auto. Qed.
Lemma update_parts d i f d' : parts d -> update_accessor d i f = Ok d' -> (forall a, acr_part a -> acr_part (f a)) -> parts d'.
Proof.
  intros (A & V & I & PI & B) H Hf. apply update_accessor_inv in H as (k & a & _ & E & ->). unfold parts. cbn.
  split; [|repeat (split; [assumption|]); exact B]. apply Forall_set_nth; [exact A|]. cbn. apply Hf.
  rewrite Forall_forall in A. exact (A _ (nth_error_In _ _ E)).
Qed.
Lemma norm_part b a : acr_part a -> acr_part (set_acr_Normalized b a).
Proof. intros H. exact H. Qed.
Lemma min_part l a : Forall float_ok l -> acr_part a -> acr_part (set_acr_Min l a).
Proof. intros L (H1 & H2 & H3 & H4 & H5). unfold acr_part. cbn. repeat (split; [assumption|]). exact L. Qed.
Lemma max_part l a : Forall float_ok l -> acr_part a -> acr_part (set_acr_Max l a).
Proof. intros L (H1 & H2 & H3 & H4 & H5). unfold acr_part. cbn. repeat (split; [assumption|]). exact H5. Qed.

Lemma WriteBufferView_parts d t data d' i : parts d -> 0 <= t < 65536 -> WriteBufferView d t data = Ok (d', i) -> parts d'.
Proof.
  intros P T H. unfold WriteBufferView in H. inv_ok H. destruct x as [d1 r]. pose proof (writeBufferViews_parts _ _ _ _ _ P T Hx) as P1.
  destruct r; [| |discriminate]; injection H as <- _; exact P1.
Qed.
Lemma WriteAccessor_parts d t data d' i : parts d -> 0 <= t < 65536 -> WriteAccessor d t data = Ok (d', i) -> parts d'.
Proof.
  intros P T H. unfold WriteAccessor in H. inv_ok H. pose proof (ensurePadding_parts _ _ P Hx) as P1.
  inv_ok H. destruct x0 as [d1 vi]. pose proof (WriteBufferView_parts _ _ _ _ _ P1 T Hx0) as P2.
  inv_ok H. destruct x0 as [[c a] l]. injection H as <- _. apply add_parts; [exact P2|apply new_part].
Qed.
Lemma accessors_loop_parts data : forall d bv off d' l, parts d -> accessors_loop d bv off data = Ok (d', l) -> parts d'.
Proof.
  induction data as [|s data IH]; intros d bv off d' l P H; cbn [accessors_loop] in H; [injection H as <- _; exact P|].
  inv_ok H. destruct x as [[c t] k]. inv_ok H. destruct x as [d1 rest]. injection H as <- _. eapply IH; [|exact Hx0]. apply add_parts; [exact P|apply new_part].
Qed.
Lemma WriteAccessorsInterleaved_parts d data d' r : parts d -> WriteAccessorsInterleaved d data = Ok (d', r) -> parts d'.
Proof.
  intros P H. unfold WriteAccessorsInterleaved in H. inv_ok H. pose proof (ensurePadding_parts _ _ P Hx) as P1.
  inv_ok H. destruct x0 as [d1 q]. assert (P2 : parts d1) by (eapply writeBufferViews_parts; [exact P1| |exact Hx0]; vm_compute; split; congruence).
  destruct q; [|injection H as <- _; exact P2|discriminate]. inv_ok H. destruct x0 as [d2 idx]. injection H as <- _. eapply accessors_loop_parts; eauto.
Qed.

(** ** Bounds of positions *)
Lemma number_float x : number32 x -> float_ok (f64_of_f32 x).
Proof. intros [H1 H2]. destruct (f64_of_f32_finite x H1 H2) as (A & B & _). split; assumption. Qed.
Lemma step_ok f acc v : (forall x y, float_ok x -> float_ok y -> float_ok (f x y)) -> Forall float_ok acc -> Forall number32 v -> Forall float_ok (minmax_step f acc v).
Proof.
  intros Hf HA. revert v. unfold minmax_step. induction HA as [|a acc Ha HA IH]; intros v HV; [constructor|]. destruct HV as [|x v Hx HV]; [constructor|].
  cbn. constructor; [apply Hf; [exact Ha|exact (number_float x Hx)]|exact (IH v HV)].
Qed.
Lemma fold_ok f data : forall acc, (forall x y, float_ok x -> float_ok y -> float_ok (f x y)) -> Forall float_ok acc -> Forall (Forall number32) data ->
  Forall float_ok (fold_left (minmax_step f) data acc).
Proof.
  induction data as [|v data IH]; intros acc Hf HA HD; [exact HA|]. inversion HD; subst. cbn [fold_left]. apply IH; [exact Hf| |assumption].
  apply step_ok; assumption.
Qed.
Lemma minMax_ok data : Forall (Forall number32) data -> Forall float_ok (fst (minMaxFloat32 data)) /\ Forall float_ok (snd (minMaxFloat32 data)).
Proof.
  intros HD. unfold minMaxFloat32. cbn [fst snd]. split; apply fold_ok; try exact HD.
  - intros x y [Hx Fx] [Hy Fy]. destruct (f64_min_cases x y Fx Fy) as [[->| ->] _]; split; assumption.
  - repeat constructor; vm_compute; try congruence.
  - intros x y [Hx Fx] [Hy Fy]. destruct (f64_max2_cases x y Fx Fy) as [[->| ->] _]; split; assumption.
  - repeat constructor; vm_compute; try congruence.
Qed.
Lemma WritePosition_parts d data d' i : parts d -> Forall (Forall number32) data -> WritePosition d data = Ok (d', i) -> parts d'.
Proof.
  intros P HD H. unfold WritePosition in H. inv_ok H. destruct x as [d1 k]. destruct (minMax_ok data HD) as [M1 M2]. destruct (minMaxFloat32 data) as [mn mx]. cbn [fst snd] in *.
  assert (P1 : parts d1) by (eapply WriteAccessor_parts; [exact P| |exact Hx]; vm_compute; split; congruence).
  inv_ok H. inv_ok H. injection H as <- _. eapply update_parts; [|exact Hx1|intros a; apply max_part; exact M2].
  eapply update_parts; [exact P1|exact Hx0|intros a; apply min_part; exact M1].
Qed.
Lemma write_normalized_parts check d data d' i : parts d -> write_normalized check d data = Ok (d', i) -> parts d'.
Proof.
  intros P H. unfold write_normalized in H. inv_ok H. inv_ok H. destruct x0 as [d1 k]. inv_ok H. injection H as <- _.
  eapply update_parts; [|exact Hx1|intros a; apply norm_part]. eapply WriteAccessor_parts; [exact P| |exact Hx0]; vm_compute; split; congruence.
Qed.
Lemma WriteImage_parts d name mime q d' r : parts d -> utf8_str name -> utf8_str mime -> WriteImage d name mime q = Ok (d', r) -> parts d'.
Proof.
  intros P N M H. unfold WriteImage in H. destruct q as [data|e|]; [|injection H as <- _; exact P|discriminate]. inv_ok H. destruct x as [d1 i].
  injection H as <- _. assert (P1 : parts d1) by (eapply WriteBufferView_parts; [exact P| |exact Hx]; vm_compute; split; congruence).
  destruct P1 as (A & V & I & PI & B). unfold parts. cbn. split; [exact A|]. split; [exact V|]. split.
  { apply Forall_app. split; [exact I|]. constructor; [|constructor]. unfold img_part. cbn. split; [apply wf_ext_nil|]. split; [apply wa_null|]. split; [exact N|].
    split; [exact utf8_nil|exact M]. }
  split; [|exact B]. apply Forall_app. split; [exact PI|]. constructor; [|constructor]. left. reflexivity.
Qed.
Lemma attrs_loop_ok attrs : forall data props mm r, attrs_loop attrs data props mm = Ok r ->
  (forall a s, In a attrs -> attr_Name a = "POSITION"%string -> attr_Data a = Some s -> Forall (Forall number32) (els s)) ->
  Forall float_ok (fst mm) -> Forall float_ok (snd mm) -> Forall float_ok (fst (snd r)) /\ Forall float_ok (snd (snd r)).
Proof.
  induction attrs as [|a attrs IH]; intros data props mm r H HD M1 M2; cbn [attrs_loop] in H; [injection H as <-; split; assumption|].
  assert (HD' : forall a s, In a attrs -> attr_Name a = "POSITION"%string -> attr_Data a = Some s -> Forall (Forall number32) (els s)) by (intros a' s' I; apply HD; right; exact I).
  inv_ok H. destruct (attr_Data a) as [s|] eqn:ED; [|eapply IH; eauto]. destruct (x =? 0); [eapply IH; eauto|]. inv_ok H. destruct x0 as [b mm'].
  eapply IH; [exact H|exact HD'| |].
  all: destruct (String.eqb (attr_Name a) "POSITION") eqn:EN.
  1,3: apply String.eqb_eq in EN; pose proof (minMax_ok (els s) (HD a s (or_introl eq_refl) EN ED)) as [G1 G2];
    destruct (sk s) as [[] []| | | |]; try discriminate; injection Hx0 as _ <-; assumption.
  all: destruct (String.eqb (attr_Name a) "TEXCOORD_0" || String.eqb (attr_Name a) "TEXCOORD_1");
    [inv_ok Hx0; injection Hx0 as _ <-; assumption|].
  all: destruct (String.eqb (attr_Name a) "WEIGHTS_0"); [inv_ok Hx0; injection Hx0 as _ <-; assumption|].
  all: destruct (String.eqb (attr_Name a) "JOINTS_0"); [inv_ok Hx0; injection Hx0 as _ <-; assumption|].
  all: destruct (String.eqb (attr_Name a) "COLOR_0"); [inv_ok Hx0; injection Hx0 as _ <-; assumption|].
  all: injection Hx0 as _ <-; assumption.
Qed.
Lemma set_props_loop_parts idx : forall d props attrs d' r, parts d -> set_props_loop d idx props attrs = Ok (d', r) -> parts d'.
Proof.
  induction idx as [|i idx IH]; intros d props attrs d' r P H; cbn [set_props_loop] in H; [injection H as <- _; exact P|].
  destruct props as [|[name b] props]; [discriminate|]. inv_ok H. eapply IH; [|exact H]. eapply update_parts; [exact P|exact Hx|intros a; apply norm_part].
Qed.
Lemma WritePrimitiveAttributes_parts d attrs d' r : parts d ->
  (forall a s, In a attrs -> attr_Name a = "POSITION"%string -> attr_Data a = Some s -> Forall (Forall number32) (els s)) ->
  WritePrimitiveAttributes d attrs = Ok (d', r) -> parts d'.
Proof.
  intros P HD H. unfold WritePrimitiveAttributes in H. destruct (attrs_loop attrs [] [] (repeat 0 3, repeat 0 3)) as [[[data props] [mn mx]]|e|] eqn:E;
    [|injection H as <- _; exact P|discriminate].
  assert (Z3 : Forall float_ok (repeat 0 3)) by (repeat constructor; vm_compute; congruence).
  destruct (attrs_loop_ok _ _ _ _ _ E HD Z3 Z3) as [M1 M2]. cbn [fst snd] in *.
  inv_ok H. destruct x as [d1 q]. pose proof (WriteAccessorsInterleaved_parts _ _ _ _ P Hx) as P1. destruct q as [idx|e|]; [|injection H as <- _; exact P1|discriminate].
  inv_ok H. destruct x as [d2 at2]. pose proof (set_props_loop_parts _ _ _ _ _ _ P1 Hx0) as P2. destruct (map_get "POSITION" at2) as [pos|]; [|injection H as <- _; exact P2].
  inv_ok H. inv_ok H. injection H as <- _. eapply update_parts; [|exact Hx2|intros a; apply max_part; exact M2].
  eapply update_parts; [exact P2|exact Hx1|intros a; apply min_part; exact M1].
Qed.
Lemma run_op_parts d op d' : parts d -> plain_op op -> run_op d op = Ok d' -> parts d'.
Proof.
  intros P G H. destruct op; cbn [run_op plain_op] in *; apply fst_res_inv in H as [b H].
  - unfold WriteIndices in H. destruct (sk d0) as [[] []| | | |]; try discriminate; (eapply WriteAccessor_parts; [exact P| |exact H]; vm_compute; split; congruence).
  - eapply WriteAccessor_parts; [exact P| |exact H]; vm_compute; split; congruence.
  - eapply WriteAccessor_parts; [exact P| |exact H]; vm_compute; split; congruence.
  - eapply write_normalized_parts; eauto.
  - eapply write_normalized_parts; eauto.
  - unfold WriteJoints in H. inv_ok H. eapply WriteAccessor_parts; [exact P| |exact H]; vm_compute; split; congruence.
  - eapply WriteAccessor_parts; [exact P| |exact H]; vm_compute; split; congruence.
  - eapply WritePosition_parts; eauto.
  - eapply write_normalized_parts; eauto.
  - destruct G as [G1 G2]. exact (WriteImage_parts _ _ _ _ _ _ P G1 G2 H).
  - eapply WriteAccessor_parts; eauto.
  - eapply WriteAccessorsInterleaved_parts; eauto.
  - eapply WritePrimitiveAttributes_parts; eauto.
  - eapply WriteBufferView_parts; eauto.
  - eapply writeBufferViews_parts; [exact P| |exact H]; vm_compute; split; congruence.
Qed.
Lemma run_ops_parts ops : forall d d', parts d -> Forall plain_op ops -> run_ops d ops = Ok d' -> parts d'.
Proof.
  induction ops as [|op ops IH]; intros d d' P G H; cbn [run_ops] in H; [injection H as <-; exact P|]. inversion G; subst.
  inv_ok H. eapply IH; [|eassumption|exact H]. eapply run_op_parts; eauto.
Qed.
End Storable.
