(** C75, C76: memory that the writers touch, and views of a document's data. *)
From Verif Require Import Base BaseFacts Types Binary SpecLayout Doc ModelerWrite ModelerRead Memory SpecMemory WriteMemory SpecWriteMemory WriteMemoryProofs WriteMemorySim.

(** ** C75 *)
(** Any calls of the writers on a document in memory, with data that may lie
    anywhere but where they append, also in the document itself: the outcome is
    that of the functions on values, whatever append allocates, and no byte
    changes outside of the last buffer's unused capacity.  The document after
    the calls meets the conditions again. *)
Theorem C75_writes :
  forall spare h doc ds ops, writable h doc ds -> Forall (fun op => Forall (src_ready h (last_spare ds)) (op_sources op)) ops ->
  let (h', r) := run_ops_m spare (strip doc, ds) ops h in
  kept (last_spare ds) h h' /\
  match run_ops doc (map (op_value h) ops) with
  | Ok doc' => exists ds', r = Ok (strip doc', ds') /\ writable h' doc' ds'
  | Err e => r = Err e
  | Panic => r = Panic
  end.
Proof.
  intros spare h doc ds ops W HS.
  assert (I : inv h (last_spare ds) h doc ds) by (constructor; [apply chg_refl|exact W|intros a p Q; left; exact Q]).
  pose proof (run_ops_sim h (last_spare ds) spare ops h doc ds I HS) as [C P]. destruct (run_ops_m spare (strip doc, ds) ops h) as [h' r]. cbn [fst snd] in *.
  split; [exact (proj1 C)|]. destruct (run_ops doc (map (op_value h) ops)) as [doc'|e|]; [|exact P|exact P]. destruct P as (ds' & E & I'). exists ds'. split; [exact E|exact (i_wr _ _ _ _ _ I')].
Qed.
Print Assumptions C75_writes.

Lemma view_slice h doc ds bv v : doc_loaded h doc ds -> ReadBufferView doc bv = Ok v ->
  exists s d k, ReadBufferView_m (strip doc) ds bv = Ok s /\ holds h s v /\ nth_error ds k = Some d /\ (ms_len s <= ms_cap s)%nat /\ ms_arr s = ms_arr d /\
    (exists b, nth_error (doc_Buffers doc) k = Some (Some b) /\ holds h d (buf_Data b)) /\
    (ms_off d <= ms_off s)%nat /\ (ms_off s + ms_len s <= ms_off d + ms_len d)%nat /\ (ms_off s + ms_cap s = ms_off d + ms_cap d)%nat.
Proof.
  intros HL E. unfold ReadBufferView, ReadBufferView_m in *. destruct bv as [bv|]; cbn [deref bind] in *; [|discriminate].
  assert (ZN : zlen (doc_Buffers (strip doc)) = zlen (doc_Buffers doc)) by (unfold zlen, strip; cbn [set_doc_Buffers doc_Buffers]; rewrite map_length; reflexivity).
  rewrite ZN. destruct (_ <=? bvw_Buffer bv); [discriminate|]. unfold index in *. rewrite ZN. assert (LD : zlen ds = zlen (doc_Buffers doc)) by (unfold zlen; rewrite (Forall2_len _ _ _ HL); reflexivity). rewrite LD.
  destruct (_ && _) eqn:B; [|discriminate]. cbn [bind] in *. set (k := Z.to_nat (bvw_Buffer bv)) in *.
  unfold strip. cbn [set_doc_Buffers doc_Buffers]. rewrite nth_error_map. destruct (nth_error (doc_Buffers doc) k) as [ob|] eqn:Ek; cbn [bind option_map] in *; [|discriminate]. destruct ob as [b|]; cbn [bind option_map deref] in *; [|discriminate].
  destruct (Forall2_nth _ _ _ HL k _ Ek) as (d & Ed & Ld & Hd). rewrite Ed. cbn [bind]. pose proof Hd as (Lb & _). unfold zlen in E. rewrite Lb in E.
  set (high := i64 (bvw_ByteOffset bv + bvw_ByteLength bv)) in *. destruct (_ <? high) eqn:Eh; [discriminate|]. unfold slice_range, slice_m in *.
  unfold zlen in E. rewrite Lb in E. destruct ((0 <=? bvw_ByteOffset bv) && (bvw_ByteOffset bv <=? high)) eqn:B1; cbn [andb] in *; [|discriminate].
  replace (high <=? Z.of_nat (ms_len d)) with true in E by lia. replace (high <=? Z.of_nat (ms_cap d)) with true by lia. injection E as <-.
  eexists _, d, k. split; [reflexivity|]. cbn [ms_arr ms_off ms_len ms_cap]. split.
  - apply holds_bytes. apply holds_bytes in Hd. destruct Hd as [_ Hd]. cbn [ms_arr ms_off ms_len]. split; [rewrite firstn_length, skipn_length; lia|].
    intros i x Ex. rewrite nth_error_firstn' in Ex. destruct (i <? _)%nat eqn:Ei; [|discriminate]. rewrite nth_error_skipn' in Ex. rewrite <- Nat.add_assoc. apply Hd. exact Ex.
  - split; [exact Ed|]. split; [lia|]. split; [reflexivity|]. split; [exists b; split; [exact Ek|]; rewrite holds_bytes in *; exact Hd|]. lia.
Qed.
(** A view that was read before the calls still has its bytes afterwards, and it
    may be written itself. *)
Theorem C75_views_kept :
  forall spare h doc ds ops bv v, writable h doc ds -> Forall (fun op => Forall (src_ready h (last_spare ds)) (op_sources op)) ops ->
  ReadBufferView doc bv = Ok v ->
  exists s, ReadBufferView_m (strip doc) ds bv = Ok s /\ holds h s v /\ disjoint s (last_spare ds) /\
    holds (fst (run_ops_m spare (strip doc, ds) ops h)) s v.
Proof.
  intros spare h doc ds ops bv v W HS E. pose proof (C75_writes spare h doc ds ops W HS) as P. destruct (run_ops_m spare (strip doc, ds) ops h) as [h' r]. destruct P as [K _]. cbn [fst].
  destruct W as [W1 W2 W3]. destruct (view_slice _ _ _ _ _ W1 E) as (s & d & k & E1 & Hs & Ed & _ & Ea & _ & O1 & O2 & O3). exists s.
  assert (DJ : disjoint s (last_spare ds)).
  { intros a p [-> Q]. rewrite Forall_forall in W3. apply (W3 d (nth_error_In _ _ Ed)). split; [exact Ea|lia]. }
  split; [exact E1|]. split; [exact Hs|]. split; [exact DJ|]. eapply holds_kept; eassumption.
Qed.
Print Assumptions C75_views_kept.

(** Another document, which may share data with the first, keeps its data; it
    may be written next. *)
Theorem C75_other_documents :
  forall spare h doc ds ops doc2 ds2, writable h doc ds -> Forall (fun op => Forall (src_ready h (last_spare ds)) (op_sources op)) ops ->
  doc_loaded h doc2 ds2 -> Forall (fun s => disjoint s (last_spare ds)) ds2 ->
  doc_loaded (fst (run_ops_m spare (strip doc, ds) ops h)) doc2 ds2.
Proof.
  intros spare h doc ds ops doc2 ds2 W HS HL HD. pose proof (C75_writes spare h doc ds ops W HS) as P. destruct (run_ops_m spare (strip doc, ds) ops h) as [h' r]. destruct P as [K _]. cbn [fst].
  unfold doc_loaded in *. induction HL as [|b s bs ss [H1 H2] _ IH]; constructor.
  - split; [exact H1|]. destruct b as [b|]; [|exact H2]. eapply holds_kept; [exact H2|exact K|exact (Forall_inv HD)].
  - apply IH. exact (Forall_inv_tail HD).
Qed.
Print Assumptions C75_other_documents.

(** ** C76 *)
(** A view is handed out with all the capacity behind it (read.go:106), so an
    append to it that fits goes over the document's data behind the view ... *)
Theorem C76_append_overwrites :
  forall spare h doc ds bv v x, writable h doc ds -> ReadBufferView doc bv = Ok v ->
  exists s d k b, ReadBufferView_m (strip doc) ds bv = Ok s /\ nth_error ds k = Some d /\ nth_error (doc_Buffers doc) k = Some (Some b) /\
    let o := (ms_off s + ms_len s - ms_off d)%nat in
    ((o + List.length x <= List.length (buf_Data b))%nat ->
      holds (fst (append_m spare s x h)) d (overwrite (buf_Data b) o x)).
Proof.
  intros spare h doc ds bv v x [W1 W2 W3] E. destruct (view_slice _ _ _ _ _ W1 E) as (s & d & k & E1 & Hs & Ed & Lc & Ea & (b & Eb & Hd) & O1 & O2 & O3).
  exists s, d, k, b. split; [exact E1|]. split; [exact Ed|]. split; [exact Eb|]. cbn zeta. intros Lx. pose proof Hd as (Lb & _). unfold append_m.
  assert (Md : (ms_len d <= ms_cap d)%nat) by (rewrite Forall_forall in W2; exact (proj1 (W2 d (nth_error_In _ _ Ed)))).
  replace (ms_len s + List.length x <=? ms_cap s)%nat with true by (symmetry; apply Nat.leb_le; lia). cbn [fst]. rewrite Ea.
  set (o := (ms_off s + ms_len s - ms_off d)%nat) in *. replace (ms_off s + ms_len s)%nat with (ms_off d + o)%nat by lia. exact (proj1 (poke_window h d _ o x Hd ltac:(lia))).
Qed.
Print Assumptions C76_append_overwrites.

(** ... while one that goes into a new array, or over capacity that is in no
    buffer, leaves the document as it is. *)
Theorem C76_append_keeps_document_partial :
  forall spare h doc ds bv s x, writable h doc ds -> ReadBufferView_m (strip doc) ds bv = Ok s -> in_memory h s ->
  (ms_cap s < ms_len s + List.length x)%nat \/ Forall (fun d => disjoint d (spare_of s)) ds ->
  doc_loaded (fst (append_m spare s x h)) doc ds.
Proof.
  intros spare h doc ds bv s x [W1 W2 W3] E IM C.
  assert (K : exists R, kept R h (fst (append_m spare s x h)) /\ Forall (fun d => disjoint d R) ds).
  { unfold append_m. destruct (_ <=? ms_cap s)%nat eqn:B; cbn [fst].
    - apply Nat.leb_le in B. destruct C as [C|C]; [lia|]. exists (spare_of s). split; [|exact C]. destruct (Nat.eq_dec (List.length x) 0) as [Z|Z].
      + destruct x; [|discriminate]. rewrite poke_nil. intros a p y Ey _. exact Ey.
      + destruct IM as (L & [IM|(c & Ec & Lc)]); [lia|]. eapply chg_mono; [|eapply poke_chg; [exact Ec|lia]]. intros a p [-> Q]. split; [reflexivity|lia].
    - exists (fun _ _ => False). split; [|apply Forall_forall; intros d _ a p _ []]. intros a p y Ey _. pose proof (byte_at_lt _ _ _ _ Ey). unfold byte_at in *. rewrite nth_error_app1 by lia. exact Ey. }
  destruct K as (R & K & HD). unfold doc_loaded in *. clear -W1 K HD. induction W1 as [|b d bs ss [H1 H2] _ IH]; constructor.
  - split; [exact H1|]. destruct b as [b|]; [|exact H2]. eapply holds_kept; [exact H2|exact K|exact (Forall_inv HD)].
  - apply IH. exact (Forall_inv_tail HD).
Qed.
Print Assumptions C76_append_keeps_document_partial.

(** ** Examples *)
Lemma loaded_head h doc ds b bs s ss : doc_loaded h doc ds -> doc_Buffers doc = Some b :: bs -> ds = s :: ss -> holds h s (buf_Data b).
Proof. unfold doc_loaded. intros H E1 E2. rewrite E1, E2 in H. inversion H as [|? ? ? ? Q _]. subst. exact (proj2 Q). Qed.
(** Two views of 4 bytes in one buffer of capacity 24. *)
Definition wm_view (off len : Z) : option BufferView := Some (set_bvw_ByteLength len (set_bvw_ByteOffset off zero_BufferView)).
Definition wm_doc : Document :=
  set_doc_BufferViews [wm_view 0 4; wm_view 4 4]
    (set_doc_Buffers [Some (set_buf_ByteLength 8 (set_buf_Data (map z2b [1; 2; 3; 4; 5; 6; 7; 8]) zero_Buffer))] zero_Document).
Definition wm_heap : list bytes := [map z2b [1; 2; 3; 4; 5; 6; 7; 8] ++ repeat (z2b 99) 16; map z2b [20; 0; 21; 0; 22; 0]].
Definition wm_ds : list mslice := [mkMs 0 0 8 24].
Definition wm_spare (cap len : nat) : nat := 3%nat.
(** The data: the document's own second view, three 16-bit indices of the
    caller's, and two elements of the document's data, interleaved with
    themselves. *)
Definition wm_ops : list mop :=
  [MAccessor 0 (mkSrc (SK CUbyte AScalar) 4 (mkMs 0 4 4 20));
   MIndices (mkSrc (SK CUshort AScalar) 3 (mkMs 1 0 6 6));
   MInterleaved [mkSrc (SK CUbyte AVec4) 2 (mkMs 0 0 8 24); mkSrc (SK CUbyte AVec4) 2 (mkMs 0 0 8 24)]].
Example C75_example_writable : writable wm_heap wm_doc wm_ds.
Proof.
  split.
  - constructor; [|constructor]. split; [cbn; lia|]. split; [reflexivity|]. right. eexists. split; [reflexivity|]. split; [cbn; lia|reflexivity].
  - constructor; [|constructor]. split; [cbn; lia|]. right. eexists. split; [reflexivity|]. cbn. lia.
  - constructor; [|constructor]. intros a p [-> Q] (s & E & E1 & E2). cbn in E. injection E as <-. cbn in *. lia.
Qed.
Example C75_example_ready : Forall (fun op => Forall (src_ready wm_heap (last_spare wm_ds)) (op_sources op)) wm_ops.
Proof.
  assert (H : forall k n s, In (mkSrc k n s) [mkSrc (SK CUbyte AScalar) 4 (mkMs 0 4 4 20); mkSrc (SK CUshort AScalar) 3 (mkMs 1 0 6 6); mkSrc (SK CUbyte AVec4) 2 (mkMs 0 0 8 24)] -> src_ready wm_heap (last_spare wm_ds) (mkSrc k n s)).
  { intros k n s [E|[E|[E|[]]]]; injection E as <- <- <-; (split; [reflexivity|]; split; [eexists; split; [|right; eexists; split; [reflexivity|]; split; [cbn; lia|reflexivity]]; reflexivity|]);
      intros a p [-> Q] (s & E & E1 & E2); cbn in E; injection E as <-; cbn in *; lia. }
  constructor; [|constructor; [|constructor; [|constructor]]]; cbn [op_sources]; repeat (constructor; [apply H; cbn; tauto|]); constructor.
Qed.
(** The first two calls append in place; the third does not fit. *)
Example C75_example_run :
  let (h', r) := run_ops_m wm_spare (strip wm_doc, wm_ds) wm_ops wm_heap in
  exists doc', r = Ok (doc', [mkMs 2 0 36 39]) /\ List.length (doc_Accessors doc') = 4%nat /\
  peek h' (mkMs 2 0 36 39) = map z2b [1; 2; 3; 4; 5; 6; 7; 8; 5; 6; 7; 8; 20; 0; 21; 0; 22; 0; 0; 0; 1; 2; 3; 4; 1; 2; 3; 4; 5; 6; 7; 8; 5; 6; 7; 8] /\
  peek h' (mkMs 0 4 4 20) = map z2b [5; 6; 7; 8] /\ peek h' (mkMs 0 8 12 12) = map z2b [5; 6; 7; 8; 20; 0; 21; 0; 22; 0; 0; 0].
Proof. vm_compute. eexists. split; [reflexivity|]. split; [reflexivity|]. split; [reflexivity|]. split; reflexivity. Qed.
(** The condition on the last buffer's capacity is needed: when another buffer
    lies there, it is overwritten. *)
Example C75_example_shared :
  let doc := set_doc_Buffers [Some (set_buf_Data (map z2b [5; 6; 7; 8]) zero_Buffer); Some (set_buf_Data (map z2b [1; 2; 3; 4]) zero_Buffer)] zero_Document in
  let ds := [mkMs 0 4 4 20; mkMs 0 0 4 24] in
  doc_loaded wm_heap doc ds /\ ~ doc_loaded (fst (run_ops_m wm_spare (strip doc, ds) [MIndices (mkSrc (SK CUshort AScalar) 3 (mkMs 1 0 6 6))] wm_heap)) doc ds.
Proof.
  cbn zeta. split.
  - constructor; [|constructor; [|constructor]]; (split; [cbn; lia|]; split; [reflexivity|]; right; eexists; split; [reflexivity|]; split; [cbn; lia|reflexivity]).
  - intros H. pose proof (loaded_head _ _ _ _ _ _ _ H eq_refl eq_refl) as Q0. destruct Q0 as [_ [Q|(c & E & _ & Q)]]; [discriminate|]. vm_compute in E. injection E as <-. discriminate Q.
Qed.
(** The append of a caller to the first view destroys the second. *)
Theorem C76_append_keeps_document_refuted :
  exists spare h doc ds bv v s x, writable h doc ds /\ nth_error (doc_BufferViews doc) 0 = Some bv /\ ReadBufferView doc bv = Ok v /\
    ReadBufferView_m (strip doc) ds bv = Ok s /\
    ~ doc_loaded (fst (append_m spare s x h)) doc ds /\
    exists bv2 s2, nth_error (doc_BufferViews doc) 1 = Some bv2 /\ ReadBufferView_m (strip doc) ds bv2 = Ok s2 /\
      holds h s2 (map z2b [5; 6; 7; 8]) /\ holds (fst (append_m spare s x h)) s2 (map z2b [9; 9; 7; 8]).
Proof.
  exists wm_spare, wm_heap, wm_doc, wm_ds. eexists _, _, _, (map z2b [9; 9]). split; [exact C75_example_writable|]. split; [reflexivity|]. split; [vm_compute; reflexivity|]. split; [vm_compute; reflexivity|]. split.
  - intros H. pose proof (loaded_head _ _ _ _ _ _ _ H eq_refl eq_refl) as Q0. destruct Q0 as [_ [Q|(c & E & _ & Q)]]; [discriminate|]. vm_compute in E. injection E as <-. discriminate Q.
  - eexists _, _. split; [reflexivity|]. split; [vm_compute; reflexivity|]. split; (split; [reflexivity|]; right; eexists; split; [vm_compute; reflexivity|]; split; [cbn; lia|reflexivity]).
Qed.
Print Assumptions C76_append_keeps_document_refuted.
