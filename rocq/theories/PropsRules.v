(** When what is written follows the rules of glTF: C100. *)
From Verif Require Import BaseFacts Types Binary SpecLayout BinaryProofs Doc SpecDoc ModelerWrite ModelerWriteProofs ModelerReadProofs NewDoc SpecText JsonText Codec SpecJson SpecSchema SpecAppend PropsAppend SpecAdded PropsAdded SpecRules.

Lemma accepted_agree op : accepted op -> agree (op_slices op).
Proof.
  destruct op; cbn [accepted op_slices]; auto; try tauto.
  destruct r; cbn; try tauto. intros _. apply agree_one. eexists; eexists; reflexivity.
Qed.
Lemma entries_of op : op_entries op = [] \/ map e_slice (op_entries op) = op_slices op /\ op_aligned op = true.
Proof.
  destruct op; cbn [op_entries op_slices op_aligned]; auto; right; split; try reflexivity.
  - rewrite map_map. cbn. apply map_id.
  - rewrite entries_slices. symmetry. apply kept_named.
Qed.
Lemma sum_app a b : sum_sizes (a ++ b) = (sum_sizes a + sum_sizes b)%nat.
Proof. unfold sum_sizes. rewrite map_app, list_sum_app. reflexivity. Qed.
Lemma sum_cons s b : sum_sizes (s :: b) = (elem_bytes s + sum_sizes b)%nat.
Proof. reflexivity. Qed.
Lemma data_total data : agree data -> (1 <= total_bytes data <-> some_data data).
Proof.
  intros [A _]. unfold some_data. destruct data as [|s data]; cbn [total_bytes hd_error].
  - split; [lia|]. intros (s & H & _). discriminate.
  - inversion A as [|? ? SP _]; subst. pose proof (elem_bytes_pos s SP). rewrite sum_cons. unfold zlen. split.
    + intros H0. exists s. split; [reflexivity|]. intros E. rewrite E in H0. cbn in H0. lia.
    + intros (x & [= <-] & NE). destruct (els s); [congruence|]. cbn [List.length]. nia.
Qed.
Lemma tight_le c t : ct_valid c = true -> at_valid t = true -> (1 <= tight_bytes c t <= element_size c t)%nat /\ (1 <= comp_bytes c)%nat /\ (Z.of_nat (comp_bytes c) | 4).
Proof. intros Hc Ht. destruct c; try discriminate; (split; [destruct t; try discriminate; cbn; lia|]; split; [cbn; lia|]); cbn; first [exists 1; reflexivity|exists 2; reflexivity|exists 4; reflexivity]. Qed.
Lemma padded_four s : padded s = true -> (4 | Z.of_nat (elem_bytes s)) /\ 4 <= Z.of_nat (elem_bytes s) <= 64.
Proof.
  unfold padded, elem_bytes. destruct (kind_ct (sk s)) as [[c t]|] eqn:K; [|discriminate]. destruct (kind_ct_valid _ _ _ K) as [Hc Ht].
  destruct c, t; try discriminate; cbn; intros H; try discriminate; (split; [|lia]); first [exists 1; reflexivity|exists 2; reflexivity|exists 3; reflexivity|exists 4; reflexivity|exists 6; reflexivity|exists 8; reflexivity].
Qed.
Lemma start_nonneg al d : 0 <= start al d.
Proof. unfold start, last_padded, last_bytes. destruct al; destruct (rev (doc_Buffers d)) as [|[b|] r]; cbn; try lia; pose proof (zlen_nonneg (buf_Data b)); lia. Qed.
Lemma start_four d : (4 | start true d).
Proof. exists ((last_bytes d + 3) / 4). reflexivity. Qed.

Lemma row_rule tgt data : agree data -> (row_bytes tgt data = 0 \/ 4 <= row_bytes tgt data <= 252 /\ (4 | row_bytes tgt data)) <-> data = [] \/ row_fits data.
Proof.
  intros [A _]. unfold row_fits. destruct data as [|s [|s2 data]]; cbn [row_bytes List.length].
  - split; auto.
  - split; [right; left; lia|]. intros _. destruct ((tgt =? 34962) && padded s) eqn:E; [|auto]. right. apply andb_prop in E as [_ E]. apply padded_four in E. split; [lia|tauto].
  - inversion A as [|? ? S1 A']; subst. inversion A' as [|? ? S2 _]; subst. pose proof (elem_bytes_pos s S1). pose proof (elem_bytes_pos s2 S2). set (n := sum_sizes (s :: s2 :: data)).
    assert (2 <= n)%nat by (unfold n; rewrite !sum_cons; lia). split.
    + intros [H2|[H2 H3]]; [lia|]. right. right. split; [lia|exact H3].
    + intros [H2|[H2|[H2 [z H3]]]]; [discriminate|lia|]. right. split; [|exists z; exact H3]. lia.
Qed.
Lemma view_rules_iff d op : accepted op ->
  (view_rules (new_view d op) <-> In (op_target op) [0; 34962; 34963] /\ some_data (op_slices op) /\ row_fits (op_slices op)).
Proof.
  intros A. apply accepted_agree in A. unfold view_rules, new_view. cbn [bvw_Buffer bvw_ByteOffset bvw_ByteLength bvw_ByteStride bvw_Target].
  rewrite (data_total _ A), (row_rule _ _ A). pose proof (start_nonneg (op_aligned op) d). pose proof (zlen_nonneg (removelast (doc_Buffers d))). split.
  - intros (_ & _ & H1 & [H2|H2] & H3); [|tauto]. rewrite H2 in H1. destruct H1 as (s & E & _). discriminate.
  - tauto.
Qed.
Lemma nth_app_mid {A} (a : list A) x b : nth_error (a ++ x :: b) (List.length a) = Some x.
Proof. rewrite nth_error_app2, Nat.sub_diag by lia. reflexivity. Qed.
Lemma same_count data s x : agree data -> hd_error data = Some s -> In x data -> zlen (els x) = zlen (els s).
Proof. intros [_ H] E I. destruct data as [|y data]; [discriminate|]. injection E as ->. unfold zlen. f_equal. apply H; [exact I|left; reflexivity]. Qed.

Lemma accessor_rule tgt d data before s after c t nm mx mn : agree data -> some_data data -> row_fits data ->
  data = before ++ s :: after -> kind_ct (sk s) = Some (c, t) ->
  (accessor_rules (mkBufferView [] VNull (zlen (removelast (doc_Buffers d))) (start true d) (total_bytes data) (row_bytes tgt data) tgt "")
     (mkAccessor [] VNull "" (Some (zlen (doc_BufferViews d))) (Z.of_nat (sum_sizes before)) c nm (zlen (els s)) t mx mn None)
   <-> (Z.of_nat (comp_bytes c) | Z.of_nat (sum_sizes before))).
Proof.
  intros A (s0 & Hd & NE) RF E K. pose proof (same_count data s0 s A Hd ltac:(rewrite E; apply in_or_app; right; left; reflexivity)) as LN.
  destruct (kind_ct_valid _ _ _ K) as [Hc Ht]. destruct (tight_le c t Hc Ht) as ((T1 & T2) & T3 & T4).
  assert (EB : elem_bytes s = element_size c t) by (unfold elem_bytes; rewrite K; reflexivity).
  assert (N1 : 1 <= zlen (els s)) by (rewrite LN; destruct (els s0); [congruence|unfold zlen; cbn [List.length]; lia]).
  assert (TB : total_bytes data = zlen (els s) * Z.of_nat (sum_sizes data)) by (destruct data as [|y data]; [discriminate|]; injection Hd as ->; rewrite LN; reflexivity).
  assert (SB : sum_sizes data = (sum_sizes before + elem_bytes s + sum_sizes after)%nat) by (rewrite E, sum_app, sum_cons; lia).
  unfold accessor_rules. cbn [acr_ComponentType acr_Type acr_Count acr_ByteOffset bvw_ByteStride bvw_ByteOffset bvw_ByteLength].
  assert (D4 : forall z, (4 | z) -> (Z.of_nat (comp_bytes c) | z)) by (intros z H; exact (Z.divide_trans _ _ _ T4 H)).
  assert (ST : row_bytes tgt data = 0 /\ data = [s] \/ (4 | row_bytes tgt data) /\ row_bytes tgt data = Z.of_nat (sum_sizes data) /\ row_bytes tgt data <> 0).
  { destruct data as [|x [|y data]]; [discriminate| |].
    - assert (x = s) as -> by (destruct before as [|z before]; [injection E as -> _; reflexivity|destruct before; discriminate]).
      cbn [row_bytes]. destruct ((tgt =? 34962) && padded s) eqn:EP; [|left; auto]. right. apply andb_prop in EP as [_ EP]. apply padded_four in EP as [EP ?]. split; [exact EP|].
      rewrite sum_cons. unfold sum_sizes. cbn. split; lia.
    - right. cbn [row_bytes]. destruct RF as [RF|[_ RF]]; [cbn in RF; lia|]. split; [exact RF|]. split; [reflexivity|]. lia. }
  split; [tauto|]. intros DV. split; [exact N1|]. split; [lia|]. split; [exact DV|]. split; [apply Z.divide_add_r; [apply D4, start_four|exact DV]|].
  rewrite TB. destruct ST as [(S1 & S2)|(S1 & S2 & S3)].
  - rewrite S1, Z.eqb_refl. split; [exists 0; reflexivity|]. assert (before = []) as -> by (rewrite S2 in E; destruct before as [|z before]; [reflexivity|destruct before; discriminate]).
    change (sum_sizes []) with 0%nat in *. rewrite SB, EB. nia.
  - split; [apply D4; exact S1|]. replace (row_bytes tgt data =? 0) with false by lia. rewrite S2. nia.
Qed.

Theorem C100_rules d op d' : accepted op -> run_op d op = Ok d' ->
  exists v accs, doc_BufferViews d' = doc_BufferViews d ++ [Some v] /\ doc_Accessors d' = doc_Accessors d ++ map Some accs /\
    (view_rules v /\ Forall (accessor_rules v) accs <-> lawful op).
Proof.
  intros A H. destruct (C99_added d op d' A H) as (new & accs & _ & (DL & DN) & ->). exists (new_view d op), accs. split; [reflexivity|]. split; [reflexivity|].
  rewrite (view_rules_iff d op A). unfold lawful. pose proof (accepted_agree op A) as AG. destruct (entries_of op) as [E|[E AL]].
  { rewrite E in *. destruct accs; [|discriminate]. split; [intros [(H1 & H2 & H3) _]; repeat split; auto; congruence|]. intros (H1 & H2 & H3 & _). split; [tauto|constructor]. }
  unfold new_view. rewrite AL. rewrite E in DN. assert (LS : List.length accs = List.length (op_slices op)) by (rewrite DL, <- E, map_length; reflexivity).
  assert (AT : forall before s after, op_slices op = before ++ s :: after -> exists a c t nm mx mn, nth_error accs (List.length before) = Some a /\ kind_ct (sk s) = Some (c, t) /\
     a = mkAccessor [] VNull "" (Some (zlen (doc_BufferViews d))) (Z.of_nat (sum_sizes before)) c nm (zlen (els s)) t mx mn None).
  { intros before s after ES. assert (NT : nth_error (map e_slice (op_entries op)) (List.length before) = Some s) by (rewrite E, ES; apply nth_app_mid).
    rewrite nth_error_map in NT. destruct (nth_error (op_entries op) (List.length before)) as [e|] eqn:EN; [|discriminate]. cbn in NT. injection NT as <-.
    destruct (DN _ _ EN) as (a & Ha & (c & t & K & EA) & _). rewrite ES, firstn_app, Nat.sub_diag, firstn_all, app_nil_r in EA. exists a, c, t. do 3 eexists. split; [exact Ha|]. split; [exact K|exact EA]. }
  split.
  - intros [(H1 & H2 & H3) F]. split; [exact H1|]. split; [exact H2|]. split; [exact H3|]. intros _ before s after c t ES K. destruct (AT _ _ _ ES) as (a & c' & t' & nm & mx & mn & Ha & K' & EA).
    rewrite K in K'. injection K' as <- <-. rewrite Forall_forall in F. specialize (F a (nth_error_In _ _ Ha)). rewrite EA in F. exact (proj1 (accessor_rule _ _ _ _ _ _ _ _ _ _ _ AG H2 H3 ES K) F).
  - intros (H1 & H2 & H3 & H4). split; [auto|]. apply Forall_forall. intros a Ha. apply In_nth_error in Ha as (k & Ha).
    assert (Lk : (k < List.length (op_slices op))%nat) by (rewrite <- LS; apply nth_error_Some; congruence). destruct (nth_error (op_slices op) k) as [s|] eqn:Es; [|apply nth_error_None in Es; lia].
    apply nth_error_split in Es as (before & after & ES & <-). destruct (AT _ _ _ ES) as (a' & c & t & nm & mx & mn & Ha' & K & EA). rewrite Ha in Ha'. injection Ha' as ->. subst a'.
    apply (accessor_rule _ _ _ _ _ _ _ _ _ _ _ AG H2 H3 ES K). refine (H4 _ before s after c t ES K). intros EN. rewrite EN in E. cbn in E. rewrite <- E in Lk. cbn in Lk. lia.
Qed.
Print Assumptions C100_rules.

(** ** Documents that follow the schema *)
Lemma removelast_forall {A} (P : A -> Prop) l : Forall P l -> Forall P (removelast l).
Proof. induction 1 as [|x l HP HF IH]; [constructor|]. cbn. destruct l; [constructor|]. constructor; assumption. Qed.
Lemma last_ready d : Forall (present r_buffer) (doc_Buffers d) -> 0 <= buf_ByteLength (last_buffer d).
Proof.
  intros F. unfold last_buffer. apply Forall_rev in F. destruct (rev (doc_Buffers d)) as [|[b|] r]; cbn; [lia| |lia]. inversion F as [|? ? B _]; subst. cbn in B. unfold r_buffer in B. lia.
Qed.
Lemma last_bytes_buffer d : last_bytes d = zlen (buf_Data (last_buffer d)).
Proof. unfold last_bytes, last_buffer. destruct (rev (doc_Buffers d)) as [|[b|] r]; reflexivity. Qed.
Lemma pad_range al d : 0 <= start al d - zlen (buf_Data (last_buffer d)) <= 3.
Proof. rewrite <- last_bytes_buffer. unfold start, last_padded. destruct al; [|lia]. lia. Qed.
Lemma i64_small z : 0 <= z < 2 ^ 63 -> i64 z = z.
Proof. intros H. unfold i64. change (2 ^ 63) with 9223372036854775808 in *. change (2 ^ 64) with 18446744073709551616 in *. lia. Qed.

Lemma op_ready d op d' : ready d -> accepted op -> lawful op -> buf_ByteLength (last_buffer d) + op_cost op < 2 ^ 63 -> run_op d op = Ok d' ->
  ready d' /\ buf_ByteLength (last_buffer d') <= buf_ByteLength (last_buffer d) + op_cost op.
Proof.
  intros (R1 & R2 & R3 & R4 & R5 & R6 & R7 & R8 & R9 & R10 & R11 & R12 & R13 & R14) A LW SZ H.
  pose proof (C100_rules d op d' A H) as (v & accs & EV & EA & EQ). pose proof (proj2 EQ LW) as [VR AR]. clear EQ.
  destruct (C99_added d op d' A H) as (new & accs' & LN & (DL & DN) & ->). pose proof (accepted_agree op A) as AG. destruct LW as (LT & LS & _). apply (data_total _ AG) in LS.
  pose proof (last_ready d R3) as B0. pose proof (pad_range (op_aligned op) d) as PR. unfold op_cost in SZ.
  assert (BL : buf_ByteLength (longer (last_buffer d) (start (op_aligned op) d) new) = buf_ByteLength (last_buffer d) + (start (op_aligned op) d + zlen new - zlen (buf_Data (last_buffer d)))).
  { unfold longer. cbn [buf_ByteLength]. apply i64_small. lia. }
  assert (LB : last_buffer (added d op new accs') = longer (last_buffer d) (start (op_aligned op) d) new).
  { unfold last_buffer at 1, added. cbn [doc_Buffers]. rewrite rev_app_distr. reflexivity. }
  split; [|rewrite LB, BL; unfold op_cost; lia].
  cbn [added doc_BufferViews doc_Accessors] in EV, EA. apply app_inj_tail in EV as [_ EV]. injection EV as <-. apply app_inv_head in EA.
  assert (accs' = accs).
  { clear -EA. revert accs EA. induction accs' as [|x l IH]; intros [|y m] E; try discriminate; [reflexivity|]. cbn [map] in E. assert (x = y) by congruence. f_equal; [assumption|]. apply IH. congruence. }
  subst accs'. unfold ready, added. cbn [doc_Accessors doc_Animations doc_Buffers doc_BufferViews doc_Cameras doc_Images doc_Materials doc_Meshes doc_Nodes doc_Samplers doc_Scene doc_Scenes doc_Skins doc_Textures].
  refine (conj _ (conj R2 (conj _ (conj _ (conj R5 (conj _ (conj R7 (conj R8 (conj R9 (conj R10 (conj R11 (conj R12 (conj R13 R14))))))))))))).
  - apply Forall_app. split; [exact R1|]. apply Forall_forall. intros o I. apply in_map_iff in I as (a & <- & I). rewrite Forall_forall in AR. destruct (AR a I) as (C1 & C2 & _). cbn.
    apply In_nth_error in I as (k & Ha). destruct (nth_error (op_entries op) k) as [e|] eqn:Ee; [|apply nth_error_None in Ee; assert (k < List.length accs)%nat by (apply nth_error_Some; congruence); lia].
    destruct (DN k e Ee) as (a' & Ha' & (c & t & K & E) & _). rewrite Ha in Ha'. injection Ha' as <-. rewrite E in *. cbn [acr_Count acr_ByteOffset] in *. unfold r_accessor, index. cbn. pose proof (zlen_nonneg (doc_BufferViews d)). auto.
  - apply Forall_app. split; [apply removelast_forall; exact R3|]. constructor; [|constructor]. cbn. unfold r_buffer. rewrite BL. lia.
  - apply Forall_app. split; [exact R4|]. constructor; [|constructor]. cbn. destruct VR as (V1 & V2 & V3 & V4 & V5). unfold r_bufferView, index. split; [exact V1|]. split; [exact V2|]. split; [exact V3|]. split; [|exact V5]. destruct V4 as [V4|[V4 _]]; [left; exact V4|right; lia].
  - apply Forall_app. split; [exact R6|]. destruct op; cbn; constructor; [|constructor]. cbn. unfold r_image, index. cbn. apply zlen_nonneg.
Qed.
Lemma cost_nonneg ops : 0 <= cost ops.
Proof. induction ops as [|op ops IH]; cbn [cost]; [lia|]. unfold op_cost. pose proof (total_nonneg (op_slices op)). lia. Qed.

(** Lawful calls keep a document that can be written by the rules of the schema
    (C62) such a document. *)
Theorem C100_ready ops : forall d d', ready d -> Forall (fun op => accepted op /\ lawful op) ops ->
  buf_ByteLength (last_buffer d) + cost ops < 2 ^ 63 -> run_ops d ops = Ok d' -> ready d'.
Proof.
  induction ops as [|op ops IH]; intros d d' R F SZ H; cbn [run_ops cost] in *; [injection H as <-; exact R|].
  apply Forall_cons_iff in F as [[A L] F]. inv_ok H. pose proof (cost_nonneg ops).
  destruct (op_ready d op x R A L ltac:(lia) Hx) as (R' & B). apply (IH x d' R' F); [lia|exact H].
Qed.
Print Assumptions C100_ready.

(** Others do not: no data, or a target that is none. *)
Theorem C100_unready d op d' : accepted op -> run_op d op = Ok d' -> ready d' ->
  In (op_target op) [0; 34962; 34963] /\ some_data (op_slices op) /\ ((2 <= List.length (op_slices op))%nat -> (4 <= sum_sizes (op_slices op))%nat).
Proof.
  intros A H (_ & _ & _ & R & _). destruct (C99_added d op d' A H) as (new & accs & _ & _ & ->). cbn [added doc_BufferViews] in R. apply Forall_app in R as [_ R]. inversion R as [|? ? V _]; subst.
  cbn in V. destruct V as (_ & _ & V3 & V4 & V5). cbn in V3, V4, V5. split; [exact V5|]. apply (data_total _ (accepted_agree op A)) in V3. split; [exact V3|].
  intros L. destruct (op_slices op) as [|s [|s2 data]] eqn:E; cbn [List.length] in L; [lia|lia|]. cbn [row_bytes] in V4. pose proof (accepted_agree op A) as [AG _]. rewrite E in AG. inversion AG as [|? ? S1 _]; subst. pose proof (elem_bytes_pos s S1).
  destruct V4 as [V4|V4]; [rewrite sum_cons in V4; lia|lia].
Qed.
Print Assumptions C100_unready.

(** Attributes as programs write them: lawful.  A row of a byte and a vector is
    not a multiple of four, and a byte before it moves the short. *)
Definition s_pos : slice := mkSlice (SK CFloat AVec3) pos1.
Definition s_byte : slice := mkSlice (SK CUbyte AScalar) [[1]; [2]].
Definition s_short : slice := mkSlice (SK CUshort AScalar) [[1]; [2]].
Example C100_example :
  ready NewDocument /\ accepted (OpInterleaved [s_pos; tex]) /\ lawful (OpInterleaved [s_pos; tex]) /\ (exists d', run_op NewDocument (OpInterleaved [s_pos; tex]) = Ok d') /\
  accepted (OpInterleaved [s_pos; s_byte]) /\ ~ lawful (OpInterleaved [s_pos; s_byte]) /\ (exists d', run_op NewDocument (OpInterleaved [s_pos; s_byte]) = Ok d') /\
  ~ lawful (OpInterleaved [s_byte; s_short; s_byte]) /\ ~ lawful (OpInterleaved []) /\ ~ lawful (OpImage "" "" (Ok [])).
Proof.
  assert (AC : forall l, Forall (fun s => kind_ct (sk s) <> None /\ List.length (els s) = 2%nat) l -> agree l).
  { intros l F. rewrite Forall_forall in F. split; [apply Forall_forall; intros s I; destruct (F s I) as [H _]; unfold supported; destruct (kind_ct (sk s)) as [[c t]|]; [eauto|congruence]|].
    intros x y I J. destruct (F x I) as [_ ->], (F y J) as [_ ->]. reflexivity. }
  refine (conj _ (conj _ (conj _ (conj _ (conj _ (conj _ (conj _ (conj _ (conj _ _))))))))).
  - unfold ready, NewDocument. cbn. repeat split; try constructor; cbn; try constructor; unfold index; lia.
  - apply AC. repeat constructor; discriminate.
  - split; [cbn; auto|]. split; [exists s_pos; split; [reflexivity|discriminate]|]. split; [right; split; [vm_compute; discriminate|exists 4; reflexivity]|].
    intros _ before s after c t E K. destruct before as [|x [|y before]]; cbn [app] in E.
    + exists 0. reflexivity.
    + injection E as <- <- _. cbn in K. injection K as <- <-. exists 12. reflexivity.
    + destruct before; discriminate.
  - eexists. vm_compute. reflexivity.
  - apply AC. repeat constructor; discriminate.
  - intros (_ & _ & [H|[_ [z H]]] & _); [cbn in H; lia|]. assert (H2 : 13 = z * 4) by exact H. lia.
  - eexists. vm_compute. reflexivity.
  - intros (_ & _ & _ & H). specialize (H ltac:(discriminate) [s_byte] s_short [s_byte] CUshort AScalar eq_refl eq_refl). destruct H as [z H]. assert (H2 : 1 = z * 2) by exact H. lia.
  - intros (_ & (s & H & _) & _). discriminate.
  - intros (_ & (s & [= <-] & H) & _). apply H. reflexivity.
Qed.
