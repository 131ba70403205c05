(** C104, continued: rows of one element. *)
From Verif Require Import BaseFacts Types Binary SpecLayout BinaryProofs SliceProofs Doc F64 SpecDoc SpecTarget
  ModelerWrite ModelerRead ModelerWriteProofs ModelerReadProofs ModelerSparseProofs ModelerLayoutProofs ModelerShapeProofs
  ModelerAttrProofs ModelerTargetProofs SpecAccessor AccessorProofs AccessorWriteProofs PropsModelerWrite SpecFetch FetchProofs PropsFetch SpecRows PropsRows.

(** The stride does not matter for one element. *)
Lemma Write_one b st k v : Write b st (mkSlice k [v]) = Write b 0 (mkSlice k [v]).
Proof.
  unfold Write. destruct (TypeOf (mkSlice k [v])) as [[[c t] n]| |] eqn:ET; try reflexivity.
  assert (n = 1) as ->.
  { unfold TypeOf in ET. cbn [sk els] in ET. destruct k; try discriminate; [destruct (ct_valid c0 && at_valid t0); [|discriminate]|..]; injection ET as _ _ <-; reflexivity. }
  cbn [bind]. change (1 =? 0) with false. cbv iota. change (1 - 1) with 0. rewrite !Z.mul_0_r. cbn [sk els write_loop]. rewrite !Z.mul_0_r. reflexivity.
Qed.

Lemma put_one k c t v b st : kind_ct k = Some (c, t) -> wf_elem c t v -> (element_size c t <= List.length b)%nat -> Z.of_nat (List.length b) < 2 ^ 63 ->
  exists b', Write b st (mkSlice k [v]) = Ok b' /\ List.length b' = List.length b /\ stored_at c t b' 0 v /\
    forall p, (element_size c t <= p)%nat -> nth_error b' p = nth_error b p.
Proof.
  intros Hk W L M. destruct (kind_ct_valid _ _ _ Hk) as [Hc Ht]. pose proof (element_size_pos c t Hc Ht).
  destruct (Write_ok k c t [v] b 0 Hk (Forall_cons _ W (Forall_nil _)) (or_introl eq_refl) ltac:(lia) M) as (b' & E & S).
  { cbn. lia. }
  change (Z.of_nat 0) with 0 in E. rewrite <- (Write_one b st) in E. exists b'. split; [exact E|]. pose proof S as [S1 S2]. split; [exact S1|].
  unfold eff_stride in *. cbn [Nat.eqb] in *. split.
  - pose proof (stored_all_stored_at c t b b' (element_size c t) [v] 0 v Hc Ht (le_n _) S) as Q. rewrite Nat.mul_0_r in Q. apply Q; [|reflexivity]. cbn. lia.
  - intros p Hp. destruct (Nat.lt_ge_cases p (List.length b)) as [P|P].
    + rewrite S2 by exact P. destruct (p / element_size c t)%nat as [|q] eqn:D; [|destruct q; reflexivity].
      apply Nat.div_small_iff in D; lia.
    + transitivity (@None ascii); [apply nth_error_None; lia|symmetry; apply nth_error_None; lia].
Qed.

Lemma row_loop data : forall buf st pos, Forall wf_slice data -> Forall (fun s => List.length (els s) = 1%nat) data ->
  (pos + sum_sizes data <= List.length buf)%nat -> Z.of_nat (List.length buf) < 2 ^ 63 ->
  exists buf', write_data_loop buf st (Z.of_nat pos) data = Ok buf' /\ List.length buf' = List.length buf /\
    (forall p, (p < pos)%nat -> nth_error buf' p = nth_error buf p) /\
    forall k s c t v, nth_error data k = Some s -> kind_ct (sk s) = Some (c, t) -> els s = [v] ->
      stored_at c t buf' (pos + sum_sizes (firstn k data)) v.
Proof.
  induction data as [|s data IH]; intros buf st pos HW H1 HL HM.
  { exists buf. repeat split; auto. intros [|k] ? ? ? ? E; discriminate. }
  apply Forall_cons_iff in HW as [W HW]. apply Forall_cons_iff in H1 as [L1 H1]. rewrite sum_sizes_cons in HL.
  destruct W as (c & t & Hs & W). rewrite (elem_bytes_kind _ _ _ Hs) in HL. destruct (kind_ct_valid _ _ _ Hs) as [Hc Ht].
  destruct s as [k0 [|v [|]]]; cbn [els sk] in *; try discriminate. apply Forall_inv in W.
  cbn [write_data_loop]. unfold slice_from, zlen. destruct ((0 <=? Z.of_nat pos) && (Z.of_nat pos <=? Z.of_nat (List.length buf))) eqn:E1; [|lia].
  rewrite Nat2Z.id. cbn [bind].
  destruct (put_one k0 c t v (skipn pos buf) st Hs W) as (tail & E & T1 & T2 & T3); [rewrite skipn_length; lia|rewrite skipn_length; lia|].
  rewrite E. cbn [bind]. rewrite (TypeOf_kind _ _ _ _ Hs). cbn [bind]. rewrite SizeOfElement_nat by auto. rewrite skipn_length in T1.
  set (buf1 := overwrite buf pos tail).
  assert (L2 : List.length buf1 = List.length buf) by (apply overwrite_length; lia).
  assert (N1 : forall p, nth_error buf1 p = if (pos <=? p)%nat then nth_error tail (p - pos) else nth_error buf p).
  { intros p. unfold buf1. rewrite nth_error_overwrite by lia.
    destruct (pos <=? p)%nat eqn:E2; cbn [andb]; [|reflexivity].
    destruct (p <? pos + List.length tail)%nat eqn:E3; [reflexivity|].
    transitivity (@None ascii); [apply nth_error_None; lia|symmetry; apply nth_error_None; lia]. }
  rewrite <- Nat2Z.inj_add. destruct (IH buf1 st (pos + element_size c t)%nat HW H1) as (buf' & E' & L' & F' & S'); [lia|rewrite L2; exact HM|].
  exists buf'. split; [exact E'|]. split; [lia|]. pose proof (element_size_pos c t Hc Ht). split.
  - intros p Hp. rewrite F' by lia. rewrite N1. destruct (pos <=? p)%nat eqn:E2; [lia|reflexivity].
  - intros [|k] s c' t' w Hk Hs' Hw.
    + cbn in Hk. injection Hk as <-. cbn [sk els] in *. rewrite Hs in Hs'. injection Hs' as <- <-. injection Hw as <-.
      cbn [firstn]. change (sum_sizes []) with 0%nat. rewrite Nat.add_0_r. intros j y Hj. pose proof (encoded_byte_bound _ _ _ _ _ Hc Ht Hj).
      rewrite F' by lia. rewrite N1. destruct (pos <=? pos + j)%nat eqn:E2; [|lia]. replace (pos + j - pos)%nat with j by lia. exact (T2 j y Hj).
    + cbn in Hk. cbn [firstn]. rewrite sum_sizes_cons, (elem_bytes_kind (mkSlice k0 [v]) c t Hs), Nat.add_assoc. exact (S' _ _ _ _ _ Hk Hs' Hw).
Qed.

(** Slices of one element each: all are read back, but []int8 only as the last. *)
Theorem C104_one_row d data d' idx k s c t :
  WriteAccessorsInterleaved d data = Ok (d', Ok idx) -> (2 <= List.length data)%nat -> Forall wf_slice data ->
  nth_error data k = Some s -> kind_ct (sk s) = Some (c, t) -> List.length (els s) = 1%nat ->
  (sk s = SK CByte AScalar -> S k = List.length data) ->
  (forall v, In (Some v) (doc_BufferViews d') -> modest_view v) ->
  exists a, nth_error (doc_Accessors d') (List.length (doc_Accessors d) + k) = Some (Some a) /\
    forall buffer p, buffer = [] \/ ~ (c = CUint /\ t = AMat3) -> ReadAccessor d' a buffer p = Ok (mkSlice (read_kind (sk s)) (els s)).
Proof.
  intros H L HW Hk Ks L1 HB M. pose proof H as H0.
  destruct (rows_shape _ _ _ _ _ _ H L Hk) as (c0 & t0 & a & v & b & vo & i & Ks' & Ha & A1 & A2 & A3 & A4 & A5 & A6 & A7 & F & SP & V1 & V2 & V3).
  rewrite Ks in Ks'. injection Ks' as <- <-. destruct (kind_ct_valid _ _ _ Ks) as [Hc Ht]. pose proof (element_size_pos c t Hc Ht) as EP.
  exists a. split; [exact Ha|]. intros buffer p Hb.
  assert (MO : modest d' a) by (split; [exact M|]; split; [rewrite A4; unfold zlen; rewrite L1; reflexivity|intros sp E; congruence]).
  destruct (C95_outcome d' a buffer p MO) as (_ & O & _). rewrite (read_kind_ct _ _ _ Ks). rewrite A1, A2 in O. apply O. clear O.
  exists (els s). rewrite A3. split; [|reflexivity].
  destruct (els s) as [|w [|]] eqn:Es; try discriminate. 
  pose proof (sum_sizes_split _ _ _ Hk) as SS. rewrite (elem_bytes_kind _ _ _ Ks) in SS.
  assert (WE : wf_elem c t w).
  { rewrite Forall_forall in HW. destruct (HW s (nth_error_In _ _ Hk)) as (c2 & t2 & K2 & W2). rewrite Ks in K2. injection K2 as <- <-. rewrite Es in W2. exact (Forall_inv W2). }
  assert (ST : stored_at c t (buf_Data b) (vo + sum_sizes (firstn k data)) w).
  { apply WriteAccessorsInterleaved_shaped in H0. destruct H0 as (d0 & d1 & vi & accs & HP & HV & -> & _).
    assert (EV : doc_BufferViews d0 = doc_BufferViews d) by (apply ensurePadding_inv in HP as (pre & b0 & b' & pad & _ & -> & _); reflexivity).
    apply writeBufferViews_inv in HV as [(e & [=] & _)|HV].
    destruct HV as (pre & b0 & stride & size & written & b' & [= ->] & HV & HLB & HS0 & HM & HD & HL & _ & -> & ->).
    assert (Hne : data <> []) by (intros ->; destruct k; discriminate).
    destruct (view_loop_sized _ _ _ _ Hne HV) as (st & e & n & -> & Hsz & ->).
    pose proof (sized_nth _ _ _ _ _ _ Hsz Hk) as (c' & t' & _ & Hn & _). rewrite Es in Hn. cbn in Hn. subst n.
    assert (ALL : Forall (fun s => List.length (els s) = 1%nat) data).
    { destruct Hsz as (HF & _). eapply Forall_impl; [|exact HF]. intros x (? & ? & _ & Q & _). exact Q. }
    destruct Hsz as (_ & Hsum & _). subst e. rewrite Nat.mul_1_l, Nat2Z.id in *.
    destruct F as (_ & F2 & _ & F4). rewrite A6, Nat2Z.id in F2. unfold with_accs in F2, F4.
    cbn [doc_BufferViews set_doc_BufferViews set_doc_Accessors] in F2. rewrite EV, nth_error_app2, Nat.sub_diag in F2 by lia. cbn in F2. injection F2 as <-.
    cbn [bvw_Buffer mk_view] in F4. unfold zlen in F4. rewrite Nat2Z.id in F4. cbn [doc_Buffers set_doc_BufferViews set_doc_Buffers set_doc_Accessors] in F4.
    rewrite nth_error_app2, Nat.sub_diag in F4 by lia. cbn in F4. injection F4 as <-. cbn [buf_Data set_buf_Data].
    cbn in V1. apply Nat2Z.inj in V1. subst vo.
    assert (Hm63 : max_alloc < 2 ^ 63) by (vm_compute; reflexivity).
    destruct (row_loop data (buf_Data b0 ++ zeros (sum_sizes data)) (Z.of_nat st) (List.length (buf_Data b0)) HW ALL) as (buf' & E' & _ & _ & S').
    { rewrite app_length, zeros_length. lia. }
    { rewrite app_length, zeros_length. unfold zlen in HM. lia. }
    unfold zlen in HD. assert (buf' = written) as -> by congruence. exact (S' _ _ _ _ _ Hk Ks Es). }
  unfold base_reads, dense_reads. rewrite A1, A2, A4, A5, A7. split; [exact Hc|]. split; [exact Ht|]. split.
  { intros [Q|(Q1 & Q2 & Q3)]; [cbn in Q; lia|]. destruct Hb as [Hb|Hb]; [contradiction|tauto]. }
  split; [reflexivity|]. exists v, b. split; [exact F|]. split; [exact SP|]. cbn [List.length] in V3. rewrite V3, Nat.mul_1_l. split; [lia|]. split.
  { unfold SpecFetch.extent. change (zlen [w]) with 1. lia. }
  split.
  { unfold decode_crashes. change (zlen [w]) with 1. intros [(-> & -> & Q)|(_ & Q & _)]; [|lia].
    assert (sk s = SK CByte AScalar) as E.
    { destruct (sk s) as [c1 t1| | | |]; try discriminate. cbn in Ks. destruct (ct_valid c1 && at_valid t1); [|discriminate]. congruence. }
    pose proof (last_size _ _ _ Hk (HB E)) as LS. rewrite (elem_bytes_kind _ _ _ Ks) in LS. change (element_size CByte AScalar) with 1%nat in LS. lia. }
  intros [|j] x Hx; [|destruct j; discriminate]. injection Hx as <-. unfold element_of. rewrite V1, V3, Nat.mul_1_l.
  replace (Z.of_nat 0 <? Z.of_nat (sum_sizes data) - Z.of_nat (sum_sizes (firstn k data))) with true by lia.
  rewrite Z.mul_0_r. replace (Z.to_nat (Z.of_nat vo + Z.of_nat (sum_sizes (firstn k data)) + Z.of_nat 0)) with (vo + sum_sizes (firstn k data))%nat by lia.
  replace (Z.to_nat (Z.of_nat vo + Z.of_nat (sum_sizes (firstn k data)) + 0)) with (vo + sum_sizes (firstn k data))%nat by lia.
  destruct (bytes_only c t); auto.
Qed.
Print Assumptions C104_one_row.

(** One byte, one short and one signed byte. *)
Example C104_one_row_example : let data := [mkSlice (SK CUbyte AScalar) [[7]]; mkSlice (SK CUshort AScalar) [[515]]; mkSlice (SK CByte AScalar) [[1]]] in
  Forall wf_slice data /\ exists d idx, WriteAccessorsInterleaved zero_Document data = Ok (d, Ok idx) /\
  match doc_BufferViews d with [Some v] => modest_view v | _ => False end.
Proof.
  cbv zeta. split.
  - repeat (constructor; [eexists; eexists; split; [reflexivity|constructor; [split; [reflexivity|constructor; [cbn; lia|constructor]]|constructor]]|]). constructor.
  - do 2 eexists. split; [vm_compute; reflexivity|]. vm_compute. repeat split; reflexivity.
Qed.
