(** When the writers crash, fail and succeed: C98. *)
From Verif Require Import BaseFacts Types Binary SpecLayout BinaryProofs Doc SpecDoc ModelerWrite ModelerWriteProofs ModelerLayoutProofs ModelerShapeProofs ModelerAttrProofs SpecAppend.

Lemma supported_dec s : supported s \/ ~ supported s.
Proof. unfold supported. destruct (kind_ct (sk s)) as [[c t]|]; [left; eauto|right; intros (c & t & H); discriminate]. Qed.
Lemma type_of s : (exists c t, kind_ct (sk s) = Some (c, t) /\ TypeOf s = Ok (c, t, zlen (els s)) /\ ct_valid c = true /\ at_valid t = true) \/ ~ supported s /\ TypeOf s = Panic.
Proof.
  unfold TypeOf, supported. destruct (sk s) as [c t| | | |]; cbn [kind_ct].
  - destruct (ct_valid c && at_valid t) eqn:V; [left; exists c, t; apply andb_prop in V; tauto|right]. split; [intros (? & ? & H); discriminate|reflexivity].
  - left. exists CUbyte, AVec4. auto.
  - left. exists CUshort, AVec4. auto.
  - right. split; [intros (? & ? & H); discriminate|reflexivity].
  - right. split; [intros (? & ? & H); discriminate|reflexivity].
Qed.

(** ** The loop over the slices *)
Lemma view_loop_fate tgt nd ref i : forall data st sz,
  match view_loop tgt nd (S i) ref st sz data with
  | Ok (Ok (st', sz')) => Forall (fun s => supported s /\ zlen (els s) = ref) data /\ sz' = sz + ref * Z.of_nat (sum_sizes data) /\ ((1 < nd)%nat -> st' = st + Z.of_nat (sum_sizes data)) /\ (data = [] -> st' = st)
  | Ok (Err _) => exists before s after, data = before ++ s :: after /\ Forall (fun s => supported s /\ zlen (els s) = ref) before /\ supported s /\ zlen (els s) <> ref
  | Panic => exists before s after, data = before ++ s :: after /\ Forall (fun s => supported s /\ zlen (els s) = ref) before /\ ~ supported s
  | _ => False
  end.
Proof.
  intros data. revert i. induction data as [|s data IH]; intros i st sz; cbn [view_loop].
  - split; [constructor|]. cbn. split; [lia|]. split; [lia|reflexivity].
  - destruct (type_of s) as [(c & t & K & T & Hc & Ht)|(NS & T)]; rewrite T; cbn [bind].
    2: { exists [], s, data. split; [reflexivity|]. split; [constructor|exact NS]. }
    assert (SP : supported s) by (exists c, t; exact K). cbn [Nat.eqb negb andb].
    destruct (Z.eqb_spec ref (zlen (els s))) as [E|E]; cbn [negb].
    2: { exists [], s, data. split; [reflexivity|]. split; [constructor|]. split; [exact SP|congruence]. }
    rewrite SizeOfElement_nat by auto. rewrite <- E.
    assert (EB : elem_bytes s = element_size c t) by (unfold elem_bytes; rewrite K; reflexivity).
    match goal with |- context [view_loop tgt nd (S (S i)) ref ?a ?b data] => specialize (IH (S i) a b); destruct (view_loop tgt nd (S (S i)) ref a b data) as [[[st' sz']|e|]|e|] end; try contradiction.
    + destruct IH as (I1 & I2 & I3 & I4). split; [constructor; auto|]. unfold sum_sizes in *. cbn [map list_sum fold_right]. fold (list_sum (map elem_bytes data)). rewrite EB.
      split; [rewrite I2; lia|]. split; [|discriminate]. intros H. rewrite (I3 H). replace (1 <? nd)%nat with true by lia. lia.
    + destruct IH as (before & s' & after & -> & I1 & I2 & I3). exists (s :: before), s', after. split; [reflexivity|]. split; [constructor; auto|auto].
    + destruct IH as (before & s' & after & -> & I1 & I2). exists (s :: before), s', after. split; [reflexivity|]. split; [constructor; auto|auto].
Qed.
Lemma agree_ref s data : agree (s :: data) <-> supported s /\ Forall (fun x => supported x /\ zlen (els x) = zlen (els s)) data.
Proof.
  unfold agree, same_length. split.
  - intros [A B]. inversion A as [|? ? A1 A2]; subst. split; [exact A1|]. apply Forall_forall. intros x I. split; [rewrite Forall_forall in A2; auto|].
    unfold zlen. f_equal. apply B; [right; exact I|left; reflexivity].
  - intros [A B]. rewrite Forall_forall in B. split; [constructor; [exact A|]; apply Forall_forall; intros x I; apply B; exact I|].
    assert (C : forall x, In x (s :: data) -> List.length (els x) = List.length (els s)) by (intros x [<-|I]; [reflexivity|destruct (B x I) as [_ E]; unfold zlen in E; lia]).
    intros x y Ix Iy. rewrite (C x Ix), (C y Iy). reflexivity.
Qed.
(** All of the loop. *)
Lemma views_fate tgt data :
  match view_loop tgt (List.length data) 0 0 0 0 data with
  | Ok (Ok (st, sz)) => agree data /\ sz = total_bytes data /\
      ((2 <= List.length data)%nat -> st = Z.of_nat (sum_sizes data)) /\
      (forall s, data = [s] -> st = 0 \/ st = Z.of_nat (elem_bytes s))
  | Ok (Err _) => other_length data
  | Panic => other_type data
  | _ => False
  end.
Proof.
  destruct data as [|s data]; cbn [view_loop].
  { split; [split; [constructor|intros x y []]|]. split; [reflexivity|]. split; [cbn; lia|discriminate]. }
  destruct (type_of s) as [(c & t & K & T & Hc & Ht)|(NS & T)]; rewrite T; cbn [bind].
  2: { exists [], s, data. split; [reflexivity|]. split; [split; [constructor|intros x y []]|exact NS]. }
  assert (SP : supported s) by (exists c, t; exact K). cbn [Nat.eqb negb andb]. rewrite SizeOfElement_nat by auto.
  assert (EB : elem_bytes s = element_size c t) by (unfold elem_bytes; rewrite K; reflexivity).
  set (nd := List.length (s :: data)).
  match goal with |- context [view_loop tgt nd 1 ?r ?a ?b data] => pose proof (view_loop_fate tgt nd r 0 data a b) as VF; set (st0 := a) in *; destruct (view_loop tgt nd 1 r st0 b data) as [[[st' sz']|e|]|e|] end; try contradiction.
  - destruct VF as (I1 & I2 & I3 & I4). split; [apply agree_ref; auto|]. split; [unfold total_bytes, sum_sizes in *; cbn [map list_sum fold_right]; fold (list_sum (map elem_bytes data)); rewrite EB; lia|].
    split.
    + intros L. rewrite I3 by (unfold nd; lia). unfold st0. replace (1 <? nd)%nat with true by (unfold nd; lia). unfold sum_sizes. cbn [map list_sum fold_right]. fold (list_sum (map elem_bytes data)). lia.
    + intros s' E. assert (data = []) by congruence. assert (s' = s) by congruence. subst s'. rewrite (I4 H). unfold st0, nd. subst data. cbn [List.length Nat.ltb Nat.leb]. rewrite EB. destruct (_ && _); auto.
  - destruct VF as (before & x & after & -> & I1 & I2 & I3). exists s, before, x, after. split; [reflexivity|]. split; [apply agree_ref; auto|]. auto.
  - destruct VF as (before & x & after & -> & I1 & I2). exists (s :: before), x, after. split; [reflexivity|]. split; [apply agree_ref; auto|auto].
Qed.

(** ** The loop that stores the slices *)
Lemma elem_bytes_pos s : supported s -> (1 <= elem_bytes s)%nat.
Proof. intros (c & t & K). unfold elem_bytes. rewrite K. destruct (kind_ct_valid _ _ _ K) as [Hc Ht]. destruct c, t; try discriminate; cbn; lia. Qed.
Lemma overwrite_tail (b t : bytes) (o : nat) : (o <= List.length b)%nat -> List.length t = List.length (skipn o b) -> List.length (overwrite b o t) = List.length b.
Proof. intros H E. rewrite skipn_length in E. apply overwrite_length. lia. Qed.
Lemma esize_64 c t : ct_valid c = true -> at_valid t = true -> (element_size c t <= 64)%nat.
Proof. intros Hc Ht. destruct c, t; try discriminate; cbn; lia. Qed.
Lemma store_ok n st : forall data buf off,
  Forall (fun s => supported s /\ typed s /\ zlen (els s) = n /\ (st = 0 \/ (elem_bytes s <= st))%nat /\ (n * Z.of_nat (Nat.max (elem_bytes s) st) < 2 ^ 63)%Z) data ->
  0 <= off -> off + Z.of_nat (sum_sizes data) <= zlen buf \/ (List.length data <= 1)%nat /\ off <= zlen buf -> zlen buf < 2 ^ 63 -> 0 <= n -> Z.of_nat st < 2 ^ 63 ->
  exists w, write_data_loop buf (Z.of_nat st) off data = Ok w.
Proof.
  induction data as [|s data IH]; intros buf off F Ho Hb H63 Hn Hst; cbn [write_data_loop]; [eauto|].
  apply Forall_cons_iff in F. destruct F as [(SP & TY & E & HS & FIT) F].
  assert (SE : sum_sizes (s :: data) = (elem_bytes s + sum_sizes data)%nat) by reflexivity.
  assert (OFF : off <= zlen buf) by (rewrite SE in Hb; lia).
  unfold slice_from. replace ((0 <=? off) && (off <=? zlen buf)) with true by lia. cbn [bind].
  set (tl := skipn (Z.to_nat off) buf).
  assert (LT : List.length tl = (List.length buf - Z.to_nat off)%nat) by apply skipn_length.
  destruct SP as (c & t & K). assert (SP : supported s) by (exists c, t; exact K). destruct (kind_ct_valid _ _ _ K) as [Hc Ht].
  assert (EB : elem_bytes s = element_size c t) by (unfold elem_bytes; rewrite K; reflexivity).
  pose proof (elem_bytes_pos s SP) as POS.
  assert (NP : Write tl (Z.of_nat st) s <> Panic).
  { destruct s as [k vs]. cbn [sk els] in *. eapply Write_no_panic; [exact K|apply TY; exact K| | |].
    - rewrite <- EB. lia.
    - unfold fits, eff_stride, needed. rewrite EB in *. unfold zlen in E. set (e := if (st =? 0)%nat then element_size c t else st). assert (e <= Nat.max (element_size c t) st)%nat by (unfold e; destruct (st =? 0)%nat; lia).
      assert (element_size c t <= e)%nat by (unfold e; destruct (Nat.eqb_spec st 0); lia).
      split; [nia|]. split; [|destruct (List.length vs); nia]. unfold e. destruct (st =? 0)%nat; [|lia]. pose proof (esize_64 c t Hc Ht). lia.
    - unfold zlen in *. lia. }
  rewrite (TypeOf_ok _ _ _ K). cbn [bind]. rewrite SizeOfElement_nat by auto. rewrite <- EB.
  assert (REST : forall buf', List.length buf' = List.length buf -> exists w, write_data_loop buf' (Z.of_nat st) (off + Z.of_nat (elem_bytes s)) data = Ok w).
  { intros buf' L. destruct data as [|s1 data1] eqn:ED; [cbn; eauto|]. rewrite <- ED in *. apply IH; auto; [lia| |unfold zlen in *; lia].
    left. unfold zlen in *. rewrite SE in Hb. destruct Hb as [Hb|[L1 _]]; [lia|]. rewrite ED in L1. cbn in L1. lia. }
  destruct (Write tl (Z.of_nat st) s) as [tl'|e|] eqn:W; cbn [bind]; [|apply REST; reflexivity|congruence].
  apply REST. apply overwrite_tail; [unfold zlen in *; lia|]. rewrite (Write_length _ _ _ _ W). reflexivity.
Qed.

(** ** The last buffer *)
Lemma last_cases d : last_nil d /\ lastBuffer d = Panic \/ exists pre b, last_buffer_is d pre b /\ ~ last_nil d /\ last_bytes d = zlen (buf_Data b) /\ lastBuffer d = Ok (set_doc_Buffers (pre ++ [Some b]) d, b).
Proof.
  destruct (doc_Buffers d) as [|x l] eqn:E.
  { right. assert (L : last_buffer_is d [] zero_Buffer) by (right; auto). exists [], zero_Buffer. split; [exact L|]. split; [intros (k & H); rewrite E in H; destruct k; discriminate|].
    split; [unfold last_bytes; rewrite E; reflexivity|]. apply lastBuffer_ok. exact L. }
  destruct (exists_last (l := x :: l)) as (pre & z & Hz); [discriminate|]. rewrite Hz in E. destruct z as [b|].
  - right. assert (L : last_buffer_is d pre b) by (left; exact E). exists pre, b. split; [exact L|]. split; [|split; [|apply lastBuffer_ok; exact L]].
    + intros (k & H). rewrite E in H. apply app_inj_tail in H. destruct H; discriminate.
    + unfold last_bytes. rewrite E, rev_app_distr. reflexivity.
  - left. split; [exists pre; exact E|]. unfold lastBuffer. rewrite E. destruct (pre ++ [None]) as [|y k] eqn:E1; [destruct pre; discriminate|]. rewrite <- E1 in E. rewrite E. unfold index. rewrite zlen_app. unfold zlen. cbn [List.length].
    destruct ((0 <=? _) && _) eqn:E2; [|lia].
    replace (Z.to_nat (Z.of_nat (List.length pre) + Z.of_nat 1 - 1)) with (List.length pre) by lia.
    rewrite nth_error_app2, Nat.sub_diag by lia. reflexivity.
Qed.
Lemma grow_cases (b : bytes) n : 0 <= n -> beyond (zlen b + n) /\ grow b n = Panic \/ ~ beyond (zlen b + n) /\ grow b n = Ok (b ++ zeros (Z.to_nat n)).
Proof. intros H. unfold beyond, grow. change (2 ^ 48) with max_alloc. replace (n <? 0) with false by lia. cbn [orb]. destruct (Z.ltb_spec max_alloc (zlen b + n)); [left|right]; split; auto; lia. Qed.
Lemma padded_eq n : 0 <= n -> n + getPadding n = (n + 3) / 4 * 4.
Proof. intros H. destruct (getPadding_spec n H) as [A B]. lia. Qed.
Lemma padding_cases d : (last_nil d \/ beyond (last_padded d)) /\ ensurePadding d = Panic \/
  ~ last_nil d /\ ~ beyond (last_padded d) /\ exists d', ensurePadding d = Ok d' /\ ~ last_nil d' /\ last_bytes d' = last_padded d.
Proof.
  unfold ensurePadding. destruct (last_cases d) as [(N & ->)|(pre & b & L & N & B & ->)]; cbn [bind]; [left; auto|].
  pose proof (getPadding_spec (zlen (buf_Data b)) (zlen_nonneg _)) as [P1 P2].
  assert (LP : last_padded d = zlen (buf_Data b) + getPadding (zlen (buf_Data b))) by (unfold last_padded; rewrite B; symmetry; apply padded_eq; apply zlen_nonneg).
  destruct (grow_cases (buf_Data b) (getPadding (zlen (buf_Data b))) ltac:(lia)) as [(G & ->)|(G & ->)]; cbn [bind]; [left; rewrite LP; auto|].
  right. split; [exact N|]. split; [rewrite LP; exact G|]. eexists. split; [reflexivity|]. rewrite set_lastBuffer_app. split.
  - intros (k & H). rewrite doc_Buffers_set in H. apply app_inj_tail in H. destruct H; discriminate.
  - unfold last_bytes. rewrite doc_Buffers_set, rev_app_distr. cbn [rev app buf_Data set_buf_ByteLength set_buf_Data]. rewrite zlen_app, zlen_zeros by lia. lia.
Qed.

(** ** The three cases exclude each other *)
Lemma other_type_not data : other_type data -> ~ agree data.
Proof. intros (b & s & a & -> & _ & NS) [A _]. rewrite Forall_forall in A. apply NS, A. apply in_or_app. right; left; reflexivity. Qed.
Lemma other_length_not data : other_length data -> ~ agree data.
Proof. intros (f & b & s & a & -> & _ & _ & NE) [_ A]. apply NE. unfold zlen. f_equal. apply A; [apply in_or_app; right; left; reflexivity|left; reflexivity]. Qed.
Lemma other_length_type data : other_length data -> ~ other_type data.
Proof.
  intros (f & b & s & a & E & (A1 & A2) & SP & NE) (b' & s' & a' & E' & (B1 & B2) & NS). rewrite E in E'.
  assert (C : (exists m, f :: b = b' ++ s' :: m) \/ (f :: b = b' /\ s = s') \/ exists m, b' = (f :: b) ++ s :: m).
  { clear -E'. revert E'. generalize (f :: b) as x. intros x. revert b'. induction x as [|y x IH]; intros b' E; destruct b' as [|z b']; cbn [app] in E.
    - right; left. split; [reflexivity|congruence].
    - right; right. exists b'. cbn. congruence.
    - left. exists x. cbn. congruence.
    - assert (y = z) by congruence. subst z. assert (E2 : x ++ s :: a = b' ++ s' :: a') by congruence. destruct (IH b' E2) as [(m & ->)|[[-> ->]|(m & ->)]]; [left; exists m; reflexivity|right; left; auto|right; right; exists m; reflexivity]. }
  destruct C as [(m & C)|[[_ ->]|(m & ->)]].
  - apply NS. rewrite C in A1. rewrite Forall_forall in A1. apply A1. apply in_or_app. right; left; reflexivity.
  - exact (NS SP).
  - apply NE. unfold zlen. f_equal. apply B2; [apply in_or_app; right; left; reflexivity|left; reflexivity].
Qed.

Lemma total_nonneg data : 0 <= total_bytes data.
Proof. destruct data as [|s data]; cbn [total_bytes]; [lia|]. pose proof (zlen_nonneg (els s)). nia. Qed.
Lemma sum_in s data : In s data -> (elem_bytes s <= sum_sizes data)%nat.
Proof. induction data as [|x data IH]; intros []; unfold sum_sizes in *; cbn [map list_sum fold_right]; fold (list_sum (map elem_bytes data)); [subst; lia|]. specialize (IH H). lia. Qed.
Lemma els_nil s : {els s = []} + {els s <> []}.
Proof. destruct (els s); [left; reflexivity|right; discriminate]. Defined.
Lemma append_fate d tgt data : Forall typed data ->
  match writeBufferViews d tgt data with
  | Panic => append_crashes false d data
  | Ok (d', Err _) => other_length data /\ d' = d
  | Ok (d', Ok _) => agree data /\ ~ append_crashes false d data
  | _ => False
  end.
Proof.
  intros TY. unfold writeBufferViews. pose proof (views_fate tgt data) as VF. destruct (view_loop tgt (List.length data) 0 0 0 0 data) as [[[st sz]|e|]|e|]; try contradiction; cbn [bind].
  2: { auto. }
  2: { left. exact VF. }
  destruct VF as (AG & -> & S2 & S1). pose proof (total_nonneg data) as TN.
  destruct (last_cases d) as [(N & ->)|(pre & b & L & N & B & ->)]; cbn [bind]; [right; left; auto|].
  destruct (grow_cases (buf_Data b) (total_bytes data) TN) as [(G & ->)|(G & ->)]; cbn [bind]; [right; right; unfold start; rewrite B; auto|].
  pose proof (zlen_nonneg (buf_Data b)) as BN. assert (G' : zlen (buf_Data b) + total_bytes data <= 2 ^ 48) by (unfold beyond in G; lia).
  assert (SAFE : several_empty data \/ ~ several_empty data).
  { unfold several_empty. destruct (Nat.le_gt_cases 2 (List.length data)); [|right; intros [? _]; lia].
    destruct (Forall_dec (fun s => els s = []) els_nil data); [left; auto|right; tauto]. }
  destruct SAFE as [SE|SE].
  - destruct SE as [L2 FE]. destruct data as [|s [|s1 data1]]; [cbn in L2; lia|cbn in L2; lia|].
    assert (R : write_data_loop (buf_Data b ++ zeros (Z.to_nat (total_bytes (s :: s1 :: data1)))) st (zlen (buf_Data b)) (s :: s1 :: data1) = Panic).
    2: { rewrite R. cbn [bind]. right; right. split; [exact AG|right]. split; [cbn; lia|exact FE]. }
    assert (E0 : els s = []) by (inversion FE; auto). assert (Z0 : total_bytes (s :: s1 :: data1) = 0) by (cbn [total_bytes]; rewrite E0; reflexivity). rewrite Z0. cbn [Z.to_nat zeros repeat]. rewrite app_nil_r.
    destruct AG as [AS _]. apply Forall_cons_iff in AS. destruct AS as [(c & t & K) _]. destruct (kind_ct_valid _ _ _ K) as [Hc Ht].
    assert (EP : (1 <= element_size c t)%nat) by (destruct c, t; try discriminate; cbn; lia).
    cbn [write_data_loop]. unfold slice_from at 1. replace ((0 <=? zlen (buf_Data b)) && (zlen (buf_Data b) <=? zlen (buf_Data b))) with true by lia. cbn [bind].
    unfold Write. rewrite (TypeOf_ok _ _ _ K). cbn [bind]. rewrite E0. cbn [zlen List.length Z.of_nat Z.eqb bind]. rewrite SizeOfElement_nat by auto.
    rewrite skipn_all2 by (unfold zlen; lia). unfold slice_from. replace (zlen (overwrite _ _ _)) with (zlen (buf_Data b)). 2: { unfold zlen. f_equal. symmetry. apply overwrite_length. cbn. lia. }
    replace ((0 <=? zlen (buf_Data b) + Z.of_nat (element_size c t)) && (zlen (buf_Data b) + Z.of_nat (element_size c t) <=? zlen (buf_Data b))) with false by lia. reflexivity.
  - assert (W : exists w, write_data_loop (buf_Data b ++ zeros (Z.to_nat (total_bytes data))) st (zlen (buf_Data b)) data = Ok w).
    2: { destruct W as (w & ->). cbn [bind]. split; [exact AG|]. intros [O|[[_ [O|O]]|[_ [O|O]]]]; [exact (other_type_not _ O AG)|contradiction| |unfold start in O; rewrite B in O; contradiction|contradiction].
      unfold start, beyond in O. rewrite B in O. lia. }
    assert (ZL : zlen (buf_Data b ++ zeros (Z.to_nat (total_bytes data))) = zlen (buf_Data b) + total_bytes data) by (rewrite zlen_app, zlen_zeros by lia; reflexivity).
    destruct data as [|s data1] eqn:ED; [cbn; eauto|]. destruct data1 as [|s1 data2] eqn:ED1.
    + specialize (S1 s eq_refl). assert (EQ : exists st', st = Z.of_nat st' /\ (st' = 0 \/ st' = elem_bytes s)%nat) by (destruct S1 as [->| ->]; [exists 0%nat|exists (elem_bytes s)]; auto). destruct EQ as (st' & -> & HS).
      destruct AG as [AS _]. apply Forall_cons_iff in AS. destruct AS as [SP _]. apply Forall_cons_iff in TY. destruct TY as [T1 _].
      cbn [total_bytes] in *. unfold sum_sizes in *. cbn [map list_sum fold_right] in *. pose proof (zlen_nonneg (els s)). pose proof (elem_bytes_pos s SP).
      assert (elem_bytes s <= 64)%nat. { destruct SP as (c & t & K). unfold elem_bytes. rewrite K. apply esize_64; apply (kind_ct_valid _ _ _ K). }
      apply (store_ok (zlen (els s))); [|lia|right; cbn; lia|lia|lia|lia]. constructor; [|constructor]. split; [exact SP|]. split; [exact T1|]. split; [reflexivity|]. split; [lia|]. replace (Nat.max (elem_bytes s) st') with (elem_bytes s) by lia. lia.
    + rewrite <- ED1 in *. assert (L2 : (2 <= List.length (s :: data1))%nat) by (rewrite ED1; cbn; lia). rewrite (S2 L2). pose proof (proj1 (agree_ref s data1) AG) as [SP FA].
      assert (N1 : 1 <= zlen (els s)). { pose proof (zlen_nonneg (els s)). destruct (Z.eq_dec (zlen (els s)) 0) as [Z0|]; [|lia]. exfalso. apply SE. split; [exact L2|]. assert (NIL : forall x : slice, zlen (els x) = 0 -> els x = []) by (intros x H1; destruct (els x); [reflexivity|unfold zlen in H1; cbn in H1; lia]).
        constructor; [auto|]. eapply Forall_impl; [|exact FA]. intros x [_ E]. apply NIL. lia. }
      assert (TB : total_bytes (s :: data1) = zlen (els s) * Z.of_nat (sum_sizes (s :: data1))) by reflexivity.
      assert (SS : Z.of_nat (sum_sizes (s :: data1)) <= total_bytes (s :: data1)) by (rewrite TB; nia).
      apply (store_ok (zlen (els s))); [|lia|left; rewrite ZL; lia|lia|lia|lia].
      apply Forall_forall. intros x I. split; [destruct AG as [AS _]; rewrite Forall_forall in AS; auto|]. split; [rewrite Forall_forall in TY; auto|].
      split; [destruct I as [<-|I]; [reflexivity|]; rewrite Forall_forall in FA; apply FA; exact I|]. pose proof (sum_in x _ I). split; [right; assumption|]. rewrite Nat.max_r by assumption. rewrite <- TB. lia.
Qed.

(** ** Accessors *)
Lemma agree_one s : agree [s] <-> supported s.
Proof. rewrite agree_ref. split; [tauto|]. auto. Qed.
Lemma other_length_one s : ~ other_length [s].
Proof. intros (f & b & x & a & E & _). assert (L : List.length [s] = List.length ((f :: b) ++ x :: a)) by congruence. rewrite app_length in L. cbn in L. lia. Qed.
Lemma crashes_padded d d' data : last_bytes d' = last_padded d -> ~ last_nil d -> ~ last_nil d' -> ~ beyond (last_padded d) ->
  (append_crashes false d' data <-> append_crashes true d data).
Proof. intros E N N' B. unfold append_crashes, start. rewrite E. split; (intros [H|[[H1 H2]|H]]; [left; exact H| |right; right; exact H]); exfalso; tauto. Qed.

Lemma view_fate d tgt s : typed s ->
  match WriteBufferView d tgt s with Panic => append_crashes false d [s] | Ok _ => ~ append_crashes false d [s] | Err _ => False end.
Proof.
  intros T. unfold WriteBufferView. pose proof (append_fate d tgt [s] (Forall_cons _ T (Forall_nil _))) as F.
  destruct (writeBufferViews d tgt [s]) as [[d' [i|e|]]|e|]; cbn [bind]; try contradiction; [tauto| |exact F]. destruct F as [F _]. destruct (other_length_one s F).
Qed.
Lemma accessor_fate d tgt s : typed s ->
  match WriteAccessor d tgt s with Panic => append_crashes true d [s] | Ok (d', i) => ~ append_crashes true d [s] /\ exists a, nth_error (doc_Accessors d') (Z.to_nat i) = Some (Some a) /\ 0 <= i | Err _ => False end.
Proof.
  intros T. unfold WriteAccessor. destruct (padding_cases d) as [(H & ->)|(N & B & d1 & -> & N1 & L1)]; cbn [bind]; [right; left; auto|].
  pose proof (view_fate d1 tgt s T) as F. destruct (WriteBufferView d1 tgt s) as [[d2 i]|e|] eqn:W; cbn [bind]; [|contradiction|apply (crashes_padded d d1); auto].
  rewrite (crashes_padded d d1) in F by auto.
  destruct (type_of s) as [(c & t & K & TO & _)|(NS & _)].
  - rewrite TO. cbn [bind]. split; [exact F|]. unfold add_accessor. cbn [doc_Accessors set_doc_Accessors]. rewrite zlen_snoc. eexists. pose proof (zlen_nonneg (doc_Accessors d2)). split; [|lia].
    replace (Z.to_nat (zlen (doc_Accessors d2))) with (List.length (doc_Accessors d2)) by (unfold zlen; lia). rewrite nth_error_app2, Nat.sub_diag by lia. reflexivity.
  - exfalso. apply F. left. exists [], s, []. split; [reflexivity|]. split; [split; [constructor|intros x y []]|exact NS].
Qed.
Lemma interleaved_fate d data : Forall typed data ->
  match WriteAccessorsInterleaved d data with
  | Panic => append_crashes true d data
  | Ok (_, Err _) => other_length data /\ ~ append_crashes true d data
  | Ok (_, Ok _) => agree data /\ ~ append_crashes true d data
  | _ => False
  end.
Proof.
  intros T. unfold WriteAccessorsInterleaved, WriteBufferViewInterleaved. destruct (padding_cases d) as [(H & ->)|(N & B & d1 & -> & N1 & L1)]; cbn [bind]; [right; left; auto|].
  pose proof (append_fate d1 TargetArrayBuffer data T) as F. destruct (writeBufferViews d1 TargetArrayBuffer data) as [[d2 [i|e|]]|e|]; cbn [bind]; try contradiction.
  - rewrite (crashes_padded d d1) in F by auto. destruct F as [[F1 F2] F3]. destruct (accessors_loop_progress data d2 i 0 F1) as (d' & l & ->). cbn [bind]. split; [split; assumption|exact F3].
  - destruct F as [F _]. split; [exact F|]. intros [O|[[_ [O|O]]|[O _]]]; [exact (other_length_type _ F O)|contradiction|contradiction|exact (other_length_not _ F O)].
  - apply (crashes_padded d d1); auto.
Qed.

(** ** Attributes *)
Lemma kept_slices l : flat_map data_of (kept l) = attr_slices l.
Proof.
  induction l as [|a l IH]; [reflexivity|]. unfold kept, attr_slices. cbn [filter flat_map]. fold (kept l). fold (attr_slices l). unfold attr_nonempty at 1.
  destruct (attr_Data a) as [s|] eqn:E; [|exact IH]. destruct (els s) as [|v vs] eqn:EE; cbn [List.length Nat.eqb negb flat_map]; [exact IH|]. rewrite IH. unfold data_of. rewrite E. reflexivity.
Qed.
Lemma attrs_fate l : forall data props mm,
  match attrs_loop l data props mm with
  | Ok _ => Forall fine l
  | Err _ => first_is refused l
  | Panic => first_is unsliced l
  end.
Proof.
  assert (STEP : forall (P : PrimitiveAttribute -> Prop) a l, fine a -> first_is P l -> first_is P (a :: l)).
  { intros P a l' FA (b & x & af & -> & F & H). exists (a :: b), x, af. split; [reflexivity|]. split; [constructor; assumption|exact H]. }
  induction l as [|a l IH]; intros data props mm; cbn [attrs_loop]; [constructor|].
  destruct (attr_Data a) as [s|] eqn:E; cbn [sliceLength bind].
  2: { assert (FA : fine a) by (split; [intros (s & H & _)|intros (s & H & _)]; congruence). specialize (IH data props mm). destruct (attrs_loop l data props mm); auto. }
  assert (D : sk s = SNotSlice \/ sk s <> SNotSlice) by (destruct (sk s); [right|right|right|right|left]; congruence). destruct D as [D|D].
  { rewrite D. cbn [bind]. exists [], a, l. split; [reflexivity|]. split; [constructor|]. exists s. auto. }
  replace (match sk s with SNotSlice => Panic | _ => Ok (zlen (els s)) end) with (@Ok Z (zlen (els s))) by (destruct (sk s); congruence). cbn [bind].
  destruct (Z.eqb_spec (zlen (els s)) 0) as [E0|E0].
  { assert (els s = []) by (destruct (els s); [reflexivity|unfold zlen in E0; cbn in E0; lia]).
    assert (FA : fine a) by (split; [intros (x & H1 & H2)|intros (x & H1 & _ & H2 & _)]; congruence). specialize (IH data props mm). destruct (attrs_loop l data props mm); auto. }
  match goal with |- context [bind ?m _] => change m with (attr_step (attr_Name a) s mm) end.
  pose proof (attr_step_permitted (attr_Name a) s mm) as Q. destruct (attr_step (attr_Name a) s mm) as [[nm mm1]|e|]; cbn [bind]; [| |contradiction].
  - assert (FA : fine a) by (split; [intros (x & H1 & H2); congruence|intros (x & H1 & _ & _ & H2); assert (x = s) by congruence; subst x; contradiction]).
    specialize (IH (data ++ [s]) (props ++ [(attr_Name a, nm)]) mm1). destruct (attrs_loop l (data ++ [s]) (props ++ [(attr_Name a, nm)]) mm1); auto.
  - exists [], a, l. split; [reflexivity|]. split; [constructor|]. exists s. split; [exact E|]. split; [exact D|]. split; [intros H; rewrite H in E0; apply E0; reflexivity|exact Q].
Qed.
Lemma first_not_all (P : PrimitiveAttribute -> Prop) l : (forall a, P a -> ~ fine a) -> first_is P l -> ~ Forall fine l.
Proof. intros H (b & a & af & -> & _ & HP) F. rewrite Forall_forall in F. apply (H a HP). apply F. apply in_or_app. right; left; reflexivity. Qed.
Lemma unsliced_not a : unsliced a -> ~ fine a. Proof. intros H [F _]. contradiction. Qed.
Lemma refused_not a : refused a -> ~ fine a. Proof. intros H [_ F]. contradiction. Qed.
Lemma unsliced_refused a : unsliced a -> ~ refused a.
Proof. intros (s & E & K) (s' & E' & K' & _). congruence. Qed.
Lemma first_once (P Q : PrimitiveAttribute -> Prop) l : (forall a, P a -> ~ fine a) -> (forall a, Q a -> ~ fine a) -> (forall a, P a -> ~ Q a) -> first_is P l -> ~ first_is Q l.
Proof.
  intros HP HQ HX. induction l as [|x l IH]; intros (b & a & af & E & F & H) (b' & a' & af' & E' & F' & H').
  { destruct b; discriminate. }
  destruct b as [|y b], b' as [|y' b']; cbn [app] in E, E'.
  - assert (a = a') by congruence. subst a'. exact (HX a H H').
  - inversion F'; subst. apply (HP a H). assert (a = y') by congruence. subst. assumption.
  - inversion F; subst. apply (HQ a' H'). assert (a' = y) by congruence. subst. assumption.
  - inversion F; inversion F'; subst. apply IH; [exists b, a, af; split; [congruence|auto]|exists b', a', af'; split; [congruence|auto]].
Qed.
Definition typed_attrs (l : list PrimitiveAttribute) : Prop := Forall (fun a => forall s, attr_Data a = Some s -> typed s) l.
Lemma typed_slices l : typed_attrs l -> Forall typed (attr_slices l).
Proof.
  intros H. apply Forall_forall. intros s I. unfold attr_slices in I. apply in_flat_map in I. destruct I as (a & I & J). unfold typed_attrs in H. rewrite Forall_forall in H. specialize (H a I).
  destruct (attr_Data a) as [x|]; [|destruct J]. destruct (els x); [destruct J|]. destruct J as [<-|[]]. apply H. reflexivity.
Qed.
Lemma attributes_fate d l : typed_attrs l ->
  match WritePrimitiveAttributes d l with
  | Panic => attributes_crash d l
  | Ok (d', Err _) => (first_is refused l /\ d' = d \/ Forall fine l /\ other_length (attr_slices l)) /\ ~ attributes_crash d l
  | Ok (_, Ok _) => Forall fine l /\ agree (attr_slices l) /\ ~ attributes_crash d l
  | _ => False
  end.
Proof.
  intros T. unfold WritePrimitiveAttributes. pose proof (attrs_fate l [] [] (repeat 0 3, repeat 0 3)) as AF.
  destruct (attrs_loop l [] [] (repeat 0 3, repeat 0 3)) as [[[data props] [mn mx]]|e|] eqn:EA.
  3: { left. exact AF. }
  2: { split; [left; auto|]. intros [H|[H _]]; [exact (first_once _ _ l unsliced_not refused_not unsliced_refused H AF)|exact (first_not_all _ _ refused_not AF H)]. }
  apply attrs_loop_spec in EA as (-> & -> & _). cbn [app]. destruct (flat_map_kept l) as [HFl _]. rewrite kept_slices in *.
  pose proof (interleaved_fate d (attr_slices l) (typed_slices l T)) as F. destruct (WriteAccessorsInterleaved d (attr_slices l)) as [[d1 [idx|e|]]|e|] eqn:E; cbn [bind]; try contradiction.
  3: { right. auto. }
  2: { destruct F as [F1 F2]. split; [right; auto|]. intros [H|[_ H]]; [exact (first_not_all _ _ unsliced_not H AF)|contradiction]. }
  destruct F as [F1 F2]. assert (GOAL : Forall fine l /\ agree (attr_slices l) /\ ~ attributes_crash d l).
  { split; [exact AF|]. split; [exact F1|]. intros [H|[_ H]]; [exact (first_not_all _ _ unsliced_not H AF)|contradiction]. }
  apply WriteAccessorsInterleaved_shape in E as [(e & [=] & _)|E].
  destruct E as (d0 & d2 & vi & accs & HP & HV & -> & HF & [= ->] & HN).
  destruct (set_props_progress d2 (doc_Accessors d) (map prop_of (kept l))
     (List.length (attr_slices l)) 0 accs []) as (accs' & attrs' & ES & HL).
  { destruct HF as [-> _]. lia. }
  { rewrite map_length. lia. }
  rewrite ES. cbn [bind].
  destruct (map_get "POSITION" attrs') as [pos|] eqn:EP; [|exact GOAL].
  assert (HPos : exists k, (k < List.length accs')%nat /\ pos = zlen (doc_Accessors d) + Z.of_nat k).
  { refine (set_props_loop_attrs _ _ _ [] _ _ (fun i => exists k, (k < List.length accs')%nat /\ i = zlen (doc_Accessors d) + Z.of_nat k)
      _ _ ES _ _ EP).
    - apply Forall_forall. intros x Hx. apply in_map_iff in Hx as (k & <- & Hk). apply in_seq in Hk.
      exists k. split; auto. rewrite HL. destruct HF as [-> _]. lia.
    - intros k v Hk. discriminate Hk. }
  destruct HPos as (k & Hk & ->).
  destruct (nth_error accs' k) as [a|] eqn:Ea; [|apply nth_error_None in Ea; lia].
  rewrite (update_tail_ok _ _ _ _ _ _ Ea). cbn [bind].
  erewrite update_tail_ok.
  2:{ rewrite nth_error_set_nth, Nat.eqb_refl. destruct (k <? List.length accs')%nat eqn:E; [reflexivity|lia]. }
  cbn [bind]. exact GOAL.
Qed.

(** ** All the writers *)
Definition op_typed (op : wop) : Prop :=
  match op with OpPrimitiveAttributes l => typed_attrs l | OpImage _ _ _ => True | _ => Forall typed (op_slices op) end.
Lemma fst_panic {A B} (r : res (A * B)) : fst_res r = Panic <-> r = Panic.
Proof. unfold fst_res. destruct r as [[a b]|e|]; cbn; split; congruence. Qed.
Lemma accessor_op d tgt s : typed s -> (fst_res (WriteAccessor d tgt s) = Panic <-> append_crashes true d [s]).
Proof.
  intros T. rewrite fst_panic. pose proof (accessor_fate d tgt s T) as F. destruct (WriteAccessor d tgt s) as [[d' i]|e|]; [|contradiction|tauto]. split; [discriminate|tauto].
Qed.
Lemma update_ok d i a f : nth_error (doc_Accessors d) (Z.to_nat i) = Some (Some a) -> 0 <= i -> exists d', update_accessor d i f = Ok d' /\ nth_error (doc_Accessors d') (Z.to_nat i) = Some (Some (f a)).
Proof.
  intros E H. pose proof (update_accessor_ok _ _ _ f E) as U. rewrite Z2Nat.id in U by exact H. rewrite U. eexists. split; [reflexivity|]. cbn [doc_Accessors set_doc_Accessors].
  rewrite nth_error_set_nth, Nat.eqb_refl. assert (Z.to_nat i < List.length (doc_Accessors d))%nat by (apply nth_error_Some; congruence). replace (_ <? _)%nat with true by lia. reflexivity.
Qed.
Lemma normalized_op check d s (P : Prop) : typed s -> match check s with Ok _ => P | _ => ~ P end ->
  (fst_res (write_normalized check d s) = Panic <-> ~ P \/ append_crashes true d [s]).
Proof.
  intros T C. rewrite fst_panic. unfold write_normalized. destruct (check s) as [n|e|]; cbn [check_or_panic bind]; [|tauto|tauto].
  pose proof (accessor_fate d TargetArrayBuffer s T) as F. destruct (WriteAccessor d TargetArrayBuffer s) as [[d' i]|e|]; cbn [bind]; [|contradiction|tauto].
  destruct F as (F & a & E & H). destruct (update_ok d' i a (set_acr_Normalized n) E H) as (d2 & -> & _). cbn [bind]. split; [discriminate|tauto].
Qed.
Ltac kinds s := unfold one_of; destruct (sk s) as [[] []| | | |]; cbn [In]; intuition congruence.

(** ** C98: a call crashes for these reasons and no others *)
Theorem C98_panics_iff d op : op_typed op -> (run_op d op = Panic <-> op_crashes d op).
Proof.
  intros T. destruct op; cbn [run_op op_crashes op_type op_slices op_aligned op_typed] in *; try (apply Forall_cons_iff in T; destruct T as [T _]).
  - assert (C : one_of (sk d0) [SK CUshort AScalar; SK CUint AScalar] /\ WriteIndices d d0 = WriteAccessor d TargetElementArrayBuffer d0 \/ ~ one_of (sk d0) [SK CUshort AScalar; SK CUint AScalar] /\ WriteIndices d d0 = Panic).
    { unfold WriteIndices. kinds d0. }
    destruct C as [(C & ->)|(C & ->)]; [rewrite accessor_op by exact T; tauto|rewrite fst_panic; tauto].
  - unfold WriteNormal. rewrite accessor_op by exact T. tauto.
  - unfold WriteTangent. rewrite accessor_op by exact T. tauto.
  - apply normalized_op; [exact T|]. unfold checkTextureCoord. kinds d0.
  - apply normalized_op; [exact T|]. unfold checkWeights. kinds d0.
  - unfold WriteJoints. assert (C : match checkJoints d0 with Ok _ => one_of (sk d0) [SK CUbyte AVec4; SK CUshort AVec4] | _ => ~ one_of (sk d0) [SK CUbyte AVec4; SK CUshort AVec4] end) by (unfold checkJoints; kinds d0).
    destruct (checkJoints d0) as [u|e|]; cbn [check_or_panic bind]; [rewrite accessor_op by exact T; tauto| |]; rewrite fst_panic; tauto.
  - unfold WriteInverseBindMatrices. rewrite accessor_op by exact T. tauto.
  - rewrite fst_panic. unfold WritePosition. pose proof (accessor_fate d TargetArrayBuffer _ T) as F. destruct (WriteAccessor d TargetArrayBuffer {| sk := SK CFloat AVec3; els := d0 |}) as [[d' i]|e|]; cbn [bind]; [|contradiction|tauto].
    destruct F as (F & a & E & H). destruct (minMaxFloat32 d0) as [mn mx]. destruct (update_ok d' i a (set_acr_Min mn) E H) as (d2 & -> & E2). cbn [bind]. destruct (update_ok d2 i _ (set_acr_Max mx) E2 H) as (d3 & -> & _). cbn [bind]. split; [discriminate|tauto].
  - apply normalized_op; [exact T|]. unfold checkColor. kinds d0.
  - rewrite fst_panic. unfold WriteImage. destruct r as [data|e|]; [|split; [discriminate|contradiction]|tauto].
    assert (TY : typed {| sk := SK CUbyte AScalar; els := map (fun b => [b2z b]) data |}).
    { intros c t [= <- <-]. apply Forall_forall. intros v I. cbn [els] in I. apply in_map_iff in I. destruct I as (x & <- & _). split; [reflexivity|]. constructor; [|constructor]. pose proof (b2z_range x). cbn. lia. }
    pose proof (view_fate d TargetNone _ TY) as F. destruct (WriteBufferView d TargetNone _) as [[d' i]|e|]; cbn [bind]; [|contradiction|tauto]. split; [discriminate|tauto].
  - rewrite accessor_op by exact T. tauto.
  - rewrite fst_panic. pose proof (interleaved_fate d d0 T) as F. destruct (WriteAccessorsInterleaved d d0) as [[d' [i|e|]]|e|]; try contradiction; [split; [discriminate|tauto]|split; [discriminate|tauto]|tauto].
  - rewrite fst_panic. pose proof (attributes_fate d a T) as F. destruct (WritePrimitiveAttributes d a) as [[d' [i|e|]]|e|]; try contradiction; [split; [discriminate|tauto]|split; [discriminate|tauto]|tauto].
  - rewrite fst_panic. pose proof (view_fate d target d0 T) as F. destruct (WriteBufferView d target d0) as [[d' i]|e|]; [|contradiction|tauto]. split; [discriminate|tauto].
  - rewrite fst_panic. unfold WriteBufferViewInterleaved. pose proof (append_fate d TargetArrayBuffer d0 T) as F. destruct (writeBufferViews d TargetArrayBuffer d0) as [[d' [i|e|]]|e|]; try contradiction; [split; [discriminate|tauto]| |tauto].
    destruct F as [F _]. split; [discriminate|]. intros [O|[O|[[[O|O] _]|[O _]]]]; [tauto|destruct (other_length_type _ F O)|discriminate|destruct (other_length_not _ F O)|destruct (other_length_not _ F O)].
Qed.
Print Assumptions C98_panics_iff.

(** The three writers that report errors do so for these reasons and no others. *)
Theorem C98_errors_iff d data l : Forall typed data -> typed_attrs l ->
  ((exists d' e, WriteBufferViewInterleaved d data = Ok (d', Err e)) <-> other_length data) /\
  ((exists d' e, WriteAccessorsInterleaved d data = Ok (d', Err e)) <-> other_length data /\ ~ last_nil d /\ ~ beyond (last_padded d)) /\
  ((exists d' e, WritePrimitiveAttributes d l = Ok (d', Err e)) <->
     first_is refused l \/ Forall fine l /\ other_length (attr_slices l) /\ ~ last_nil d /\ ~ beyond (last_padded d)).
Proof.
  intros T TL.
  assert (CR : forall x, other_length x -> (append_crashes true d x <-> last_nil d \/ beyond (last_padded d))).
  { intros x O. unfold append_crashes, start. split; [intros [H|[[_ H]|[H _]]]; [destruct (other_length_type _ O H)|exact H|destruct (other_length_not _ O H)]|intros H; right; left; auto]. }
  refine (conj _ (conj _ _)).
  - unfold WriteBufferViewInterleaved. pose proof (append_fate d TargetArrayBuffer data T) as F. destruct (writeBufferViews d TargetArrayBuffer data) as [[d' [i|e|]]|e|]; try contradiction.
    + split; [intros (? & ? & H); discriminate|]. intros O. destruct (other_length_not _ O (proj1 F)).
    + split; [intros _; apply F|intros _; eauto].
    + split; [intros (? & ? & H); discriminate|]. intros O. destruct F as [F|[[[F|F] _]|[F _]]]; [destruct (other_length_type _ O F)|discriminate|destruct (other_length_not _ O F)|destruct (other_length_not _ O F)].
  - pose proof (interleaved_fate d data T) as F. destruct (WriteAccessorsInterleaved d data) as [[d' [i|e|]]|e|]; try contradiction.
    + split; [intros (? & ? & H); discriminate|]. intros [O _]. destruct (other_length_not _ O (proj1 F)).
    + split; [intros _|intros _; eauto]. destruct F as [F1 F2]. rewrite (CR _ F1) in F2. tauto.
    + split; [intros (? & ? & H); discriminate|]. intros [O H]. apply (CR _ O) in F. tauto.
  - pose proof (attributes_fate d l TL) as F. destruct (WritePrimitiveAttributes d l) as [[d' [i|e|]]|e|]; try contradiction.
    + split; [intros (? & ? & H); discriminate|]. destruct F as (F1 & F2 & _). intros [O|(_ & O & _)]; [destruct (first_not_all _ _ refused_not O F1)|destruct (other_length_not _ O F2)].
    + split; [intros _|intros _; eauto]. destruct F as [[[F _]|[F1 F2]] F3]; [left; exact F|right]. split; [exact F1|]. split; [exact F2|]. assert (N : ~ append_crashes true d (attr_slices l)) by (intros H; apply F3; right; auto). rewrite (CR _ F2) in N. tauto.
    + split; [intros (? & ? & H); discriminate|]. intros [O|(O1 & O2 & H)].
      * destruct F as [F|[F _]]; [destruct (first_once _ _ l unsliced_not refused_not unsliced_refused F O)|destruct (first_not_all _ _ refused_not O F)].
      * destruct F as [F|[_ F]]; [destruct (first_not_all _ _ unsliced_not F O1)|]. apply (CR _ O2) in F. tauto.
Qed.
Print Assumptions C98_errors_iff.

(** With neither, they succeed: every call has one of the three outcomes. *)
Theorem C98_succeeds_iff d data l : Forall typed data -> typed_attrs l ->
  ((exists d' i, WriteBufferViewInterleaved d data = Ok (d', Ok i)) <-> agree data /\ ~ append_crashes false d data) /\
  ((exists d' i, WriteAccessorsInterleaved d data = Ok (d', Ok i)) <-> agree data /\ ~ append_crashes true d data) /\
  ((exists d' m, WritePrimitiveAttributes d l = Ok (d', Ok m)) <-> Forall fine l /\ agree (attr_slices l) /\ ~ append_crashes true d (attr_slices l)).
Proof.
  intros T TL. refine (conj _ (conj _ _)).
  - unfold WriteBufferViewInterleaved. pose proof (append_fate d TargetArrayBuffer data T) as F. destruct (writeBufferViews d TargetArrayBuffer data) as [[d' [i|e|]]|e|]; try contradiction.
    + split; [intros _; exact F|eauto].
    + split; [intros (? & ? & H); discriminate|]. intros [A _]. destruct (other_length_not _ (proj1 F) A).
    + split; [intros (? & ? & H); discriminate|tauto].
  - pose proof (interleaved_fate d data T) as F. destruct (WriteAccessorsInterleaved d data) as [[d' [i|e|]]|e|]; try contradiction.
    + split; [intros _; exact F|eauto].
    + split; [intros (? & ? & H); discriminate|]. intros [A _]. destruct (other_length_not _ (proj1 F) A).
    + split; [intros (? & ? & H); discriminate|tauto].
  - pose proof (attributes_fate d l TL) as F. destruct (WritePrimitiveAttributes d l) as [[d' [i|e|]]|e|]; try contradiction.
    + split; [intros _|eauto]. destruct F as (F1 & F2 & F3). split; [exact F1|]. split; [exact F2|]. intros H. apply F3. right. auto.
    + split; [intros (? & ? & H); discriminate|]. intros (A1 & A2 & _). destruct F as [[[F _]|[_ F]] _]; [destruct (first_not_all _ _ refused_not F A1)|destruct (other_length_not _ F A2)].
    + split; [intros (? & ? & H); discriminate|]. intros (A1 & A2 & A3). destruct F as [F|[_ F]]; [destruct (first_not_all _ _ unsliced_not F A1)|contradiction].
Qed.
Print Assumptions C98_succeeds_iff.

(** The empty document and one whose only buffer is nil; slices with two
    elements, with one and with none, and one of an unsupported type. *)
Definition nil_last : Document := set_doc_Buffers [None] zero_Document.
Definition two : slice := mkSlice (SK CUbyte AScalar) [[1]; [2]].
Definition other : slice := mkSlice (SK CUshort AVec2) [[3; 4]; [5; 6]].
Definition one : slice := mkSlice (SK CUbyte AScalar) [[7]].
Definition none : slice := mkSlice (SK CUshort AVec2) [].
Definition outcome {A} (r : wres A) : nat := match r with Ok (_, Ok _) => 0 | Ok (_, Err _) => 1 | _ => 2 end.
Example C98_example :
  Forall typed [two; other; one; none] /\
  map (fun l => outcome (WriteAccessorsInterleaved zero_Document l)) [[two; other]; [two]; [none]; []; [two; one]; [none; none]; [two; mkSlice SOtherSlice []]; [two; one; mkSlice SOtherSlice []]]
    = [0; 0; 0; 0; 1; 2; 2; 1]%nat /\
  map (fun l => (outcome (WriteAccessorsInterleaved nil_last l), outcome (WriteBufferViewInterleaved nil_last l))) [[two; other]; [two; one]] = [(2, 2); (2, 1)]%nat /\
  map (fun l => outcome (WritePrimitiveAttributes zero_Document l))
    [[mkAttr "_A" (Some two); mkAttr "TEXCOORD_0" (Some other)]; [mkAttr "JOINTS_0" (Some other); mkAttr "_A" (Some (mkSlice SNotSlice []))];
     [mkAttr "_A" (Some (mkSlice SNotSlice [])); mkAttr "JOINTS_0" (Some other)]; [mkAttr "JOINTS_0" (Some none); mkAttr "_A" None]] = [0; 1; 2; 0]%nat /\
  op_crashes zero_Document (OpInterleaved [none; none]) /\ op_crashes nil_last (OpNormal []) /\ op_crashes zero_Document (OpIndices two) /\
  ~ op_crashes zero_Document (OpInterleaved [two; other]).
Proof.
  assert (T : Forall typed [two; other; one; none]) by (repeat (constructor; [intros c t [= <- <-]; repeat constructor; cbn; lia|]); constructor).
  assert (E : map (fun l => outcome (WriteAccessorsInterleaved zero_Document l)) [[two; other]; [two]; [none]; []; [two; one]; [none; none]; [two; mkSlice SOtherSlice []]; [two; one; mkSlice SOtherSlice []]] = [0; 0; 0; 0; 1; 2; 2; 1]%nat) by (vm_compute; reflexivity).
  refine (conj T (conj E (conj _ (conj _ (conj _ (conj _ (conj _ _))))))); try (vm_compute; reflexivity).
  - apply C98_panics_iff; [|vm_compute; reflexivity]. cbn. inversion T as [|? ? _ T1]. inversion T1 as [|? ? _ T2]. inversion T2 as [|? ? _ T3]. inversion T3 as [|? ? T4 _]. repeat constructor; exact T4.
  - apply C98_panics_iff; [|vm_compute; reflexivity]. cbn. constructor; [|constructor]. intros c t _. constructor.
  - left. cbn. intros [H|[H|[]]]; discriminate.
  - intros H. assert (TT : op_typed (OpInterleaved [two; other])) by (inversion T as [|? ? T0 T1]; inversion T1 as [|? ? T2 _]; exact (Forall_cons _ T0 (Forall_cons _ T2 (Forall_nil _)))).
    pose proof (proj2 (C98_panics_iff _ _ TT) H) as P. vm_compute in P. discriminate.
Qed.
