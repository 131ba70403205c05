(** C105: what a reader that follows glTF finds of interleaved []uint8. *)
From Verif Require Import BaseFacts Types Binary SpecLayout BinaryProofs SliceProofs Doc F64 SpecDoc SpecTarget
  ModelerWrite ModelerRead ModelerWriteProofs ModelerReadProofs ModelerSparseProofs ModelerLayoutProofs ModelerShapeProofs
  ModelerAttrProofs ModelerTargetProofs SpecAccessor AccessorProofs AccessorWriteProofs PropsModelerWrite SpecFetch FetchProofs PropsFetch SpecRows PropsRows.
Local Open Scope nat_scope.

Definition u8 (s : slice) : Prop := sk s = SK CUbyte AScalar.

(** []uint8: the bytes one after the other, whatever the stride. *)
Lemma u8_put vs b st : Forall (wf_elem CUbyte AScalar) vs -> 1 <= List.length vs -> st * (List.length vs - 1) + 1 <= List.length b ->
  1 <= st -> (Z.of_nat (List.length b) < 2 ^ 63)%Z ->
  exists b', Write b (Z.of_nat st) (mkSlice (SK CUbyte AScalar) vs) = Ok b' /\ List.length b' = List.length b /\
    forall p, nth_error b' p = match nth_error vs p with Some v => Some (z2b (hd 0%Z v)) | None => nth_error b p end.
Proof.
  intros W N L S M. exists (copy b (map (fun v => z2b (hd 0%Z v)) vs)).
  assert (LV : List.length vs <= List.length b) by nia.
  pose proof (copy_stored b vs W LV) as [C1 C2]. split; [|split; [exact C1|]].
  - unfold Write, TypeOf. cbn [sk els]. change (ct_valid CUbyte && at_valid AScalar) with true. cbv iota. cbn [bind]. unfold zlen at 1.
    destruct (Z.eqb_spec (Z.of_nat (List.length vs)) 0) as [Q|_]; [lia|]. destruct (Z.eqb_spec (Z.of_nat st) 0) as [Q|_]; [lia|].
    change (SizeOfElement CUbyte AScalar) with 1%Z. unfold zlen.
    assert (EQ : (Z.of_nat st * (Z.of_nat (List.length vs) - 1) = Z.of_nat (st * (List.length vs - 1)))%Z) by (rewrite Nat2Z.inj_mul, Nat2Z.inj_sub by lia; reflexivity). rewrite EQ. clear EQ. set (x := st * (List.length vs - 1)) in *. clearbody x.
    rewrite (i64_id (Z.of_nat x)), i64_id by (unfold in_i64; lia).
    destruct (Z.ltb_spec (Z.of_nat (List.length b)) (Z.of_nat x + 1)) as [Q|_]; [lia|]. reflexivity.
  - intros p. destruct (Nat.lt_ge_cases p (List.length b)) as [P|P].
    + rewrite C2 by exact P. rewrite Nat.div_1_r, Nat.mod_1_r. destruct (nth_error vs p) as [v|] eqn:E; [|reflexivity].
      rewrite Forall_forall in W. destruct (W v (nth_error_In _ _ E)) as [Hv _]. destruct v as [|x [|]]; try discriminate Hv. cbn. rewrite Z.div_1_r. reflexivity.
    + assert (E : nth_error vs p = None) by (apply nth_error_None; lia). rewrite E. transitivity (@None ascii); [apply nth_error_None; lia|symmetry; apply nth_error_None; lia].
Qed.

(** One slice of a row: where it writes. *)
Lemma slice_put s c t n e b o rest : wf_slice s -> kind_ct (sk s) = Some (c, t) -> List.length (els s) = n -> 1 <= n -> element_size c t <= e -> 1 <= e ->
  o + e * (n - 1) + element_size c t <= List.length b -> (Z.of_nat (List.length b) < 2 ^ 63)%Z ->
  exists b', write_data_loop b (Z.of_nat e) (Z.of_nat o) (s :: rest) = write_data_loop b' (Z.of_nat e) (Z.of_nat (o + element_size c t)) rest /\
    List.length b' = List.length b /\
    (forall j q, element_size c t <= q -> q < e -> (u8 s -> n <= q + j * e) -> nth_error b' (o + j * e + q) = nth_error b (o + j * e + q)) /\
    (u8 s -> forall p, nth_error b' (o + p) = match nth_error (els s) p with Some v => Some (z2b (hd 0%Z v)) | None => nth_error b (o + p) end).
Proof.
  intros W Hs Hn N1 EE E1 L M. destruct (kind_ct_valid _ _ _ Hs) as [Hc Ht]. pose proof (element_size_pos c t Hc Ht) as EP.
  destruct W as (c2 & t2 & K2 & W). rewrite Hs in K2. injection K2 as <- <-. destruct s as [k vs]. cbn [sk els] in *.
  assert (P : exists tail, Write (skipn o b) (Z.of_nat e) (mkSlice k vs) = Ok tail /\ List.length tail = List.length b - o /\
    (forall j q, element_size c t <= q -> q < e -> (k = SK CUbyte AScalar -> n <= q + j * e) -> nth_error tail (j * e + q) = nth_error b (o + j * e + q)) /\
    (k = SK CUbyte AScalar -> forall p, nth_error tail p = match nth_error vs p with Some v => Some (z2b (hd 0%Z v)) | None => nth_error b (o + p) end)).
  { assert (D : k = SK CUbyte AScalar \/ k <> SK CUbyte AScalar) by (destruct k as [[] []| | | |]; (left; reflexivity) || (right; discriminate)).
    destruct D as [D|D].
    - subst k. cbn in Hs. assert (c = CUbyte /\ t = AScalar) as [-> ->] by (split; congruence). change (element_size CUbyte AScalar) with 1 in *.
      destruct (u8_put vs (skipn o b) e W) as (tail & T1 & T2 & T3); [lia|rewrite skipn_length, Hn; lia|lia|rewrite skipn_length; lia|].
      exists tail. split; [exact T1|]. rewrite skipn_length in T2. split; [exact T2|]. split.
      + intros j q Q1 Q2 Q3. specialize (Q3 eq_refl). rewrite T3. assert (E : nth_error vs (j * e + q) = None) by (apply nth_error_None; lia). rewrite E, nth_error_skipn', Nat.add_assoc. reflexivity.
      + intros _ p. rewrite T3, nth_error_skipn'. reflexivity.
    - destruct (Write_ok k c t vs (skipn o b) e Hs W (or_intror EE) ltac:(contradiction)) as (tail & T1 & T2 & T3).
      { rewrite skipn_length. lia. }
      { rewrite skipn_length. unfold eff_stride. destruct (Nat.eqb_spec e 0); [lia|]. unfold needed. rewrite Hn. destruct n as [|m]; [lia|]. replace (S m - 1) with m in L by lia. lia. }
      rewrite skipn_length in T2, T3. exists tail. split; [exact T1|]. split; [exact T2|]. split; [|contradiction].
      intros j q Q1 Q2 _. unfold eff_stride in T3. destruct (Nat.eqb_spec e 0); [lia|].
      destruct (Nat.lt_ge_cases (j * e + q) (List.length b - o)) as [P|P].
      + rewrite T3 by exact P. replace ((j * e + q) / e) with j by (apply (Nat.div_unique _ _ _ q); lia).
        replace ((j * e + q) mod e) with q by (apply (Nat.mod_unique _ _ j); lia). rewrite nth_error_skipn', Nat.add_assoc.
        destruct (nth_error vs j) as [v|]; [|reflexivity]. destruct (encoded_byte c t v q) as [y|] eqn:EB; [|reflexivity].
        pose proof (encoded_byte_bound _ _ _ _ _ Hc Ht EB). lia.
      + transitivity (@None ascii); [apply nth_error_None; lia|symmetry; apply nth_error_None; lia]. }
  assert (OL : o <= List.length b) by (set (x := e * (n - 1)) in *; clearbody x; lia).
  destruct P as (tail & T1 & T2 & T3 & T4). exists (overwrite b o tail). split.
  { cbn [write_data_loop]. unfold slice_from, zlen. destruct ((0 <=? Z.of_nat o)%Z && (Z.of_nat o <=? Z.of_nat (List.length b))%Z) eqn:EX; [|lia].
    rewrite Nat2Z.id. cbn [bind]. rewrite T1. cbn [bind]. rewrite (TypeOf_kind _ _ _ _ Hs). cbn [bind]. rewrite SizeOfElement_nat by auto. rewrite <- Nat2Z.inj_add. reflexivity. }
  assert (LO : List.length (overwrite b o tail) = List.length b) by (apply overwrite_length; lia). split; [exact LO|].
  assert (N2 : forall p, nth_error (overwrite b o tail) (o + p) = nth_error tail p).
  { intros p. rewrite nth_error_overwrite by lia. destruct (o <=? o + p) eqn:E2; [|lia]. cbn [andb]. replace (o + p - o) with p by lia.
    destruct (o + p <? o + List.length tail) eqn:E3; [reflexivity|]. transitivity (@None ascii); [apply nth_error_None; lia|symmetry; apply nth_error_None; lia]. }
  split.
  - intros j q Q1 Q2 Q3. rewrite <- !Nat.add_assoc, N2, (Nat.add_assoc o). apply T3; assumption.
  - intros Hu p. rewrite N2. apply T4. exact Hu.
Qed.

(** The slices before: the byte [q] of the row [j] stays, if no []uint8 is long enough to reach it. *)
Lemma before_put data : forall b e o n base q rest, Forall wf_slice data -> Forall (fun s => List.length (els s) = n) data -> 1 <= n ->
  o + sum_sizes data <= q -> q < e -> base + n * e <= List.length b -> (Z.of_nat (List.length b) < 2 ^ 63)%Z ->
  exists b', write_data_loop b (Z.of_nat e) (Z.of_nat (base + o)) (data ++ rest) = write_data_loop b' (Z.of_nat e) (Z.of_nat (base + o + sum_sizes data)) rest /\
    List.length b' = List.length b /\ (forall j, n <= j * e -> nth_error b' (base + j * e + q) = nth_error b (base + j * e + q)).
Proof.
  induction data as [|s data IH]; intros b e o n base q rest W N N1 Q1 Q2 L M.
  { exists b. change (sum_sizes []) with 0. rewrite Nat.add_0_r. auto. }
  apply Forall_cons_iff in W as [W0 W]. apply Forall_cons_iff in N as [N0 N]. rewrite sum_sizes_cons in *.
  pose proof W0 as (c & t & Hs & _). rewrite (elem_bytes_kind _ _ _ Hs) in *.
  assert (NE : n * e = e * (n - 1) + e) by (destruct n; [lia|]; replace (S n - 1) with n by lia; lia).
  destruct (slice_put s c t n e b (base + o) (data ++ rest) W0 Hs N0 N1) as (b1 & E1 & L1 & K1 & _); try lia.
  destruct (IH b1 e (o + element_size c t) n base q rest W N N1) as (b2 & E2 & L2 & K2); try lia.
  exists b2. split; [|split; [lia|]].
  - cbn [app]. rewrite E1. replace (base + o + element_size c t) with (base + (o + element_size c t)) by lia. rewrite E2. do 2 f_equal. lia.
  - intros j NL. rewrite K2 by exact NL. specialize (K1 j (q - o)). replace (base + o + j * e + (q - o)) with (base + j * e + q) in K1 by lia. apply K1; [lia|lia|]. intros _. lia.
Qed.

Lemma sum_sizes_mid l1 s l2 : sum_sizes (l1 ++ s :: l2) = sum_sizes l1 + elem_bytes s + sum_sizes l2.
Proof. induction l1 as [|x l IH]; cbn [app]; rewrite ?sum_sizes_cons; [reflexivity|lia]. Qed.
Lemma sub_one (l : bytes) p y : nth_error l p = Some y -> sub l p 1 = [y].
Proof.
  unfold sub. revert p. induction l as [|x l IH]; intros [|p] H; try discriminate; [injection H as ->; reflexivity|]. exact (IH p H).
Qed.

(** ** C105 *)
(** The elements of the last []uint8, to a reader that follows glTF: in the
    place [j] it has the element [j] times as far on as a row has bytes, or 0 if
    there are not so many. *)
Theorem C105_elements d data d' idx k s n :
  WriteAccessorsInterleaved d data = Ok (d', Ok idx) -> 2 <= List.length data -> Forall wf_slice data ->
  nth_error data k = Some s -> sk s = SK CUbyte AScalar -> List.length (els s) = n -> 1 <= n ->
  (forall j s', k < j -> nth_error data j = Some s' -> sk s' <> SK CUbyte AScalar) ->
  exists a, nth_error (doc_Accessors d') (List.length (doc_Accessors d) + k) = Some (Some a) /\
    forall vs, gltf_elements d' a vs -> List.length vs = n /\ forall j, j < n -> nth_error vs j = Some (nth (j * sum_sizes data) (els s) [0%Z]).
Proof.
  intros H L HW Hk Hu Hn N2 HA. pose proof H as H0.
  destruct (rows_shape _ _ _ _ _ _ H L Hk) as (c & t & a & v & b & vo & i & Ks & Ha & A1 & A2 & A3 & A4 & A5 & A6 & A7 & F & SP & V1 & V2 & V3).
  rewrite Hu in Ks. assert (c = CUbyte /\ t = AScalar) as [-> ->] by (cbn in Ks; split; congruence).
  exists a. split; [exact Ha|]. intros vs (_ & _ & n' & base & Q1 & Q2 & Q3 & Q4). rewrite A3 in Q4. subst vs.
  rewrite A4 in Q1. unfold zlen in Q1. apply Nat2Z.inj in Q1. rewrite Hn in Q1. subst n'.
  unfold gltf_base in Q3. rewrite A5, A7, A1, A2 in Q3. destruct Q3 as (i' & ao & Ei & Eo & GS). apply Nat2Z.inj in Ei, Eo. subst i' ao.
  destruct GS as (v' & kb & b' & vo' & vl & st & G1 & G2 & G3 & G4 & _ & G6 & _ & _ & _ & _ & _ & _ & _ & ->).
  destruct F as (_ & F2 & _ & F4). rewrite Nat2Z.id in F2. assert (v' = v) as -> by congruence. rewrite G2, Nat2Z.id in F4. assert (b' = b) as -> by congruence.
  rewrite V1 in G4. apply Nat2Z.inj in G4. subst vo'. rewrite V2 in G6. apply Nat2Z.inj in G6. subst st.
  pose proof (sum_sizes_split _ _ _ Hk) as SS. assert (EB : elem_bytes s = 1) by (unfold elem_bytes; rewrite Hu; reflexivity). rewrite EB in SS.
  set (e := sum_sizes data) in *. set (o := sum_sizes (firstn k data)) in *.
  assert (E2 : 2 <= e).
  { pose proof (rows_sizes _ _ _ _ H L) as HE. unfold e. destruct data as [|s0 [|s1 l]]; cbn in L; try lia. rewrite !sum_sizes_cons. inversion HE as [|? ? B1 HE']; subst. inversion HE'; subst. lia. }
  split; [rewrite map_length, seq_length; reflexivity|]. intros j J.
  rewrite nth_error_map, nth_error_nth' with (d := 0) by (rewrite seq_length; lia). rewrite seq_nth by lia. cbn [option_map plus]. f_equal.
  unfold gltf_stride. destruct (Nat.eqb_spec e 0); [lia|]. rewrite (Nat.mul_comm e j). unfold gltf_element. cbn [rows columns Nat.mul seq map plus Nat.div Nat.modulo fst snd Nat.divmod]. 
  change (component_offset CUbyte AScalar 0 0) with 0. change (comp_bytes CUbyte) with 1. rewrite Nat.add_0_r.
  (* the byte *)
  assert (WS : Forall (wf_elem CUbyte AScalar) (els s)).
  { rewrite Forall_forall in HW. destruct (HW s (nth_error_In _ _ Hk)) as (c2 & t2 & K2 & W2). rewrite Hu in K2. cbn in K2. injection K2 as <- <-. exact W2. }
  assert (BY : nth_error (buf_Data b) (vo + o + j * e) = Some (z2b (hd 0%Z (nth (j * e) (els s) [0%Z])))).
  { apply WriteAccessorsInterleaved_shaped in H0. destruct H0 as (d0 & d1 & vi & accs & HP & HV & -> & _).
    assert (EV : doc_BufferViews d0 = doc_BufferViews d) by (apply ensurePadding_inv in HP as (pre & b0 & b' & pad & _ & -> & _); reflexivity).
    apply writeBufferViews_inv in HV as [(er & [=] & _)|HV].
    destruct HV as (pre & b0 & stride & size & written & b' & [= ->] & HV & HLB & HS0 & HM & HD & HL & _ & -> & ->).
    assert (Hne : data <> []) by (intros ->; destruct k; discriminate).
    destruct (view_loop_sized _ _ _ _ Hne HV) as (st & e' & n' & -> & Hsz & ->).
    pose proof (sized_nth _ _ _ _ _ _ Hsz Hk) as (c' & t' & _ & Hn' & _). rewrite Hn in Hn'. subst n'.
    pose proof Hsz as (HF & Hsum & [Hone|[_ Hone]]); [lia|]. fold e in Hsum. subst e' st. rewrite Nat2Z.id in *.
    rewrite A6 in F2. unfold with_accs in F2, F4, G3.
    cbn [doc_BufferViews set_doc_BufferViews set_doc_Accessors] in F2. rewrite EV, nth_error_app2, Nat.sub_diag in F2 by lia. cbn in F2. injection F2 as <-.
    cbn [bvw_Buffer mk_view] in G2. unfold zlen in G2. apply Nat2Z.inj in G2. subst kb. cbn [doc_Buffers set_doc_BufferViews set_doc_Buffers set_doc_Accessors] in F4.
    rewrite nth_error_app2, Nat.sub_diag in F4 by lia. cbn in F4. injection F4 as <-. cbn [buf_Data set_buf_Data].
    cbn in V1. apply Nat2Z.inj in V1. subst vo. set (bs := List.length (buf_Data b0)) in *.
    assert (Hm63 : (max_alloc < 2 ^ 63)%Z) by (vm_compute; reflexivity).
    assert (SPL : data = firstn k data ++ s :: skipn (S k) data) by (apply nth_error_split in Hk as (l1 & l2 & -> & <-); rewrite firstn_app, firstn_all, Nat.sub_diag, skipn_app, skipn_all2 by lia; replace (S (List.length l1) - List.length l1) with 1 by lia; cbn; rewrite app_nil_r; reflexivity).
    assert (ALL : Forall (fun s => List.length (els s) = n) data) by (eapply Forall_impl; [|exact HF]; intros x (? & ? & _ & Q & _); exact Q).
    pose proof HW as HW'. pose proof ALL as ALL'. pose proof HF as HF'. rewrite SPL in HW', ALL', HF', HD. rewrite Forall_app in HW', ALL', HF'. destruct HW' as [W1 W2], ALL' as [N1 N3], HF' as [_ HF2].
    apply Forall_cons_iff in W2 as [W2 W3]. apply Forall_cons_iff in HF2 as [_ HF2].
    assert (LB : List.length (buf_Data b0 ++ zeros (n * e)) = bs + n * e) by (rewrite app_length, zeros_length; reflexivity).
    assert (MB : (Z.of_nat (bs + n * e) < 2 ^ 63)%Z) by (unfold zlen in HM; lia).
    destruct (before_put (firstn k data) (buf_Data b0 ++ zeros (n * e)) e 0 n bs o (s :: skipn (S k) data) W1 N1) as (b1 & E1 & L1 & K1); [lia|fold o; lia|lia|lia|rewrite LB; exact MB|].
    fold o in E1. rewrite Nat.add_0_r in E1. unfold zlen in HD. fold bs in HD. rewrite E1 in HD.
    destruct (slice_put s CUbyte AScalar n e b1 (bs + o) (skipn (S k) data) W2) as (b2 & E2' & L2 & _ & K2); [rewrite Hu; reflexivity|exact Hn|lia|change (element_size CUbyte AScalar) with 1; lia|lia| |rewrite L1, LB; exact MB|].
    { change (element_size CUbyte AScalar) with 1. assert (NE : n * e = e * (n - 1) + e) by (destruct n; [lia|]; replace (S n - 1) with n by lia; lia). rewrite L1, LB. lia. }
    rewrite E2' in HD. change (element_size CUbyte AScalar) with 1 in HD.
    assert (SZ : sum_sizes (skipn (S k) data) + o + 1 = e).
    { assert (Q : e = sum_sizes (firstn k data ++ s :: skipn (S k) data)) by (rewrite <- SPL; reflexivity). rewrite sum_sizes_mid, EB in Q. fold o in Q. lia. }
    destruct (write_data_loop_spec (skipn (S k) data) b2 e e n bs (o + 1)) as (b3 & E3 & L3 & K3 & _); auto.
    { apply Forall_forall. intros x I Hx. exfalso. apply In_nth_error in I as [i' Hj]. rewrite nth_error_skipn' in Hj. apply (HA (S k + i') x); [lia|exact Hj|exact Hx]. }
    all: try (unfold zlen; rewrite L2, L1, LB; exact MB). all: try (rewrite L2, L1, LB; reflexivity). all: try (left; lia). all: try lia.
    replace (bs + (o + 1)) with (bs + o + 1) in E3 by lia. rewrite E3 in HD. injection HD as <-.
    rewrite K3.
    2:{ intros [_ Q]. replace (bs + o + j * e - bs) with (o + j * e) in Q by lia. rewrite Nat.mod_add, Nat.mod_small in Q by lia. lia. }
    specialize (K2 Hu (j * e)). rewrite K2. destruct (nth_error (els s) (j * e)) as [w|] eqn:Ew.
    - rewrite (nth_error_nth _ _ _ Ew). reflexivity.
    - apply nth_error_None in Ew. rewrite (nth_overflow _ _ Ew). cbn [hd]. replace (bs + o + j * e) with (bs + j * e + o) by lia. rewrite K1 by lia.
      rewrite nth_error_app2 by (fold bs; lia). fold bs. unfold zeros. rewrite nth_error_repeat by nia. reflexivity. }
  rewrite (sub_one _ _ _ BY). cbn [le_val]. rewrite b2z_z2b, Z.mul_0_r, Z.add_0_r.
  destruct (nth_error (els s) (j * e)) as [w|] eqn:Ew.
  - rewrite (nth_error_nth _ _ _ Ew). rewrite Forall_forall in WS. destruct (WS w (nth_error_In _ _ Ew)) as [Hv Hr]. destruct w as [|x [|]]; try discriminate Hv.
    apply Forall_inv in Hr. cbn [hd]. rewrite Z.mod_small by exact Hr. reflexivity.
  - apply nth_error_None in Ew. rewrite (nth_overflow _ _ Ew). reflexivity.
Qed.
Print Assumptions C105_elements.

(** In particular the second one. *)
Theorem C105_second d data d' idx k s n :
  WriteAccessorsInterleaved d data = Ok (d', Ok idx) -> 2 <= List.length data -> Forall wf_slice data ->
  nth_error data k = Some s -> sk s = SK CUbyte AScalar -> List.length (els s) = n -> 2 <= n ->
  (forall j s', k < j -> nth_error data j = Some s' -> sk s' <> SK CUbyte AScalar) ->
  exists a, nth_error (doc_Accessors d') (List.length (doc_Accessors d) + k) = Some (Some a) /\
    forall vs, gltf_elements d' a vs -> nth_error vs 1 = Some (nth (sum_sizes data) (els s) [0%Z]).
Proof.
  intros H L HW Hk Hu Hn N2 HA. destruct (C105_elements d data d' idx k s n H L HW Hk Hu Hn ltac:(lia) HA) as (a & Ha & K).
  exists a. split; [exact Ha|]. intros vs G. destruct (K vs G) as [_ E]. rewrite E by lia. rewrite Nat.mul_1_l. reflexivity.
Qed.
Print Assumptions C105_second.

(** So the data is lost whenever one of these is another element than the one
    given in its place. *)
Theorem C105_lost d data d' idx k s n j :
  WriteAccessorsInterleaved d data = Ok (d', Ok idx) -> 2 <= List.length data -> Forall wf_slice data ->
  nth_error data k = Some s -> sk s = SK CUbyte AScalar -> List.length (els s) = n -> j < n ->
  (forall i s', k < i -> nth_error data i = Some s' -> sk s' <> SK CUbyte AScalar) ->
  nth_error (els s) j <> Some (nth (j * sum_sizes data) (els s) [0%Z]) ->
  exists a, nth_error (doc_Accessors d') (List.length (doc_Accessors d) + k) = Some (Some a) /\ ~ gltf_elements d' a (els s).
Proof.
  intros H L HW Hk Hu Hn J HA NE. destruct (C105_elements d data d' idx k s n H L HW Hk Hu Hn ltac:(lia) HA) as (a & Ha & K).
  exists a. split; [exact Ha|]. intros G. destruct (K _ G) as [_ E]. exact (NE (E j J)).
Qed.
Print Assumptions C105_lost.

(** Following the rows, this comes to: the slice is found as given exactly if all
    of its elements but the first are 0. *)
Lemma far_zero n e (l : list elem) : 2 <= e -> List.length l = n -> (forall j, j < n -> nth_error l j = Some (nth (j * e) l [0%Z])) ->
  forall m j, n - j <= m -> 1 <= j -> j < n -> nth_error l j = Some [0%Z].
Proof.
  intros E L H. induction m as [|m IH]; intros j M J1 J2; [lia|]. rewrite (H j J2). destruct (Nat.lt_ge_cases (j * e) n) as [Q|Q].
  - specialize (IH (j * e) ltac:(nia) ltac:(nia) Q). rewrite (nth_error_nth _ _ _ IH). reflexivity.
  - rewrite nth_overflow by lia. reflexivity.
Qed.
Theorem C105_exact d data d' idx k s :
  WriteAccessorsInterleaved d data = Ok (d', Ok idx) -> 2 <= List.length data -> Forall wf_slice data ->
  nth_error data k = Some s -> sk s = SK CUbyte AScalar -> els s <> [] ->
  (forall j s', k < j -> nth_error data j = Some s' -> sk s' <> SK CUbyte AScalar) ->
  exists a, nth_error (doc_Accessors d') (List.length (doc_Accessors d) + k) = Some (Some a) /\
    ((exists vs, gltf_elements d' a vs) -> (gltf_elements d' a (els s) <-> Forall (fun v => v = [0%Z]) (tl (els s)))).
Proof.
  intros H L HW Hk Hu Hn HA. assert (N1 : 1 <= List.length (els s)) by (destruct (els s); [congruence|cbn; lia]).
  destruct (C105_elements d data d' idx k s _ H L HW Hk Hu eq_refl N1 HA) as (a & Ha & K). exists a. split; [exact Ha|]. intros [vs G].
  assert (E2 : 2 <= sum_sizes data).
  { pose proof (rows_sizes _ _ _ _ H L) as HE. destruct data as [|s0 [|s1 l]]; cbn in L; try lia. rewrite !sum_sizes_cons. inversion HE as [|? ? B1 HE']; subst. inversion HE'; subst. lia. }
  set (e := sum_sizes data) in *. clearbody e. split.
  - intros G'. destruct (K _ G') as [_ Q]. apply Forall_forall. intros v I. apply In_nth_error in I as [j J].
    assert (J' : nth_error (els s) (S j) = Some v) by (destruct (els s); [destruct j; discriminate|exact J]).
    assert (B : S j < List.length (els s)) by (apply nth_error_Some; congruence).
    rewrite (far_zero _ e (els s) E2 eq_refl Q (List.length (els s)) (S j)) in J' by lia. congruence.
  - intros Z0. destruct (K _ G) as [LV Q].
    assert (T : forall j, 1 <= j -> nth j (els s) [0%Z] = [0%Z]).
    { intros j J. destruct j as [|j]; [lia|]. destruct (els s) as [|x l]; [reflexivity|]. cbn [nth tl] in *. destruct (Nat.lt_ge_cases j (List.length l)) as [B|B]; [|apply nth_overflow; exact B].
      rewrite Forall_forall in Z0. apply Z0. apply nth_In. exact B. }
    assert (EQ : vs = els s); [|rewrite <- EQ; exact G].
    apply (nth_ext vs (els s) [0%Z] [0%Z] LV). intros j J. rewrite LV in J. pose proof (Q j J) as Qj. rewrite (nth_error_nth _ _ [0%Z] Qj).
    destruct j as [|j]; [reflexivity|]. rewrite !T by nia. reflexivity.
Qed.
Print Assumptions C105_exact.

(** A short, a signed and an unsigned byte in rows of four bytes: the accessors
    conform, and the second unsigned byte has become 0. *)
Definition mixed_rows := [u16_row; i8_row; u8_row].
Example C105_example : Forall wf_slice mixed_rows /\ exists d a, WriteAccessorsInterleaved zero_Document mixed_rows = Ok (d, Ok [0; 1; 2]%Z) /\
  nth_error (doc_Accessors d) 2 = Some (Some a) /\ gltf_elements d a [[1]; [0]]%Z.
Proof.
  split.
  - repeat (constructor; [eexists; eexists; split; [reflexivity|repeat (constructor; [split; [reflexivity|constructor; [cbn; lia|constructor]]|]); constructor]|]). constructor.
  - eexists. eexists. split; [vm_compute; reflexivity|]. split; [reflexivity|]. split; [reflexivity|]. split; [reflexivity|].
    exists 2. eexists. split; [reflexivity|]. split; [lia|]. split; [|reflexivity]. exists 0, 3. split; [reflexivity|]. split; [reflexivity|].
    eexists. exists 0. eexists. exists 0, 8, 4. do 6 (split; [reflexivity|]). split; [vm_compute; lia|].
    split; [right; vm_compute; repeat split; lia|]. split; [reflexivity|]. split; [reflexivity|]. split; [intros E; exfalso; apply E; reflexivity|].
    split; [lia|]. split; [vm_compute; lia|]. vm_compute. reflexivity.
Qed.
