(** C105 for every interleaved []uint8 of a row, and not only the last. *)
From Verif Require Import BaseFacts Types Binary SpecLayout BinaryProofs SliceProofs Doc F64 SpecDoc SpecTarget
  ModelerWrite ModelerRead ModelerWriteProofs ModelerReadProofs ModelerSparseProofs ModelerLayoutProofs ModelerShapeProofs
  ModelerAttrProofs ModelerTargetProofs SpecAccessor AccessorProofs AccessorWriteProofs PropsModelerWrite SpecFetch FetchProofs PropsFetch SpecRows PropsRows PropsBytes PropsBytesFile.
Local Open Scope nat_scope.

(** The slices behind: the byte [q] of the row [j] stays, if no []uint8 is long
    enough to reach it. *)
Lemma behind_put data : forall b e o n base q rest, Forall wf_slice data -> Forall (fun s => List.length (els s) = n) data -> 1 <= n ->
  q < o -> o + sum_sizes data <= e -> base + n * e <= List.length b -> (Z.of_nat (List.length b) < 2 ^ 63)%Z ->
  exists b', write_data_loop b (Z.of_nat e) (Z.of_nat (base + o)) (data ++ rest) = write_data_loop b' (Z.of_nat e) (Z.of_nat (base + o + sum_sizes data)) rest /\
    List.length b' = List.length b /\
    (forall j, o + sum_sizes data + n <= S j * e + q + 1 -> nth_error b' (base + S j * e + q) = nth_error b (base + S j * e + q)).
Proof.
  induction data as [|s data IH]; intros b e o n base q rest W N N1 Q1 Q2 L M.
  { exists b. change (sum_sizes []) with 0. rewrite Nat.add_0_r. auto. }
  apply Forall_cons_iff in W as [W0 W]. apply Forall_cons_iff in N as [N0 N]. rewrite sum_sizes_cons in *.
  pose proof W0 as (c & t & Hs & _). rewrite (elem_bytes_kind _ _ _ Hs) in *.
  destruct (kind_ct_valid _ _ _ Hs) as [Hc Ht]. pose proof (element_size_pos c t Hc Ht) as EP.
  assert (NE : n * e = e * (n - 1) + e) by (destruct n; [lia|]; replace (S n - 1) with n by lia; lia).
  destruct (slice_put s c t n e b (base + o) (data ++ rest) W0 Hs N0 N1) as (b1 & E1 & L1 & K1 & _); try lia.
  destruct (IH b1 e (o + element_size c t) n base q rest W N N1) as (b2 & E2 & L2 & K2); try lia.
  exists b2. split; [|split; [lia|]].
  - cbn [app]. rewrite E1. replace (base + o + element_size c t) with (base + (o + element_size c t)) by lia. rewrite E2. do 2 f_equal. lia.
  - intros j NL. rewrite K2 by lia. specialize (K1 j (q + e - o)). cbn [Nat.mul] in *.
    replace (base + o + j * e + (q + e - o)) with (base + (e + j * e) + q) in K1 by lia. apply K1; [lia|lia|]. intros _. lia.
Qed.

(** The bytes of the column of [s], when [s'] is the last []uint8. *)
Lemma column_put pre s mid s' post B n w :
  let data := pre ++ s :: mid ++ s' :: post in let e := sum_sizes data in let o := sum_sizes pre in let bs := List.length B in
  Forall wf_slice data -> Forall (fun s => List.length (els s) = n) data -> 1 <= n -> u8 s -> u8 s' -> Forall (fun x => sk x <> SK CUbyte AScalar) post ->
  (Z.of_nat (bs + n * e) < 2 ^ 63)%Z -> write_data_loop (B ++ zeros (n * e)) (Z.of_nat e) (Z.of_nat bs) data = Ok w ->
  nth_error w (bs + o) = Some (z2b (hd 0%Z (nth 0 (els s) [0%Z]))) /\
  forall j, S j < n -> nth_error w (bs + S j * e + o) = Some (z2b (hd 0%Z (nth (S j * e - (1 + sum_sizes mid)) (els s') [0%Z]))).
Proof.
  intros data e o bs W N N1 U U' UP MB H.
  assert (EB : elem_bytes s = 1) by (unfold elem_bytes; rewrite U; reflexivity). assert (EB' : elem_bytes s' = 1) by (unfold elem_bytes; rewrite U'; reflexivity).
  assert (EE : e = o + 1 + sum_sizes mid + 1 + sum_sizes post) by (unfold e, data; rewrite sum_sizes_mid, sum_sizes_mid; fold o; lia).
  unfold data in W, N. rewrite Forall_app in W, N. destruct W as [W1 W2], N as [N2 N3]. apply Forall_cons_iff in W2 as [Ws W2], N3 as [Ns N3].
  rewrite Forall_app in W2, N3. destruct W2 as [Wm W2], N3 as [Nm N3]. apply Forall_cons_iff in W2 as [Ws' Wp], N3 as [Ns' Np].
  assert (LB : List.length (B ++ zeros (n * e)) = bs + n * e) by (rewrite app_length, zeros_length; reflexivity).
  assert (NE : n * e = e * (n - 1) + e) by (destruct n; [lia|]; replace (S n - 1) with n by lia; lia).
  destruct (before_put pre (B ++ zeros (n * e)) e 0 n bs o (s :: mid ++ s' :: post) W1 N2) as (b1 & E1 & L1 & K1); [lia|fold o; lia|lia|lia|rewrite LB; exact MB|].
  fold o in E1. rewrite Nat.add_0_r in E1. unfold data in H. rewrite E1 in H. clear E1.
  destruct (slice_put s CUbyte AScalar n e b1 (bs + o) (mid ++ s' :: post) Ws) as (b2 & E2 & L2 & _ & K2); [rewrite U; reflexivity|exact Ns|lia|change (element_size CUbyte AScalar) with 1; lia|lia|change (element_size CUbyte AScalar) with 1; lia|rewrite L1, LB; exact MB|].
  rewrite E2 in H. clear E2. change (element_size CUbyte AScalar) with 1 in H. specialize (K2 U).
  split.
  - apply write_data_loop_prefix in H as [_ H]; [|lia]. rewrite Nat2Z.id in H. specialize (H (S (bs + o)) ltac:(lia)).
    assert (E : nth_error w (bs + o) = nth_error b2 (bs + o)) by (apply (f_equal (fun l => nth_error l (bs + o))) in H; rewrite !nth_error_firstn' in H; destruct (Nat.ltb_spec (bs + o) (S (bs + o))); [exact H|lia]).
    rewrite E. specialize (K2 0). rewrite Nat.add_0_r in K2. rewrite K2. destruct (els s) as [|v l]; [cbn in Ns; lia|reflexivity].
  - intros j J. replace (bs + o + 1) with (bs + (o + 1)) in H by lia.
    destruct (behind_put mid b2 e (o + 1) n bs o (s' :: post) Wm Nm) as (b3 & E3 & L3 & K3); [lia|lia|lia|lia|rewrite L2, L1, LB; exact MB|].
    rewrite E3 in H. clear E3.
    destruct (slice_put s' CUbyte AScalar n e b3 (bs + (o + 1) + sum_sizes mid) post Ws') as (b4 & E4 & L4 & _ & K4); [rewrite U'; reflexivity|exact Ns'|lia|change (element_size CUbyte AScalar) with 1; lia|lia|change (element_size CUbyte AScalar) with 1; lia|rewrite L3, L2, L1, LB; exact MB|].
    rewrite E4 in H. clear E4. change (element_size CUbyte AScalar) with 1 in H. specialize (K4 U').
    replace (bs + (o + 1) + sum_sizes mid + 1) with (bs + (o + 1 + sum_sizes mid + 1)) in H by lia.
    destruct (write_data_loop_spec post b4 e e n bs (o + 1 + sum_sizes mid + 1)) as (b5 & E5 & L5 & K5 & _); auto.
    { apply Forall_forall. intros x I. rewrite Forall_forall in Wp, Np. pose proof (Wp x I) as (c & t & K & _). exists c, t. split; [exact K|]. split; [exact (Np x I)|].
      unfold eff_stride. destruct (Nat.eqb_spec e 0); [lia|]. split; [reflexivity|]. right. apply In_nth_error in I as [i I]. pose proof (sum_sizes_split _ _ _ I) as Q. rewrite (elem_bytes_kind _ _ _ K) in Q. lia. }
    { eapply Forall_impl; [|exact UP]. intros x Q1 Q2. contradiction. }
    all: try (unfold zlen; rewrite L4, L3, L2, L1, LB; exact MB). all: try (rewrite L4, L3, L2, L1, LB; reflexivity). all: try (left; lia). all: try lia.
    rewrite E5 in H. injection H as <-. rewrite K5.
    2:{ intros [_ Q]. replace (bs + S j * e + o - bs) with (o + S j * e) in Q by lia. rewrite Nat.mod_add, Nat.mod_small in Q by lia. lia. }
    set (p := S j * e - (1 + sum_sizes mid)). assert (JE : e <= S j * e) by (cbn; lia).
    replace (bs + S j * e + o) with (bs + (o + 1) + sum_sizes mid + p) by (unfold p; lia). rewrite K4.
    destruct (nth_error (els s') p) as [v|] eqn:Ev; [rewrite (nth_error_nth _ _ _ Ev); reflexivity|].
    apply nth_error_None in Ev. rewrite (nth_overflow _ _ Ev). cbn [hd]. replace (bs + (o + 1) + sum_sizes mid + p) with (bs + S j * e + o) by (unfold p; lia).
    assert (PN : n + 1 + sum_sizes mid <= S j * e) by (unfold p in Ev; lia).
    rewrite K3 by lia. replace (bs + S j * e + o) with (bs + o + S j * e) by lia. rewrite K2.
    assert (E0 : nth_error (els s) (S j * e) = None) by (apply nth_error_None; lia). rewrite E0.
    replace (bs + o + S j * e) with (bs + S j * e + o) by lia. rewrite K1 by lia.
    rewrite nth_error_app2 by (fold bs; lia). fold bs. unfold zeros. rewrite nth_error_repeat by nia. reflexivity.
Qed.

Lemma u8_byte s p : wf_slice s -> sk s = SK CUbyte AScalar -> [b2z (z2b (hd 0%Z (nth p (els s) [0%Z])))] = nth p (els s) [0%Z].
Proof.
  intros (c & t & K & W) U. rewrite U in K. cbn in K. injection K as <- <-. rewrite b2z_z2b.
  destruct (nth_error (els s) p) as [w|] eqn:Ew.
  - rewrite (nth_error_nth _ _ _ Ew). rewrite Forall_forall in W. destruct (W w (nth_error_In _ _ Ew)) as [Hv Hr]. destruct w as [|x [|]]; try discriminate Hv.
    apply Forall_inv in Hr. cbn [hd]. rewrite Z.mod_small by exact Hr. reflexivity.
  - apply nth_error_None in Ew. rewrite (nth_overflow _ _ Ew). reflexivity.
Qed.

Lemma split_two {A} (l : list A) k m x y : nth_error l k = Some x -> nth_error l m = Some y -> k < m ->
  exists mid, l = firstn k l ++ x :: mid ++ y :: skipn (S m) l /\ firstn m l = firstn k l ++ x :: mid.
Proof.
  revert k m. induction l as [|z l IH]; intros k m Hk Hm L; [destruct k; discriminate|]. destruct m as [|m]; [lia|]. destruct k as [|k].
  - cbn in Hk. injection Hk as ->. cbn [nth_error] in Hm. exists (firstn m l). cbn [firstn app skipn]. split; [|reflexivity].
    f_equal. clear - Hm. revert m Hm. induction l as [|z l IH]; intros [|m] Hm; try discriminate; [injection Hm as ->; reflexivity|]. cbn [firstn app skipn]. f_equal. exact (IH m Hm).
  - cbn [nth_error] in Hk, Hm. destruct (IH k m Hk Hm ltac:(lia)) as (mid & E1 & E2). exists mid. cbn [firstn skipn app]. split; [f_equal; exact E1|f_equal; exact E2].
Qed.

(** ** C105, for each []uint8 *)
(** If [s'] is the last []uint8 of the row, then the file has of [s] its first
    element, and behind it elements of [s'], or 0. *)
Theorem C105_every d data d' idx k s m s' :
  WriteAccessorsInterleaved d data = Ok (d', Ok idx) -> 2 <= List.length data -> row_allowed data -> Forall wf_slice data -> els s <> [] ->
  nth_error data k = Some s -> sk s = SK CUbyte AScalar -> k <= m -> nth_error data m = Some s' -> sk s' = SK CUbyte AScalar ->
  (forall j x, m < j -> nth_error data j = Some x -> sk x <> SK CUbyte AScalar) ->
  exists a, nth_error (doc_Accessors d') (List.length (doc_Accessors d) + k) = Some (Some a) /\
    forall vs, gltf_elements d' a vs <->
      vs = nth 0 (els s) [0%Z] :: map (fun j => nth (sum_sizes (firstn k data) + j * sum_sizes data - sum_sizes (firstn m data)) (els s') [0%Z]) (seq 1 (List.length (els s) - 1)).
Proof.
  intros H L R HW HN Hk Hu KM Hm Hu' HA. pose proof H as H0.
  assert (N1 : 1 <= List.length (els s)) by (destruct (els s); [contradiction|cbn; lia]).
  destruct (Nat.eq_dec k m) as [<-|NK].
  { assert (s' = s) as -> by congruence. destruct (C105_has d data d' idx k s H L R HW Hk Hu HN HA) as (a & Ha & K). exists a. split; [exact Ha|].
    intros vs. rewrite K. destruct (List.length (els s)) as [|n] eqn:En; [lia|]. replace (S n - 1) with n by lia. cbn [seq map]. 
    assert (E : map (fun j => nth (j * sum_sizes data) (els s) [0%Z]) (seq 1 n) = map (fun j => nth (sum_sizes (firstn k data) + j * sum_sizes data - sum_sizes (firstn k data)) (els s) [0%Z]) (seq 1 n)) by (apply map_ext; intros j; f_equal; lia).
    rewrite <- E. reflexivity. }
  assert (KM' : k < m) by lia. clear KM NK.
  destruct (C105_conforms d data d' idx k s H L R Hk Hu HN) as (a0 & vs0 & Ha0 & G0).
  destruct (rows_shape _ _ _ _ _ _ H L Hk) as (c & t & a & v & b & vo & i & Ks & Ha & A1 & A2 & A3 & A4 & A5 & A6 & A7 & F & SP & V1 & V2 & V3).
  rewrite Hu in Ks. assert (c = CUbyte /\ t = AScalar) as [-> ->] by (cbn in Ks; split; congruence).
  assert (a0 = a) as -> by congruence. exists a. split; [exact Ha|]. clear Ha0.
  set (n := List.length (els s)) in *. set (e := sum_sizes data) in *. set (o := sum_sizes (firstn k data)) in *.
  assert (Z : forall vs, gltf_elements d' a vs -> vs = nth 0 (els s) [0%Z] :: map (fun j => nth (o + j * e - sum_sizes (firstn m data)) (els s') [0%Z]) (seq 1 (n - 1))).
  2:{ intros vs. split; [apply Z|]. intros ->. rewrite <- (Z _ G0). exact G0. }
  intros vs (_ & _ & n' & base & Q1 & Q2 & Q3 & Q4). rewrite A3 in Q4. subst vs.
  rewrite A4 in Q1. unfold zlen in Q1. apply Nat2Z.inj in Q1. fold n in Q1. subst n'.
  unfold gltf_base in Q3. rewrite A5, A7, A1, A2 in Q3. destruct Q3 as (i' & ao & Ei & Eo & GS). apply Nat2Z.inj in Ei, Eo. subst i' ao.
  destruct GS as (v' & kb & b' & vo' & vl & st & G1 & G2 & G3 & G4 & _ & G6 & _ & _ & _ & _ & _ & _ & _ & ->).
  destruct F as (_ & F2 & _ & F4). rewrite Nat2Z.id in F2. assert (v' = v) as -> by congruence. rewrite G2, Nat2Z.id in F4. assert (b' = b) as -> by congruence.
  rewrite V1 in G4. apply Nat2Z.inj in G4. subst vo'. rewrite V2 in G6. apply Nat2Z.inj in G6. subst st.
  pose proof (sum_sizes_split _ _ _ Hk) as SS. assert (EB : elem_bytes s = 1) by (unfold elem_bytes; rewrite Hu; reflexivity). rewrite EB in SS. fold e o in SS.
  destruct (split_two data k m s s' Hk Hm KM') as (mid & SPL & SPM).
  assert (BY : nth_error (buf_Data b) (vo + o) = Some (z2b (hd 0%Z (nth 0 (els s) [0%Z]))) /\
    forall j, S j < n -> nth_error (buf_Data b) (vo + S j * e + o) = Some (z2b (hd 0%Z (nth (S j * e - (1 + sum_sizes mid)) (els s') [0%Z])))).
  { apply WriteAccessorsInterleaved_shaped in H0. destruct H0 as (d0 & d1 & vi & accs & HP & HV & -> & _).
    assert (EV : doc_BufferViews d0 = doc_BufferViews d) by (apply ensurePadding_inv in HP as (pre & b0 & b' & pad & _ & -> & _); reflexivity).
    apply writeBufferViews_inv in HV as [(er & [=] & _)|HV].
    destruct HV as (pre & b0 & stride & size & written & b' & [= ->] & HV & HLB & HS0 & HM & HD & HL & _ & -> & ->).
    assert (Hne : data <> []) by (intros ->; destruct k; discriminate).
    destruct (view_loop_sized _ _ _ _ Hne HV) as (st & e' & n' & -> & Hsz & ->).
    pose proof (sized_nth _ _ _ _ _ _ Hsz Hk) as (c' & t' & _ & Hn' & _). fold n in Hn'. subst n'.
    pose proof Hsz as (HF & Hsum & [Hone|[_ Hone]]); [lia|]. fold e in Hsum. subst e' st. rewrite Nat2Z.id in *.
    rewrite A6 in F2. unfold with_accs in F2, F4, G3.
    cbn [doc_BufferViews set_doc_BufferViews set_doc_Accessors] in F2. rewrite EV, nth_error_app2, Nat.sub_diag in F2 by lia. cbn in F2. injection F2 as <-.
    cbn [bvw_Buffer mk_view] in G2. unfold zlen in G2. apply Nat2Z.inj in G2. subst kb. cbn [doc_Buffers set_doc_BufferViews set_doc_Buffers set_doc_Accessors] in F4.
    rewrite nth_error_app2, Nat.sub_diag in F4 by lia. cbn in F4. injection F4 as <-. cbn [buf_Data set_buf_Data].
    cbn in V1. apply Nat2Z.inj in V1. subst vo.
    assert (Hm63 : (max_alloc < 2 ^ 63)%Z) by (vm_compute; reflexivity).
    assert (ALL : Forall (fun s => List.length (els s) = n) data) by (eapply Forall_impl; [|exact HF]; intros x (? & ? & _ & Q & _); exact Q).
    unfold zlen in HM, HD.
    pose proof (column_put (firstn k data) s mid s' (skipn (S m) data) (buf_Data b0) n written) as CP. cbv zeta in CP. rewrite <- SPL in CP. fold e o in CP.
    apply CP; [exact HW|exact ALL|exact N1|exact Hu|exact Hu'| |lia|exact HD].
    apply Forall_forall. intros x I. apply In_nth_error in I as [i' Hj]. rewrite nth_error_skipn' in Hj. apply (HA (S m + i') x); [lia|exact Hj]. }
  destruct BY as [BY0 BY1]. rewrite Forall_forall in HW.
  assert (OM : sum_sizes (firstn m data) = o + 1 + sum_sizes mid) by (rewrite SPM, sum_sizes_mid, EB; reflexivity). rewrite OM.
  assert (E1 : 1 <= e) by lia.
  assert (EL : forall p y, nth_error (buf_Data b) p = Some y -> gltf_element CUbyte AScalar (buf_Data b) p = [b2z y]).
  { intros p y Hp. unfold gltf_element. cbn [rows columns Nat.mul seq map plus Nat.div Nat.modulo fst snd Nat.divmod].
    change (component_offset CUbyte AScalar 0 0) with 0. change (comp_bytes CUbyte) with 1. rewrite Nat.add_0_r. rewrite (sub_one _ _ _ Hp). cbn [le_val]. rewrite Z.mul_0_r, Z.add_0_r. reflexivity. }
  assert (ST : gltf_stride CUbyte AScalar e = e) by (unfold gltf_stride; destruct (Nat.eqb_spec e 0); [lia|reflexivity]). rewrite ST.
  destruct n as [|n'] eqn:En; [lia|]. replace (S n' - 1) with n' by lia. cbn [seq map]. rewrite Nat.mul_0_r, Nat.add_0_r. f_equal.
  - rewrite (EL _ _ BY0). apply u8_byte; [exact (HW s (nth_error_In _ _ Hk))|exact Hu].
  - apply map_ext_in. intros j J. apply in_seq in J. destruct j as [|j]; [lia|].
    replace (vo + o + e * S j) with (vo + S j * e + o) by lia. rewrite (EL _ _ (BY1 j ltac:(lia))).
    rewrite (u8_byte s' _ (HW s' (nth_error_In _ _ Hm)) Hu'). f_equal. lia.
Qed.
Print Assumptions C105_every.

(** Four []uint8 of five elements in rows of four bytes: of 1, 2, 3, 4, 5 the file
    has 1, and then 2 and 0 of the last slice. *)
Definition bytes_from (x : Z) : slice := mkSlice (SK CUbyte AScalar) [[x]; [x + 1]; [x + 2]; [x + 3]; [x + 4]]%Z.
Definition four_rows := [bytes_from 1; bytes_from 11; bytes_from 21; bytes_from 31].
Example C105_every_example : row_allowed four_rows /\ Forall wf_slice four_rows /\
  exists d a b, WriteAccessorsInterleaved zero_Document four_rows = Ok (d, Ok [0; 1; 2; 3]%Z) /\
  nth_error (doc_Accessors d) 0 = Some (Some a) /\ gltf_elements d a [[1]; [32]; [0]; [0]; [0]]%Z /\
  nth_error (doc_Accessors d) 2 = Some (Some b) /\ gltf_elements d b [[21]; [34]; [0]; [0]; [0]]%Z.
Proof.
  assert (R : row_allowed four_rows) by (split; [vm_compute; lia|reflexivity]). split; [exact R|].
  assert (W : Forall wf_slice four_rows).
  { repeat (constructor; [eexists; eexists; split; [reflexivity|repeat (constructor; [split; [reflexivity|constructor; [cbn; lia|constructor]]|]); constructor]|]). constructor. }
  split; [exact W|].
  destruct (WriteAccessorsInterleaved zero_Document four_rows) as [[d [idx| |]]| |] eqn:E; try (vm_compute in E; discriminate E).
  assert (EI : idx = [0; 1; 2; 3]%Z) by (vm_compute in E; congruence). subst idx.
  assert (NL : forall j x, 3 < j -> nth_error four_rows j = Some x -> sk x <> SK CUbyte AScalar) by (intros [|[|[|[|j]]]] x J Q; try lia; destruct j; discriminate Q).
  destruct (C105_every zero_Document four_rows d _ 0 (bytes_from 1) 3 (bytes_from 31) E) as (a & Ha & K); try reflexivity; try assumption; [cbn; lia|discriminate|lia|].
  destruct (C105_every zero_Document four_rows d _ 2 (bytes_from 21) 3 (bytes_from 31) E) as (b & Hb & K'); try reflexivity; try assumption; [cbn; lia|discriminate|lia|].
  exists d, a, b. split; [reflexivity|]. split; [exact Ha|]. split; [apply K; reflexivity|]. split; [exact Hb|]. apply K'. reflexivity.
Qed.
