(** C107: what of the other slices stands in front of a []uint8. *)
From Verif Require Import BaseFacts Types Binary SpecLayout BinaryProofs SliceProofs Doc F64 SpecDoc SpecTarget
  ModelerWrite ModelerRead ModelerWriteProofs ModelerReadProofs ModelerSparseProofs ModelerLayoutProofs ModelerShapeProofs
  ModelerAttrProofs ModelerTargetProofs SpecAccessor AccessorProofs AccessorWriteProofs PropsModelerWrite SpecFetch FetchProofs PropsFetch SpecRows PropsRows PropsBytes PropsBytesFile PropsBytesAll PropsBehind.
Local Open Scope nat_scope.

Lemma loop_one s rest b e o b1 c t : kind_ct (sk s) = Some (c, t) -> write_data_loop b e o [s] = Ok b1 ->
  write_data_loop b e o (s :: rest) = write_data_loop b1 e (o + Z.of_nat (element_size c t)) rest.
Proof.
  intros Hs H. destruct (kind_ct_valid _ _ _ Hs) as [Hc Ht]. cbn [write_data_loop] in *. destruct (slice_from b o) as [tail| |]; cbn [bind] in *; try discriminate.
  match type of H with bind ?m _ = _ => destruct m as [b2| |]; cbn [bind] in *; try discriminate end.
  destruct (TypeOf s) as [[[c' t'] l]| |] eqn:ET; cbn [bind] in *; try discriminate. apply TypeOf_inv in ET as [ET _]. rewrite Hs in ET. injection ET as <- <-.
  injection H as ->. rewrite SizeOfElement_nat by auto. reflexivity.
Qed.

(** Wherever a slice that is not a []uint8 stands in a row, and whatever the
    others are: its accessor conforms, and the first element and all those at
    least as many bytes behind the second as there are rows are found as given. *)
Theorem C107_ahead d data d' idx k s c t :
  WriteAccessorsInterleaved d data = Ok (d', Ok idx) -> 2 <= List.length data -> row_allowed data -> Forall wf_slice data ->
  nth_error data k = Some s -> els s <> [] -> kind_ct (sk s) = Some (c, t) -> may_start c t (sum_sizes (firstn k data)) -> sk s <> SK CUbyte AScalar ->
  exists a vs, nth_error (doc_Accessors d') (List.length (doc_Accessors d) + k) = Some (Some a) /\ gltf_elements d' a vs /\
    List.length vs = List.length (els s) /\
    forall j, j = 0 \/ List.length (els s) <= (j - 1) * sum_sizes data -> nth_error vs j = nth_error (els s) j.
Proof.
  intros H L [R1 R2] HW Hk HN Hs MS NU. pose proof H as H0.
  destruct (rows_shape _ _ _ _ _ _ H L Hk) as (c' & t' & a & v & b & vo & i & Ks & Ha & A1 & A2 & A3 & A4 & A5 & A6 & A7 & F & SP & V1 & V2 & V3).
  rewrite Hs in Ks. injection Ks as <- <-. exists a.
  destruct (kind_ct_valid _ _ _ Hs) as [Hc Ht]. pose proof (element_size_pos c t Hc Ht) as EP.
  pose proof (sum_sizes_split _ _ _ Hk) as SS. rewrite (elem_bytes_kind _ _ _ Hs) in SS.
  set (e := sum_sizes data) in *. set (o := sum_sizes (firstn k data)) in *. set (n := List.length (els s)) in *.
  assert (N1 : 1 <= n) by (unfold n; destruct (els s); [contradiction|cbn; lia]).
  assert (E4 : 4 <= e) by (assert (E1 : 1 <= e) by lia; pose proof (Nat.div_mod e 4 ltac:(lia)); lia).
  destruct F as (_ & F2 & F3 & F4). rewrite Nat2Z.id in F2. destruct SP as (_ & _ & SP). rewrite V1, V3 in SP. unfold zlen in SP.
  assert (NE : n * e = e * (n - 1) + e) by (destruct n; [lia|]; replace (S n - 1) with n by lia; lia).
  assert (BY : vo mod 4 = 0 /\ forall p w, nth_error (els s) p = Some w -> p = 0 \/ n <= (p - 1) * e -> stored_at c t (buf_Data b) (vo + o + e * p) w).
  { apply WriteAccessorsInterleaved_shaped in H0. destruct H0 as (d0 & d1 & vi & accs & HP & HV & -> & _).
    assert (EV : doc_BufferViews d0 = doc_BufferViews d) by (apply ensurePadding_inv in HP as (pre & b0 & b' & pad & _ & -> & _); reflexivity).
    apply ensurePadding_inv in HP as (pre4 & b4 & b4' & pad & _ & -> & _ & _ & H4 & _).
    apply writeBufferViews_inv in HV as [(er & [=] & _)|HV].
    destruct HV as (pre & b0 & stride & size & written & b' & [= ->] & HV & HLB & HS0 & HM & HD & HL & _ & -> & ->).
    assert (Hne : data <> []) by (intros ->; destruct k; discriminate).
    destruct (view_loop_sized _ _ _ _ Hne HV) as (st & e' & n' & -> & Hsz & ->).
    pose proof (sized_nth _ _ _ _ _ _ Hsz Hk) as (c' & t' & _ & Hn' & _). fold n in Hn'. subst n'.
    pose proof Hsz as (HF & Hsum & [Hone|[_ Hone]]); [lia|]. fold e in Hsum. subst e' st. rewrite Nat2Z.id in *.
    rewrite A6 in F2. unfold with_accs in F2, F4.
    cbn [doc_BufferViews set_doc_BufferViews set_doc_Accessors] in F2. rewrite EV, nth_error_app2, Nat.sub_diag in F2 by lia. cbn in F2. injection F2 as <-.
    cbn [bvw_Buffer mk_view doc_Buffers set_doc_BufferViews set_doc_Buffers set_doc_Accessors] in F4. unfold zlen in F4. rewrite Nat2Z.id in F4.
    rewrite nth_error_app2, Nat.sub_diag in F4 by lia. cbn in F4. injection F4 as <-. cbn [buf_Data set_buf_Data].
    cbn in V1. apply Nat2Z.inj in V1. subst vo. split.
    { destruct HLB as [E0|(E0 & _)]; cbn [doc_Buffers set_doc_Buffers] in E0; [|destruct pre4; discriminate E0]. apply app_inj_tail in E0 as [_ E0]. assert (b4' = b0) as -> by congruence.
      unfold zlen in H4. apply Nat2Z.inj. rewrite Nat2Z.inj_mod. exact H4. }
    assert (Hm63 : (max_alloc < 2 ^ 63)%Z) by (vm_compute; reflexivity). unfold zlen in HM, HD. set (bs := List.length (buf_Data b0)) in *.
    assert (ALL : Forall (fun s => List.length (els s) = n) data) by (eapply Forall_impl; [|exact HF]; intros x (? & ? & _ & Q & _); exact Q).
    assert (SPL : data = firstn k data ++ s :: skipn (S k) data) by (apply nth_error_split in Hk as (l1 & l2 & -> & <-); rewrite firstn_app, firstn_all, Nat.sub_diag, skipn_app, skipn_all2 by lia; replace (S (List.length l1) - List.length l1) with 1 by lia; cbn; rewrite app_nil_r; reflexivity).
    pose proof HW as HW'. pose proof HF as HF'. rewrite SPL in HW', HF', ALL, HD. rewrite Forall_app in HW', HF', ALL. destruct HW' as [W1 W2], HF' as [_ HF2], ALL as [N2 N3].
    apply Forall_cons_iff in W2 as [Ws W2], HF2 as [HFs _], N3 as [_ N3].
    assert (LB : List.length (buf_Data b0 ++ zeros (n * e)) = bs + n * e) by (rewrite app_length, zeros_length; reflexivity).
    assert (MB : (Z.of_nat (bs + n * e) < 2 ^ 63)%Z) by lia.
    destruct (before_put (firstn k data) (buf_Data b0 ++ zeros (n * e)) e 0 n bs o (s :: skipn (S k) data) W1 N2) as (b1 & E1 & L1 & _); [lia|fold o; lia|lia|lia|rewrite LB; exact MB|].
    fold o in E1. rewrite Nat.add_0_r in E1. rewrite E1 in HD.
    assert (SZ : o + element_size c t + sum_sizes (skipn (S k) data) = e).
    { assert (Q : e = sum_sizes (firstn k data ++ s :: skipn (S k) data)) by (rewrite <- SPL; reflexivity). rewrite sum_sizes_mid, (elem_bytes_kind _ _ _ Hs) in Q. fold o in Q. lia. }
    destruct (write_data_loop_spec [s] b1 e e n bs o) as (b2 & E2 & L2 & _ & K2); auto.
    { constructor; [intros Q; contradiction|constructor]. }
    { rewrite sum_sizes_cons, (elem_bytes_kind _ _ _ Hs). cbn. lia. }
    all: try (unfold zlen; rewrite L1, LB; exact MB). all: try (rewrite L1, LB; reflexivity).
    rewrite (loop_one s (skipn (S k) data) _ _ _ _ c t Hs E2), <- Nat2Z.inj_add in HD.
    replace (bs + o + element_size c t) with (bs + (o + element_size c t)) in HD by lia.
    intros p w Hp FAR. specialize (K2 0 s c t p w eq_refl Hs Hp). cbn [firstn] in K2. change (sum_sizes []) with 0 in K2. rewrite Nat.add_0_r in K2.
    intros q y Hq. specialize (K2 q y Hq). pose proof (encoded_byte_bound _ _ _ _ _ Hc Ht Hq) as QB.
    destruct p as [|p].
    { apply write_data_loop_prefix in HD as [_ HD]; [|lia]. rewrite Nat2Z.id in HD. specialize (HD (S (bs + o + q)) ltac:(lia)).
      rewrite Nat.mul_0_r, Nat.add_0_r in K2 |- *. apply (f_equal (fun l => nth_error l (bs + o + q))) in HD. rewrite !nth_error_firstn' in HD. destruct (Nat.ltb_spec (bs + o + q) (S (bs + o + q))); [|lia]. rewrite HD. exact K2. }
    destruct FAR as [FAR|FAR]; [discriminate FAR|]. replace (S p - 1) with p in FAR by lia.
    destruct (behind_put (skipn (S k) data) b2 e (o + element_size c t) n bs (o + q) [] W2 N3) as (b3 & E3 & L3 & K3); [lia|lia|lia|lia|rewrite L2, L1, LB; exact MB|].
    rewrite app_nil_r in E3. rewrite E3 in HD. cbn [write_data_loop] in HD. injection HD as <-.
    specialize (K3 p). replace (bs + o + e * S p + q) with (bs + S p * e + (o + q)) in K2 |- * by lia. rewrite K3; [exact K2|]. cbn [Nat.mul]. lia. }
  destruct BY as [B4 BY].
  assert (HC0 : comp_bytes c <> 0) by (destruct c; discriminate).
  assert (HOC : o mod comp_bytes c = 0) by (unfold may_start in MS; destruct (columns t =? 1); [exact MS|exact (comp_divides c Hc o MS)]).
  set (vs := map (fun p => gltf_element c t (buf_Data b) (vo + o + e * p)) (seq 0 n)).
  assert (ST : gltf_stride c t e = e) by (unfold gltf_stride; destruct (Nat.eqb_spec e 0); [lia|reflexivity]).
  pose proof (packed_le c t Hc Ht) as PL.
  exists vs. split; [exact Ha|]. split.
  { unfold gltf_elements. rewrite A1, A2, A3, A4. split; [exact Hc|]. split; [exact Ht|]. exists n, vs. split; [reflexivity|]. split; [exact N1|]. split; [|reflexivity].
    unfold gltf_base. rewrite A5, A7, A1, A2. exists i, o. split; [reflexivity|]. split; [reflexivity|].
    exists v, (Z.to_nat (bvw_Buffer v)), b, vo, (n * e), e.
    split; [exact F2|]. split; [lia|]. split; [exact F4|]. split; [exact V1|]. split; [exact V3|]. split; [exact V2|]. split; [lia|].
    split; [right; split; [lia|split; [lia|exact R2]]|]. split; [exact HOC|].
    split; [rewrite Nat.add_mod, (comp_divides c Hc vo B4), HOC by exact HC0; apply Nat.mod_0_l; exact HC0|].
    split; [intros M; unfold may_start in MS; destruct (Nat.eqb_spec (columns t) 1); [contradiction|]; split; [exact MS|rewrite Nat.add_mod, B4, MS by lia; reflexivity]|].
    split; [exact N1|]. rewrite ST. split; [lia|reflexivity]. }
  split; [unfold vs; rewrite map_length, seq_length; reflexivity|]. intros p FAR. unfold vs. rewrite nth_error_map.
  destruct (nth_error (els s) p) as [w|] eqn:Ei.
  + assert (Hi : p < n) by (apply nth_error_Some; congruence).
    rewrite nth_error_nth' with (d := 0) by (rewrite seq_length; auto). rewrite seq_nth by auto. cbn [option_map plus]. f_equal. rewrite gltf_element_decode.
    rewrite Forall_forall in HW. pose proof (HW s (nth_error_In _ _ Hk)) as (c2 & t2 & K2 & W2). rewrite Hs in K2. injection K2 as <- <-. rewrite Forall_forall in W2.
    apply stored_at_decode; auto.
    * apply W2. eapply nth_error_In. exact Ei.
    * assert (e * p <= e * (n - 1)) by (apply Nat.mul_le_mono_l; lia). lia.
  + replace (nth_error (seq 0 n) p) with (@None nat); [reflexivity|]. symmetry. apply nth_error_None. rewrite seq_length. apply nth_error_None in Ei. exact Ei.
Qed.
Print Assumptions C107_ahead.

(** Shorts in front of unsigned bytes, ten rows of four bytes: of the shorts the
    first and those from the fifth on are found, and the second is not. *)
Definition ten (c : ComponentType) : slice := mkSlice (SK c AScalar) (map (fun x => [Z.of_nat x]) (seq 1 10)).
Definition ten_rows := [ten CUshort; ten CByte; ten CUbyte].
Example C107_ahead_example : row_allowed ten_rows /\ Forall wf_slice ten_rows /\
  exists d a vs, WriteAccessorsInterleaved zero_Document ten_rows = Ok (d, Ok [0; 1; 2]%Z) /\ nth_error (doc_Accessors d) 0 = Some (Some a) /\
  gltf_elements d a vs /\ nth_error vs 0 = Some [1%Z] /\ nth_error vs 4 = Some [5%Z] /\ nth_error vs 9 = Some [10%Z] /\ nth_error vs 1 = Some [770%Z].
Proof.
  assert (R : row_allowed ten_rows) by (split; [vm_compute; lia|reflexivity]). split; [exact R|].
  assert (W : Forall wf_slice ten_rows).
  { repeat (constructor; [eexists; eexists; split; [reflexivity|repeat (constructor; [split; [reflexivity|constructor; [cbn; lia|constructor]]|]); constructor]|]). constructor. }
  split; [exact W|].
  destruct (WriteAccessorsInterleaved zero_Document ten_rows) as [[d [idx| |]]| |] eqn:E; try (vm_compute in E; discriminate E).
  assert (EI : idx = [0; 1; 2]%Z) by (vm_compute in E; congruence). subst idx.
  destruct (C107_ahead zero_Document ten_rows d _ 0 (ten CUshort) CUshort AScalar E) as (a & vs & Ha & G & LV & K); try reflexivity; try assumption; [cbn; lia|discriminate|discriminate|].
  exists d, a, vs. split; [reflexivity|]. split; [exact Ha|]. split; [exact G|].
  split; [rewrite K; [reflexivity|left; reflexivity]|]. split; [rewrite K; [reflexivity|right; vm_compute; lia]|]. split; [rewrite K; [reflexivity|right; vm_compute; lia]|].
  destruct G as (_ & _ & n & base & Q1 & _ & Q3 & Q4). vm_compute in E. injection E as <-. cbn in Ha. injection Ha as <-. cbn in Q1, Q4. subst vs.
  destruct Q3 as (i & ao & Ei & Eo & v & kb & b & vo & vl & st & G1 & G2 & G3 & G4 & _ & G6 & _ & _ & _ & _ & _ & _ & _ & ->).
  assert (i = 0) as -> by lia. cbn in Eo. assert (ao = 0) as -> by lia. cbn in G1. injection G1 as <-. cbn in G2. assert (kb = 0) as -> by lia. cbn in G3. injection G3 as <-. cbn in G4, G6. assert (vo = 0) as -> by lia. assert (st = 4) as -> by lia. assert (n = 10) as -> by lia.
  vm_compute. reflexivity.
Qed.
