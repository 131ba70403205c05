(** C107: what stands behind the last []uint8 of a row is stored as given. *)
From Verif Require Import BaseFacts Types Binary SpecLayout BinaryProofs SliceProofs Doc F64 SpecDoc SpecTarget
  ModelerWrite ModelerRead ModelerWriteProofs ModelerReadProofs ModelerSparseProofs ModelerLayoutProofs ModelerShapeProofs
  ModelerAttrProofs ModelerTargetProofs SpecAccessor AccessorProofs AccessorWriteProofs PropsModelerWrite SpecFetch FetchProofs PropsFetch SpecRows PropsRows PropsBytes PropsBytesFile PropsBytesAll.
Local Open Scope nat_scope.

(** The elements of a slice of that type may start at that place of a row. *)
Definition may_start (c : ComponentType) (t : AccessorType) (o : nat) : Prop := o mod (if columns t =? 1 then comp_bytes c else 4) = 0.

(** ** C107 *)
Theorem C107_behind d data d' idx k s c t :
  WriteAccessorsInterleaved d data = Ok (d', Ok idx) -> 2 <= List.length data -> row_allowed data -> Forall wf_slice data ->
  nth_error data k = Some s -> els s <> [] -> kind_ct (sk s) = Some (c, t) -> may_start c t (sum_sizes (firstn k data)) ->
  (forall j x, k <= j -> nth_error data j = Some x -> sk x <> SK CUbyte AScalar) ->
  exists a, nth_error (doc_Accessors d') (List.length (doc_Accessors d) + k) = Some (Some a) /\
    acr_ComponentType a = c /\ acr_Type a = t /\ forall vs, gltf_elements d' a vs <-> vs = els s.
Proof.
  intros H L [R1 R2] HW Hk HN Hs MS HA. pose proof H as H0.
  destruct (rows_shape _ _ _ _ _ _ H L Hk) as (c' & t' & a & v & b & vo & i & Ks & Ha & A1 & A2 & A3 & A4 & A5 & A6 & A7 & F & SP & V1 & V2 & V3).
  rewrite Hs in Ks. injection Ks as <- <-. exists a. split; [exact Ha|]. split; [exact A1|]. split; [exact A2|].
  destruct (kind_ct_valid _ _ _ Hs) as [Hc Ht]. pose proof (element_size_pos c t Hc Ht) as EP.
  pose proof (sum_sizes_split _ _ _ Hk) as SS. rewrite (elem_bytes_kind _ _ _ Hs) in SS.
  set (e := sum_sizes data) in *. set (o := sum_sizes (firstn k data)) in *. set (n := List.length (els s)) in *.
  assert (N1 : 1 <= n) by (unfold n; destruct (els s); [contradiction|cbn; lia]).
  assert (E4 : 4 <= e) by (assert (E1 : 1 <= e) by lia; pose proof (Nat.div_mod e 4 ltac:(lia)); lia).
  destruct F as (_ & F2 & F3 & F4). rewrite Nat2Z.id in F2. destruct SP as (_ & _ & SP). rewrite V1, V3 in SP. unfold zlen in SP.
  assert (NE : n * e = e * (n - 1) + e) by (destruct n; [lia|]; replace (S n - 1) with n by lia; lia).
  assert (BY : vo mod 4 = 0 /\ forall p w, nth_error (els s) p = Some w -> stored_at c t (buf_Data b) (vo + o + e * p) w).
  { apply WriteAccessorsInterleaved_shaped in H0. destruct H0 as (d0 & d1 & vi & accs & HP & HV & -> & _).
    assert (EV : doc_BufferViews d0 = doc_BufferViews d) by (apply ensurePadding_inv in HP as (pre & b0 & b' & pad & _ & -> & _); reflexivity).
    apply ensurePadding_inv in HP as (pre4 & b4 & b4' & pad & _ & -> & _ & _ & H4 & _).
    apply writeBufferViews_inv in HV as [(er & [=] & _)|HV].
    destruct HV as (pre & b0 & stride & size & written & b' & [= ->] & HV & HLB & HS0 & HM & HD & HL & _ & -> & ->).
    assert (Hne : data <> []) by (intros ->; destruct k; discriminate).
    destruct (view_loop_sized _ _ _ _ Hne HV) as (st & e' & n' & -> & Hsz & ->).
    pose proof (sized_nth _ _ _ _ _ _ Hsz Hk) as (c' & t' & _ & Hn' & _). fold n in Hn'. subst n'.
    pose proof Hsz as (HF & Hsum & [Hone|[_ Hone]]); [lia|]. fold e in Hsum. subst e' st. rewrite Nat2Z.id in *.
    rewrite A6 in F2. unfold with_accs in F2, F4.
    cbn [doc_BufferViews set_doc_BufferViews set_doc_Accessors] in F2. rewrite EV, nth_error_app2, Nat.sub_diag in F2 by lia. cbn in F2. injection F2 as <-.
    cbn [bvw_Buffer mk_view doc_Buffers set_doc_BufferViews set_doc_Buffers set_doc_Accessors] in F4. unfold zlen in F4. rewrite Nat2Z.id in F4.
    rewrite nth_error_app2, Nat.sub_diag in F4 by lia. cbn in F4. injection F4 as <-. cbn [buf_Data set_buf_Data].
    cbn in V1. apply Nat2Z.inj in V1. subst vo. split.
    { destruct HLB as [E0|(E0 & _)]; cbn [doc_Buffers set_doc_Buffers] in E0; [|destruct pre4; discriminate E0]. apply app_inj_tail in E0 as [_ E0]. assert (b4' = b0) as -> by congruence.
      unfold zlen in H4. apply Nat2Z.inj. rewrite Nat2Z.inj_mod. exact H4. }
    assert (Hm63 : (max_alloc < 2 ^ 63)%Z) by (vm_compute; reflexivity). unfold zlen in HM, HD. set (bs := List.length (buf_Data b0)) in *.
    assert (ALL : Forall (fun s => List.length (els s) = n) data) by (eapply Forall_impl; [|exact HF]; intros x (? & ? & _ & Q & _); exact Q).
    pose proof (firstn_skipn k data) as SPL. pose proof HW as HW'. pose proof HF as HF'. rewrite <- SPL in HW', HF', ALL, HD. rewrite Forall_app in HW', HF', ALL. destruct HW' as [W1 W2], HF' as [_ HF2], ALL as [N2 _].
    assert (LB : List.length (buf_Data b0 ++ zeros (n * e)) = bs + n * e) by (rewrite app_length, zeros_length; reflexivity).
    assert (MB : (Z.of_nat (bs + n * e) < 2 ^ 63)%Z) by lia.
    destruct (before_put (firstn k data) (buf_Data b0 ++ zeros (n * e)) e 0 n bs o (skipn k data) W1 N2) as (b1 & E1 & L1 & _); [lia|fold o; lia|lia|lia|rewrite LB; exact MB|].
    fold o in E1. rewrite Nat.add_0_r in E1. rewrite E1 in HD.
    assert (SZ : o + sum_sizes (skipn k data) <= e) by (unfold o, e; rewrite <- SPL at 3; unfold sum_sizes; rewrite map_app, list_sum_app; lia).
    destruct (write_data_loop_spec (skipn k data) b1 e e n bs o) as (b2 & E2 & L2 & _ & K2); auto.
    { apply Forall_forall. intros x I Hx. exfalso. apply In_nth_error in I as [i' Hj]. rewrite nth_error_skipn' in Hj. apply (HA (k + i') x); [lia|exact Hj|exact Hx]. }
    all: try (unfold zlen; rewrite L1, LB; exact MB). all: try (rewrite L1, LB; reflexivity).
    rewrite E2 in HD. injection HD as <-. intros p w Hp. specialize (K2 0 s c t p w). cbn [firstn] in K2. change (sum_sizes []) with 0 in K2. rewrite Nat.add_0_r in K2.
    apply K2; [rewrite nth_error_skipn', Nat.add_0_r; exact Hk|exact Hs|exact Hp]. }
  destruct BY as [B4 BY].
  assert (HC0 : comp_bytes c <> 0) by (destruct c; discriminate).
  assert (HOC : o mod comp_bytes c = 0) by (unfold may_start in MS; destruct (columns t =? 1); [exact MS|exact (comp_divides c Hc o MS)]).
  assert (G : gltf_elements d' a (els s)).
  { unfold gltf_elements. rewrite A1, A2, A3, A4. split; [exact Hc|]. split; [exact Ht|]. exists n, (els s). split; [reflexivity|]. split; [exact N1|]. split; [|reflexivity].
    unfold gltf_base. rewrite A5, A7, A1, A2. exists i, o. split; [reflexivity|]. split; [reflexivity|].
    exists v, (Z.to_nat (bvw_Buffer v)), b, vo, (n * e), e.
    split; [exact F2|]. split; [lia|]. split; [exact F4|]. split; [exact V1|]. split; [exact V3|]. split; [exact V2|]. split; [lia|].
    pose proof (packed_le c t) as PL.
    split; [right; split; [lia|split; [lia|exact R2]]|]. split; [exact HOC|].
    split; [rewrite Nat.add_mod, (comp_divides c Hc vo B4), HOC by exact HC0; apply Nat.mod_0_l; exact HC0|].
    split; [intros M; unfold may_start in MS; destruct (Nat.eqb_spec (columns t) 1); [contradiction|]; split; [exact MS|rewrite Nat.add_mod, B4, MS by lia; reflexivity]|].
    split; [exact N1|]. unfold gltf_stride. destruct (Nat.eqb_spec e 0) as [|_]; [lia|].
    split; [lia|].
    apply nth_error_ext. intros p. rewrite nth_error_map. destruct (nth_error (els s) p) as [w|] eqn:Ei.
    + assert (Hi : p < n) by (apply nth_error_Some; congruence).
      rewrite nth_error_nth' with (d := 0) by (rewrite seq_length; auto). rewrite seq_nth by auto. cbn [option_map plus]. f_equal. rewrite gltf_element_decode.
      rewrite Forall_forall in HW. pose proof (HW s (nth_error_In _ _ Hk)) as (c2 & t2 & K2 & W2). rewrite Hs in K2. injection K2 as <- <-. rewrite Forall_forall in W2.
      symmetry. apply stored_at_decode; auto.
      * apply W2. eapply nth_error_In. exact Ei.
      * assert (e * p <= e * (n - 1)) by (apply Nat.mul_le_mono_l; lia). lia.
    + replace (nth_error (seq 0 n) p) with (@None nat); [reflexivity|]. symmetry. apply nth_error_None. rewrite seq_length. apply nth_error_None in Ei. exact Ei. }
  intros vs. split; [intros Q; exact (gltf_elements_det _ _ _ _ Q G)|intros ->; exact G].
Qed.
Print Assumptions C107_behind.

(** So with one []uint8, in front, all other slices are stored as given; the
    []uint8 itself is if it has only zeros behind the first element. *)
Theorem C107_front d data d' idx first rest :
  WriteAccessorsInterleaved d data = Ok (d', Ok idx) -> data = first :: rest -> rest <> [] -> row_allowed data -> Forall wf_slice data ->
  sk first = SK CUbyte AScalar -> els first <> [] -> Forall (fun s => sk s <> SK CUbyte AScalar) rest ->
  (forall k s c t, nth_error data k = Some s -> kind_ct (sk s) = Some (c, t) -> may_start c t (sum_sizes (firstn k data))) ->
  (forall k s, nth_error rest k = Some s -> exists a, nth_error (doc_Accessors d') (List.length (doc_Accessors d) + S k) = Some (Some a) /\ gltf_elements d' a (els s)) /\
  exists a, nth_error (doc_Accessors d') (List.length (doc_Accessors d)) = Some (Some a) /\ (gltf_elements d' a (els first) <-> Forall (fun v => v = [0%Z]) (tl (els first))).
Proof.
  intros H D RN R HW HU HN HR HS. assert (L : 2 <= List.length data) by (rewrite D; destruct rest; [contradiction|cbn; lia]).
  rewrite Forall_forall in HR. split.
  - intros k s Hk. assert (Hk' : nth_error data (S k) = Some s) by (rewrite D; exact Hk).
    pose proof HW as HW'. rewrite Forall_forall in HW'. destruct (HW' s (nth_error_In _ _ Hk')) as (c & t & K & _).
    assert (NE : els s <> []).
    { assert (Q : List.length (els s) = List.length (els first)).
      { pose proof (WriteAccessorsInterleaved_shaped _ _ _ _ H) as (d0 & d1 & vi & accs & _ & HV & _). apply writeBufferViews_inv in HV as [(er & [=] & _)|HV].
        destruct HV as (pre & b0 & stride & size & written & b' & [= ->] & HV & _). assert (Hne : data <> []) by (rewrite D; discriminate). destruct (view_loop_sized _ _ _ _ Hne HV) as (st & e' & n' & -> & Hsz & ->).
        pose proof (sized_nth _ _ _ _ _ _ Hsz Hk') as (? & ? & _ & Q1 & _). assert (H0' : nth_error data 0 = Some first) by (rewrite D; reflexivity). pose proof (sized_nth _ _ _ _ _ _ Hsz H0') as (? & ? & _ & Q2 & _). congruence. }
      intros E. rewrite E in Q. destruct (els first); [contradiction|discriminate Q]. }
    destruct (C107_behind d data d' idx (S k) s c t H L R HW Hk' NE K (HS _ _ _ _ Hk' K)) as (a & Ha & _ & _ & G).
    { intros [|j] x J Q; [lia|]. rewrite D in Q. cbn [nth_error] in Q. apply HR. exact (nth_error_In _ _ Q). }
    exists a. split; [exact Ha|]. apply G. reflexivity.
  - destruct (C105_kept d data d' idx 0 first H L R HW ltac:(rewrite D; reflexivity) HU HN) as (a & Ha & G).
    { intros [|j] x J Q; [lia|]. rewrite D in Q. cbn [nth_error] in Q. apply HR. exact (nth_error_In _ _ Q). }
    rewrite Nat.add_0_r in Ha. exists a. auto.
Qed.
Print Assumptions C107_front.

(** Unsigned bytes in front of signed ones and shorts: the shorts are found. *)
Definition behind_rows := [five CUbyte; five CByte; five CUshort].
Example C107_example : row_allowed behind_rows /\ Forall wf_slice behind_rows /\ may_start CUshort AScalar (sum_sizes (firstn 2 behind_rows)) /\
  exists d a, WriteAccessorsInterleaved zero_Document behind_rows = Ok (d, Ok [0; 1; 2]%Z) /\ nth_error (doc_Accessors d) 2 = Some (Some a) /\
  gltf_elements d a [[1]; [2]; [3]; [4]; [5]]%Z.
Proof.
  assert (R : row_allowed behind_rows) by (split; [vm_compute; lia|reflexivity]). split; [exact R|].
  assert (W : Forall wf_slice behind_rows).
  { repeat (constructor; [eexists; eexists; split; [reflexivity|repeat (constructor; [split; [reflexivity|constructor; [cbn; lia|constructor]]|]); constructor]|]). constructor. }
  split; [exact W|]. split; [reflexivity|].
  destruct (WriteAccessorsInterleaved zero_Document behind_rows) as [[d [idx| |]]| |] eqn:E; try (vm_compute in E; discriminate E).
  assert (EI : idx = [0; 1; 2]%Z) by (vm_compute in E; congruence). subst idx.
  destruct (C107_behind zero_Document behind_rows d _ 2 (five CUshort) CUshort AScalar E) as (a & Ha & _ & _ & K); try reflexivity; try assumption; [cbn; lia|discriminate| |].
  { intros [|[|[|j]]] x J Q; try lia; [injection Q as <-; discriminate|destruct j; discriminate Q]. }
  exists d, a. split; [reflexivity|]. split; [exact Ha|]. apply K. reflexivity.
Qed.
