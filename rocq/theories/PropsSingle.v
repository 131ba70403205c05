(** C103: which single slices WriteAccessor stores as glTF says, exactly. *)
From Verif Require Import BaseFacts Types Binary SpecLayout BinaryProofs SliceProofs Doc F64 SpecDoc SpecTarget
  ModelerWrite ModelerRead ModelerWriteProofs ModelerReadProofs ModelerSparseProofs ModelerLayoutProofs ModelerShapeProofs
  ModelerAttrProofs ModelerTargetProofs SpecAccessor AccessorProofs AccessorWriteProofs PropsModelerWrite SpecSingle.
Local Open Scope nat_scope.

(** Elements that the library pads: the next one of glTF starts in the padding. *)
Lemma padded c t : ct_valid c = true -> at_valid t = true -> packed_size c t <> element_size c t ->
  packed_size c t + comp_bytes c <= element_size c t /\ columns t = 1 /\
  forall j, packed_size c t <= j < packed_size c t + comp_bytes c -> byte_role c t j = None.
Proof.
  intros Hc Ht H. all_ct c t; try (exfalso; apply H; reflexivity); (split; [vm_compute; lia|split; [reflexivity|]]);
    intros j Hj; vm_compute in Hj; do 8 (destruct j as [|j]; [try reflexivity; lia|]); lia.
Qed.

Lemma le_val_zeros w l : List.length l = w -> (forall j, j < w -> nth_error l j = Some (z2b 0)) -> le_val l = 0%Z.
Proof.
  revert l. induction w as [|w IH]; intros [|x l] L H; try discriminate; [reflexivity|].
  pose proof (H 0 ltac:(lia)) as H0. cbn in H0. injection H0 as ->. cbn [le_val]. rewrite (IH l).
  - reflexivity.
  - cbn in L. lia.
  - intros j Hj. exact (H (S j) ltac:(lia)).
Qed.

(** What one call leaves in the buffer. *)
Lemma one_written d tgt s d' vi c t : writeBufferViews d tgt [s] = Ok (d', Ok vi) ->
  (exists pre b, last_buffer_is d pre b /\ (zlen (buf_Data b) mod 4 = 0)%Z) -> wf_slice s -> kind_ct (sk s) = Some (c, t) ->
  tgt <> 34962%Z -> exists pre b data tail, vi = Z.of_nat (List.length (doc_BufferViews d)) /\ List.length (buf_Data b) = List.length data + List.length tail /\
    List.length data mod 4 = 0 /\ buf_Data b = data ++ tail /\ List.length tail = element_size c t * List.length (els s) /\
    stored_all c t (zeros (element_size c t * List.length (els s))) tail (element_size c t) (els s) /\
    nth_error (doc_BufferViews d') (List.length (doc_BufferViews d)) =
      Some (Some (mk_view (Z.of_nat pre) (zlen data) (Z.of_nat (List.length tail)) 0 tgt)) /\
    nth_error (doc_Buffers d') pre = Some (Some b).
Proof.
  intros H HAl HW Hs HT.
  apply writeBufferViews_inv in H as [(e & [=] & _)|H].
  destruct H as (pre & b & stride & size & written & b' & [= ->] & HV & HLB & _ & HM & HD & HL & HF & -> & ->).
  assert (HB4 : (List.length (buf_Data b)) mod 4 = 0).
  { destruct HAl as (pre' & b0 & HL0 & H4).
    assert (b0 = b).
    { destruct HL0 as [E0|(E0 & -> & ->)], HLB as [E1|(E1 & -> & ->)]; try congruence.
      - rewrite E0 in E1. apply app_inj_tail in E1 as [_ E1]. congruence.
      - rewrite E1 in E0. destruct pre'; discriminate.
      - rewrite E0 in E1. destruct pre; discriminate. }
    subst b0. unfold zlen in H4. apply Nat2Z.inj. rewrite Nat2Z.inj_mod. exact H4. }
  destruct (kind_ct_valid _ _ _ Hs) as [Hc Ht]. pose proof (element_size_pos c t Hc Ht) as Hpos.
  cbn [List.length] in HV. rewrite (view_loop_one _ _ _ _ Hs) in HV. injection HV as HV1 HV2.
  unfold single_stride in HV1. destruct (Z.eqb_spec tgt TargetArrayBuffer) as [E|_]; [exfalso; apply HT; exact E|]. cbn [andb] in HV1. subst stride.
  rewrite SizeOfElement_nat in HV2 by auto. unfold zlen in HV2. rewrite <- Nat2Z.inj_mul in HV2. subst size.
  rewrite (Nat.mul_comm (List.length (els s))) in *. set (n := List.length (els s)) in *. set (e := element_size c t) in *.
  assert (Hm63 : (max_alloc < 2 ^ 63)%Z) by (vm_compute; reflexivity).
  rewrite Nat2Z.id in *. set (base := List.length (buf_Data b)) in *.
  destruct HW as (c2 & t2 & K2 & W2). rewrite Hs in K2. injection K2 as <- <-.
  destruct s as [k vs]. cbn [sk els] in *.
  assert (SF : slice_from (buf_Data b ++ zeros (e * n)) (zlen (buf_Data b)) = Ok (zeros (e * n))).
  { unfold slice_from, zlen. rewrite app_length, zeros_length. fold base.
    destruct ((0 <=? Z.of_nat base)%Z && (Z.of_nat base <=? Z.of_nat (base + e * n))%Z) eqn:E1; [|lia].
    rewrite Nat2Z.id. unfold base. rewrite skipn_app, skipn_all, Nat.sub_diag. reflexivity. }
  destruct (Write_ok k c t vs (zeros (e * n)) 0) as (tail & HWr & HSt); auto.
  { rewrite zeros_length. unfold zlen in HM. lia. }
  { rewrite zeros_length. unfold needed, eff_stride. cbn [Nat.eqb]. fold e n. destruct n; lia. }
  cbn [write_data_loop] in HD. rewrite SF in HD. cbn [bind] in HD. change (Z.of_nat 0) with 0%Z in HWr. rewrite HWr in HD. cbn [bind] in HD.
  rewrite (TypeOf_kind _ _ _ _ Hs) in HD. cbn [bind write_data_loop] in HD. injection HD as HD.
  pose proof HSt as [LT _]. rewrite zeros_length in LT.
  assert (HWt : written = buf_Data b ++ tail).
  { rewrite <- HD. unfold overwrite, zlen. rewrite Nat2Z.id, firstn_app, firstn_all, Nat.sub_diag. cbn [firstn]. rewrite app_nil_r.
    f_equal. rewrite skipn_all2; [apply app_nil_r|]. rewrite app_length, zeros_length. lia. }
  exists (List.length pre), (set_buf_Data written (set_buf_ByteLength (i64 (buf_ByteLength b + Z.of_nat (e * n))) b)), (buf_Data b), tail.
  split; [reflexivity|]. cbn [buf_Data set_buf_Data]. split; [rewrite HWt, app_length; reflexivity|].
  split; [exact HB4|]. split; [exact HWt|]. split; [exact LT|]. split; [exact HSt|]. rewrite LT. split.
  - cbn [doc_BufferViews set_doc_BufferViews]. rewrite nth_error_app2 by lia. rewrite Nat.sub_diag. reflexivity.
  - cbn [doc_Buffers set_doc_BufferViews set_doc_Buffers]. rewrite nth_error_app2 by lia. rewrite Nat.sub_diag. reflexivity.
Qed.

(** The accessor of a slice that is not of vertices has the elements that start
    every [packed_size] bytes of what was written. *)
Lemma one_elements d tgt s d' vi c t : writeBufferViews d tgt [s] = Ok (d', Ok vi) ->
  (exists pre b, last_buffer_is d pre b /\ (zlen (buf_Data b) mod 4 = 0)%Z) -> wf_slice s -> kind_ct (sk s) = Some (c, t) ->
  tgt <> 34962%Z -> els s <> [] -> vi = Z.of_nat (List.length (doc_BufferViews d)) /\
  exists vs, gltf_stored d' (List.length (doc_BufferViews d)) 0 c t (List.length (els s)) vs /\ List.length vs = List.length (els s) /\
    hd_error vs = hd_error (els s) /\
    (packed_size c t <> element_size c t -> 2 <= List.length (els s) -> exists v, nth_error vs 1 = Some v /\ hd_error v = Some 0%Z).
Proof.
  intros H HAl HW Hs HT HN. destruct (one_written _ _ _ _ _ _ _ H HAl HW Hs HT) as (pre & b & data & tail & -> & LB & H4 & EB & LT & HSt & EV & EBu).
  split; [reflexivity|]. destruct (kind_ct_valid _ _ _ Hs) as [Hc Ht]. pose proof (element_size_pos c t Hc Ht) as Hpos.
  pose proof (packed_le c t Hc Ht) as (P1 & P2 & P3 & P4 & P5 & P6).
  assert (N1 : 1 <= List.length (els s)) by (destruct (els s); [contradiction|cbn; lia]).
  assert (HC0 : comp_bytes c <> 0) by (destruct c; discriminate).
  set (n := List.length (els s)) in *. set (e := element_size c t) in *.
  assert (NE : e * n = e * (n - 1) + e) by (destruct n; [lia|]; replace (S n - 1) with n by lia; lia).
  assert (NP : packed_size c t * (n - 1) <= e * (n - 1)) by (apply Nat.mul_le_mono_r; lia).
  eexists. split.
  { exists (mk_view (Z.of_nat pre) (zlen data) (Z.of_nat (List.length tail)) 0 tgt), pre, b, (List.length data), (List.length tail), 0.
    split; [exact EV|]. split; [reflexivity|]. split; [exact EBu|]. split; [reflexivity|]. split; [reflexivity|]. split; [reflexivity|].
    split; [lia|]. split; [left; reflexivity|]. split; [apply Nat.mod_0_l; exact HC0|]. rewrite Nat.add_0_r.
    split; [exact (comp_divides c Hc _ H4)|]. split; [intros _; split; [reflexivity|exact H4]|].
    split; [exact N1|]. split; [|reflexivity]. unfold gltf_stride. cbn [Nat.eqb]. lia. }
  unfold gltf_stride. cbn [Nat.eqb]. rewrite map_length, seq_length. split; [reflexivity|]. rewrite EB.
  split.
  - destruct (els s) as [|v l] eqn:Es; [contradiction|]. unfold n. cbn [List.length seq map hd_error]. f_equal.
    rewrite Nat.mul_0_r, !Nat.add_0_r, gltf_element_decode.
    destruct HW as (c2 & t2 & K2 & W2). rewrite Hs in K2. injection K2 as <- <-. rewrite Es in W2.
    apply stored_at_decode; auto; [inversion W2; assumption|rewrite app_length; fold e; lia|].
    pose proof (stored_all_stored_at c t _ _ e (v :: l) 0 v Hc Ht ltac:(lia) HSt) as Q.
    rewrite zeros_length in Q. specialize (Q ltac:(unfold needed; cbn [List.length]; unfold n in *; cbn [List.length] in *; fold e; lia) eq_refl).
    intros j y Hj. rewrite nth_error_app2 by lia. replace (List.length data + j - List.length data) with j by lia.
    specialize (Q j y Hj). rewrite Nat.mul_0_r in Q. exact Q.
  - intros HP N2. destruct (padded c t Hc Ht HP) as (Q1 & Q2 & Q3).
    eexists. split. { rewrite nth_error_map. rewrite nth_error_nth' with (d := 0) by (rewrite seq_length; lia). rewrite seq_nth by lia. reflexivity. }
    unfold gltf_element. assert (R1 : exists r, rows t * columns t = S r) by (destruct t; try discriminate; eexists; reflexivity).
    destruct R1 as [r ->]. cbn [seq map hd_error]. f_equal.
    rewrite Nat.div_0_l, Nat.mod_0_l by lia. replace (component_offset c t 0 0) with 0 by reflexivity. rewrite Nat.mul_1_r, !Nat.add_0_r. cbn [plus].
    fold e in Q1. assert (LE : e <= e * n) by nia.
    apply (le_val_zeros (comp_bytes c)).
    + unfold sub. rewrite firstn_length, skipn_length, app_length. lia.
    + intros j Hj. unfold sub. rewrite nth_error_firstn'. destruct (Nat.ltb_spec j (comp_bytes c)) as [_|Z]; [|lia]. rewrite nth_error_skipn', nth_error_app2 by lia.
      destruct HSt as [_ HSt]. rewrite zeros_length in HSt.
      replace (List.length data + packed_size c t + j - List.length data) with (packed_size c t + j) by lia.
      rewrite HSt by lia. rewrite Nat.div_small, Nat.mod_small by lia.
      unfold encoded_byte. rewrite (Q3 (packed_size c t + j)) by lia.
      destruct (nth_error (els s) 0); (unfold zeros; rewrite nth_error_repeat by lia; reflexivity).
Qed.

(** WriteAccessor: the accessor conforms in every case.  Its elements are the
    given ones if they are stored plainly; else the second one starts with 0,
    whatever was given. *)
Theorem C103_stored d target s d1 i ops d2 c t :
  WriteAccessor d target s = Ok (d1, i) -> run_ops d1 ops = Ok d2 -> wf_slice s -> kind_ct (sk s) = Some (c, t) -> els s <> [] ->
  exists a vs, nth_error (doc_Accessors d2) (List.length (doc_Accessors d)) = Some (Some a) /\ gltf_elements d2 a vs /\
    List.length vs = List.length (els s) /\
    (stored_plainly target c t (List.length (els s)) -> vs = els s) /\
    (~ stored_plainly target c t (List.length (els s)) -> exists v, nth_error vs 1 = Some v /\ hd_error v = Some 0%Z).
Proof.
  intros H HO HW Hs HN. apply WriteAccessor_shaped in H.
  assert (K : exists a vs, nth_error (doc_Accessors d1) (List.length (doc_Accessors d)) = Some (Some a) /\ means d1 a (mkSlice (sk s) vs) /\
    List.length vs = List.length (els s) /\
    (stored_plainly target c t (List.length (els s)) -> vs = els s) /\
    (~ stored_plainly target c t (List.length (els s)) -> exists v, nth_error vs 1 = Some v /\ hd_error v = Some 0%Z)).
  { destruct (Z.eq_dec target 34962) as [ET|NT]; [|destruct (Nat.eq_dec (packed_size c t) (element_size c t)) as [EP|NP]].
    1, 2: assert (WR : writable target [s]) by (intros c' t' Hs'; rewrite Hs in Hs'; injection Hs' as <- <-; auto);
      destruct (shaped_means _ _ _ _ H ltac:(auto) WR ltac:(auto) 0 s eq_refl) as (a & Ha & HM & _);
      rewrite Nat.add_0_r in Ha; exists a, (els s); (split; [exact Ha|]); (split; [destruct s; exact HM|]); (split; [reflexivity|]);
      (split; [reflexivity|]); intros Q; exfalso; apply Q; unfold stored_plainly; auto.
    destruct H as (d0 & dm & vi & accs & HP & HV & -> & [_ HF]).
    destruct (HF 0 s eq_refl) as (c' & t' & a & Hs' & Ha & HC). rewrite Hs in Hs'. injection Hs' as <- <-. 
    assert (HAl : exists pre b, last_buffer_is d0 pre b /\ (zlen (buf_Data b) mod 4 = 0)%Z).
    { apply ensurePadding_inv in HP as (pre & b & b' & pad & _ & -> & _ & _ & H4 & _). exists pre, b'. split; [left; reflexivity|exact H4]. }
    destruct (one_elements _ _ _ _ _ _ _ HV HAl HW Hs NT HN) as (-> & vs & G1 & G2 & G3 & G4).
    destruct (kind_ct_valid _ _ _ Hs) as [Hc Ht].
    assert (N1 : 1 <= List.length (els s)) by (destruct (els s); [contradiction|cbn; lia]).
    exists a, vs. split.
    { unfold with_accs. cbn [doc_Accessors set_doc_Accessors]. rewrite nth_error_app2 by lia. rewrite Nat.sub_diag, nth_error_map, Ha. reflexivity. }
    split.
    { eapply same_core_means; [exact HC|]. split; [reflexivity|]. split; [exact Hs|]. split; [exact Hc|]. split; [exact Ht|].
      exists (List.length (els s)), vs. split; [reflexivity|]. split; [exact N1|]. split; [|reflexivity].
      exists (List.length (doc_BufferViews d0)), 0. split; [reflexivity|]. split; [reflexivity|]. exact G1. }
    split; [exact G2|]. split.
    - intros [Q|[Q|Q]]; [contradiction|contradiction|]. rewrite Q in G2. destruct vs as [|v [|]], (els s) as [|w [|]]; try discriminate.
      cbn in G3. injection G3 as ->. reflexivity.
    - intros Q. apply G4; [exact NP|]. assert (List.length (els s) <> 1) by (intros E; apply Q; unfold stored_plainly; auto). lia. }
  destruct K as (a & vs & Ha & HM & HL & K1 & K2). apply run_ops_extends in HO. exists a, vs. split.
  { destruct HO as ([l ->] & _). rewrite nth_error_app1; [exact Ha|]. apply nth_error_Some. congruence. }
  destruct (means_mono _ _ _ _ HO HM) as (_ & _ & M2). auto.
Qed.
Print Assumptions C103_stored.

(** The criterion is exact: data whose second element does not start with 0 is
    in the file precisely if it is stored plainly. *)
Theorem C103_exact d target s d1 i ops d2 c t :
  WriteAccessor d target s = Ok (d1, i) -> run_ops d1 ops = Ok d2 -> wf_slice s -> kind_ct (sk s) = Some (c, t) -> els s <> [] ->
  (forall v, nth_error (els s) 1 = Some v -> hd_error v <> Some 0%Z) ->
  exists a, nth_error (doc_Accessors d2) (List.length (doc_Accessors d)) = Some (Some a) /\
    (gltf_elements d2 a (els s) <-> stored_plainly target c t (List.length (els s))).
Proof.
  intros H HO HW Hs HN HZ. destruct (C103_stored _ _ _ _ _ _ _ _ _ H HO HW Hs HN) as (a & vs & Ha & HE & HL & K1 & K2).
  exists a. split; [exact Ha|]. split.
  - intros G. pose proof (gltf_elements_det _ _ _ _ G HE) as <-. unfold stored_plainly in *.
    destruct (Z.eq_dec target 34962); [auto|]. destruct (Nat.eq_dec (packed_size c t) (element_size c t)); [auto|].
    destruct (Nat.eq_dec (List.length (els s)) 1); [auto|]. exfalso. destruct K2 as (v & V1 & V2); [tauto|]. exact (HZ v V1 V2).
  - intros Q. rewrite <- (K1 Q). exact HE.
Qed.
Print Assumptions C103_exact.

(** Cases: one colour of three bytes outside of vertices, two of them, and two
    vertices. *)
Definition one_rgb := mkSlice (SK CUbyte AVec3) [[1; 2; 3]]%Z.
Definition two_rgb := mkSlice (SK CUbyte AVec3) [[1; 2; 3]; [4; 5; 6]]%Z.
Example C103_example :
  (exists d, WriteAccessor zero_Document 0 one_rgb = Ok (d, 0%Z)) /\ stored_plainly 0 CUbyte AVec3 1 /\
  (exists d, WriteAccessor zero_Document 0 two_rgb = Ok (d, 0%Z)) /\ ~ stored_plainly 0 CUbyte AVec3 2 /\
  (exists d, WriteAccessor zero_Document 34962 two_rgb = Ok (d, 0%Z)) /\ stored_plainly 34962 CUbyte AVec3 2 /\
  wf_slice one_rgb /\ wf_slice two_rgb /\ (forall v, nth_error (els two_rgb) 1 = Some v -> hd_error v <> Some 0%Z).
Proof.
  split; [eexists; vm_compute; reflexivity|]. split; [right; right; reflexivity|].
  split; [eexists; vm_compute; reflexivity|]. split; [intros [Q|[Q|Q]]; discriminate|].
  split; [eexists; vm_compute; reflexivity|]. split; [right; left; reflexivity|].
  split; [|split].
  1, 2: exists CUbyte, AVec3; (split; [reflexivity|]); repeat (constructor; [split; [reflexivity|repeat constructor; lia]|]); constructor.
  intros v [= <-]. discriminate.
Qed.
