(** Proofs about the accessors of glTF 2.0 (SpecAccessor): reading them and
    writing them. *)
From Coq Require Import Sorted.
From Verif Require Import BaseFacts Types Binary SpecLayout BinaryProofs SliceProofs Doc F64 SpecDoc ModelerWrite ModelerRead
  ModelerWriteProofs ModelerReadProofs ModelerSparseProofs ModelerLayoutProofs SpecAccessor.
Local Open Scope nat_scope.

Lemma gltf_element_decode c t b pos : gltf_element c t b pos = decode_elem c t b pos.
Proof. reflexivity. Qed.

Lemma packed_le c t : ct_valid c = true -> at_valid t = true ->
  packed_size c t <= element_size c t /\ mem_size c t <= extent c t /\ extent c t <= element_size c t /\
  1 <= mem_size c t /\ element_size c t <= 64 /\ mem_size c t <= packed_size c t.
Proof. intros Hc Ht. all_ct c t; vm_compute; lia. Qed.

Lemma packed_strided c t st : ct_valid c = true -> at_valid t = true ->
  packed_size c t <= st -> 4 <= st -> st mod 4 = 0 -> element_size c t <= st.
Proof.
  intros Hc Ht H H4 HM. apply Nat.mod_divides in HM as [q ->]; [|lia].
  all_ct c t; match type of H with ?a <= _ => let v := eval vm_compute in a in change a with v in H end;
  match goal with |- ?a <= _ => let v := eval vm_compute in a in change a with v end; lia.
Qed.

Lemma gltf_stored_seq d i ao c t n vs :
  ct_valid c = true -> at_valid t = true ->
  (forall b, In (Some b) (doc_Buffers d) -> (zlen (buf_Data b) <= max_alloc)%Z) ->
  gltf_stored d i ao c t n vs -> library_layout d i ao c t n ->
  seq_at d i ao c t n vs /\ countable c t (Z.of_nat n).
Proof.
  intros Hc Ht HA (v & kb & b & vo & vl & st & H1 & H2 & H3 & H4 & H5 & H6 & H7 & H9 & _ & _ & _ & H10 & H11 & ->) HL.
  destruct (HL v H1) as (L1 & L2 & L3 & L4). rewrite H5, H6, !Nat2Z.id in *.
  pose proof (packed_le c t Hc Ht) as (P1 & P2 & P3 & P4 & P5 & P6).
  assert (HE : eff_stride c t st = gltf_stride c t st /\ (st = 0 \/ element_size c t <= st)).
  { unfold eff_stride, gltf_stride. destruct (Nat.eqb_spec st 0) as [->|NE].
    - split; [|auto]. destruct (Nat.lt_ge_cases (packed_size c t) (element_size c t)) as [L|G]; [|lia].
      specialize (L2 L). lia.
    - split; [reflexivity|]. right. destruct H9 as [|(Q1 & Q2 & Q3)]; [contradiction|]. apply packed_strided; auto; lia. }
  destruct HE as [HE HS].
  assert (M : max_alloc = (2 ^ 48)%Z) by reflexivity.
  assert (SB : gltf_stride c t st <= 252 /\ mem_size c t <= gltf_stride c t st).
  { unfold gltf_stride. destruct (Nat.eqb_spec st 0) as [->|NE]; [lia|]. lia. }
  pose proof (HA b (nth_error_In _ _ H3)) as H8. unfold zlen in H8.
  assert (B : (Z.of_nat (List.length (buf_Data b)) <= 2 ^ 48)%Z) by lia.
  assert (NN : gltf_stride c t st * n = gltf_stride c t st * (n - 1) + gltf_stride c t st) by (destruct n; [lia|]; replace (S n - 1) with n by lia; lia).
  split.
  - exists v, kb, b, vo, vl, st.
    do 6 (split; [assumption|]). split; [assumption|]. split; [unfold zlen; lia|]. split; [lia|]. split; [exact HS|].
    assert (ND : needed c t (gltf_stride c t st) n = gltf_stride c t st * (n - 1) + element_size c t).
    { unfold needed. destruct n; [lia|]. replace (S n - 1) with n by lia. reflexivity. }
    rewrite HE. split; [rewrite ND; lia|]. split.
    { unfold fits. rewrite ND. rewrite NN. repeat split; try lia. }
    split.
    { unfold reads_strided. destruct (ct_eqb c CByte && at_eqb t AScalar) eqn:E.
      - right. destruct c, t; try discriminate. destruct (L4 eq_refl eq_refl) as [-> LV]. repeat split; lia.
      - left. split; [intros [= -> ->]; discriminate|]. intros [= -> ->]. rewrite L3 by reflexivity. lia. }
    split; [rewrite map_length, seq_length; reflexivity|].
    intros k w Hw. rewrite nth_error_map in Hw.
    destruct (nth_error (seq 0 n) k) as [k'|] eqn:Ek; [|discriminate]. cbn in Hw.
    assert (Hk : k < n) by (rewrite <- (seq_length n 0); apply nth_error_Some; congruence).
    rewrite (nth_error_nth' _ 0) in Ek by (rewrite seq_length; auto). rewrite seq_nth in Ek by auto.
    assert (k' = k) as -> by (injection Ek; lia).
    assert (w = decode_elem c t (buf_Data b) (vo + ao + gltf_stride c t st * k)) as -> by (injection Hw as <-; reflexivity).
    assert (PB : vo + ao + gltf_stride c t st * k + element_size c t <= List.length (buf_Data b)).
    { assert (gltf_stride c t st * k <= gltf_stride c t st * (n - 1)) by (apply Nat.mul_le_mono_l; lia). lia. }
    split; [apply decode_elem_wf; auto|apply decode_elem_stored; auto].
  - split; [lia|]. rewrite M.
    assert (n * mem_size c t <= List.length (buf_Data b)).
    { replace n with ((n - 1) + 1) by lia. rewrite Nat.mul_add_distr_r.
      assert ((n - 1) * mem_size c t <= gltf_stride c t st * (n - 1)) by (rewrite Nat.mul_comm; apply Nat.mul_le_mono_r; lia). lia. }
    rewrite <- Nat2Z.inj_mul. lia.
Qed.

Lemma sorted_inj (l : list Z) : StronglySorted Z.lt l -> forall i j x,
  nth_error l i = Some x -> nth_error l j = Some x -> i = j.
Proof.
  induction 1 as [|a l H IH HF]; intros i j x Hi Hj; [destruct i; discriminate|].
  rewrite Forall_forall in HF. destruct i as [|i], j as [|j]; cbn in Hi, Hj; [reflexivity| | |f_equal; eauto].
  - injection Hi as ->. apply nth_error_In in Hj. apply HF in Hj. lia.
  - injection Hj as ->. apply nth_error_In in Hi. apply HF in Hi. lia.
Qed.

Lemma gltf_stored_length d i ao c t n vs : gltf_stored d i ao c t n vs -> List.length vs = n.
Proof.
  intros (v & kb & b & vo & vl & st & _ & _ & _ & _ & _ & _ & _ & _ & _ & _ & _ & _ & _ & ->).
  rewrite map_length, seq_length. reflexivity.
Qed.

Lemma gltf_base_length d a n base : gltf_base d a n base -> List.length base = n.
Proof.
  unfold gltf_base. destruct (acr_BufferView a).
  - intros (i & ao & _ & _ & H). eapply gltf_stored_length; eauto.
  - intros ->. apply repeat_length.
Qed.

(** The elements of an accessor are determined by the document. *)
Lemma gltf_stored_det d i ao c t n vs vs' :
  gltf_stored d i ao c t n vs -> gltf_stored d i ao c t n vs' -> vs = vs'.
Proof.
  intros (v & kb & b & vo & vl & st & H1 & H2 & H3 & H4 & H5 & H6 & _ & _ & _ & _ & _ & _ & _ & ->)
         (v' & kb' & b' & vo' & vl' & st' & G1 & G2 & G3 & G4 & G5 & G6 & _ & _ & _ & _ & _ & _ & _ & ->).
  rewrite H1 in G1. apply (f_equal (fun o => match o with Some (Some x) => x | _ => v end)) in G1. subst v'.
  assert (kb' = kb) as -> by lia. rewrite H3 in G3. apply (f_equal (fun o => match o with Some (Some x) => x | _ => b end)) in G3. subst b'.
  assert (vo' = vo) as -> by lia. assert (st' = st) as -> by lia. reflexivity.
Qed.

Lemma gltf_sparse_overlaid d c t n base sp vs :
  List.length base = n -> gltf_sparse d c t n base sp vs ->
  exists ni ii io vi vo idx vals,
  spa_Count sp = Z.of_nat ni /\
  index_type (spi_ComponentType (spa_Indices sp)) /\
  spi_BufferView (spa_Indices sp) = Z.of_nat ii /\ spi_ByteOffset (spa_Indices sp) = Z.of_nat io /\
  gltf_stored d ii io (spi_ComponentType (spa_Indices sp)) AScalar ni (map (fun x => [x]) idx) /\ unstrided d ii /\
  spv_BufferView (spa_Values sp) = Z.of_nat vi /\ spv_ByteOffset (spa_Values sp) = Z.of_nat vo /\
  gltf_stored d vi vo c t ni vals /\
  Forall (fun x => 0 <= x < Z.of_nat n)%Z idx /\
  forall r, overlaid base idx vals r -> r = vs.
Proof.
  intros Lb (ni & ii & io & vi & vo & idx & vals & H1 & _ & H2 & H3 & H4 & H5 & H6 & H7 & H8 & H9 & _ & H10 & H11 & H12 & H13 & H14).
  exists ni, ii, io, vi, vo, idx, vals. do 10 (split; [assumption|]).
  intros r [Lr HR]. apply nth_error_ext. intros p.
  destruct (Nat.lt_ge_cases p n) as [Hp|Hp].
  - destruct (HR p ltac:(lia)) as [(k & Hk & Hl & Hv)|(Hno & Hv)].
    + rewrite Hv. specialize (H14 k _ Hk). rewrite Nat2Z.id in H14. auto.
    + rewrite Hv. symmetry. apply H13; auto.
  - rewrite !(proj2 (nth_error_None _ _)) by lia. reflexivity.
Qed.

Lemma gltf_elements_read d a vs buffer p :
  gltf_elements d a vs -> library_accessor d a ->
  (acr_BufferView a = None -> buffer = []) ->
  (acr_ComponentType a = CUint -> acr_Type a = AMat3 -> buffer = [] /\ p_val p = []) ->
  ReadAccessor d a buffer p = Ok (mkSlice (SK (acr_ComponentType a) (acr_Type a)) vs).
Proof.
  intros (Hc & Ht & n & base & Hn & N1 & HB & HS) (HA & HLb & HLs) HN HM.
  assert (ZE : repeat 0%Z (rows (acr_Type a) * columns (acr_Type a)) = zero_elem (acr_Type a)).
  { clear - Ht. destruct (acr_Type a); try discriminate; reflexivity. }
  assert (BM : buffer = [] \/ ~ (acr_ComponentType a = CUint /\ acr_Type a = AMat3)).
  { destruct (ct_eqb (acr_ComponentType a) CUint && at_eqb (acr_Type a) AMat3) eqn:E.
    - left. destruct (acr_ComponentType a), (acr_Type a); try discriminate. apply HM; reflexivity.
    - right. intros [E1 E2]. rewrite E1, E2 in E. discriminate. }
  assert (PM : p_val p = [] \/ ~ (acr_ComponentType a = CUint /\ acr_Type a = AMat3)).
  { destruct (ct_eqb (acr_ComponentType a) CUint && at_eqb (acr_Type a) AMat3) eqn:E.
    - left. destruct (acr_ComponentType a), (acr_Type a); try discriminate. apply HM; reflexivity.
    - right. intros [E1 E2]. rewrite E1, E2 in E. discriminate. }
  assert (CB : countable (acr_ComponentType a) (acr_Type a) (Z.of_nat n) /\
    match acr_BufferView a with
    | Some i => exists k o, i = Z.of_nat k /\ acr_ByteOffset a = Z.of_nat o /\
        seq_at d k o (acr_ComponentType a) (acr_Type a) n base /\
        (buffer = [] \/ ~ (acr_ComponentType a = CUint /\ acr_Type a = AMat3))
    | None => buffer = [] /\ base = repeat (zero_elem (acr_Type a)) n
    end).
  { unfold gltf_base in HB. destruct (acr_BufferView a) as [z|].
    - destruct HB as (i & ao & -> & Hao & HB). rewrite Hao, Hn, !Nat2Z.id in HLb.
      destruct (gltf_stored_seq _ _ _ _ _ _ _ Hc Ht HA HB HLb) as [Q1 Q2]. split; [exact Q2|]. exists i, ao. auto.
    - rewrite Hn in HLb. split; [split; [lia|exact HLb]|]. split; [auto|]. rewrite <- ZE. exact HB. }
  destruct CB as [CN CB]. pose proof (gltf_base_length _ _ _ _ HB) as Lb.
  destruct (acr_Sparse a) as [sp|] eqn:ES.
  - apply gltf_sparse_overlaid in HS; [|exact Lb].
    destruct HS as (ni & ii & io & vi & vo & idx & vals & S1 & S2 & S3 & S4 & S5 & S6 & S7 & S8 & S9 & S10 & S11).
    rewrite S1, S7, S8, !Nat2Z.id in HLs.
    assert (Hci : ct_valid (spi_ComponentType (spa_Indices sp)) = true) by (destruct S2 as [->|[->| ->]]; reflexivity).
    assert (LI : library_layout d ii io (spi_ComponentType (spa_Indices sp)) AScalar ni).
    { intros v Hv. destruct (S6 v Hv) as [E _]. rewrite E. cbn zeta.
      destruct S5 as (v' & kb & b & wo & vl & st & G1 & _ & _ & _ & G5 & G6 & _ & _ & _ & _ & _ & _ & G11 & _).
      rewrite Hv in G1. apply (f_equal (fun o => match o with Some (Some x) => x | _ => v end)) in G1. subst v'.
      assert (st = 0) as -> by lia. rewrite G5, Nat2Z.id. change (Z.to_nat 0) with 0.
      revert G11. destruct S2 as [-> |[-> | ->]]; intros G11; (split; [exact G11|split; [vm_compute; lia|split; [auto|discriminate]]]). }
    destruct (gltf_stored_seq _ _ _ _ AScalar _ _ Hci eq_refl HA S5 LI) as [I1 I2].
    destruct (gltf_stored_seq _ _ _ _ _ _ _ Hc Ht HA S9 HLs) as [V1 V2].
    destruct (ReadAccessor_sparse d a sp buffer p _ _ n base ni idx vals ii io vi vo eq_refl eq_refl Hc Ht Hn CN CB ES S1 S2 S3 S4 I1 S7 S8 V1 I2 V2 PM S10)
      as (r & Er & Ho).
    rewrite Er, (S11 r Ho). reflexivity.
  - subst vs. unfold ReadAccessor.
    assert (HD : read_dense d (acr_ComponentType a) (acr_Type a) (acr_BufferView a) (acr_ByteOffset a) (acr_Count a) buffer = Ok (mkSlice (SK (acr_ComponentType a) (acr_Type a)) base)).
    { rewrite Hn. destruct (acr_BufferView a) as [i|].
      - destruct CB as (k & o & -> & -> & HS & HB'). apply seq_at_read; auto.
      - destruct CB as [-> ->]. unfold read_dense, MakeSliceBuffer. rewrite checkAccessorType_ok by auto. cbn [bind].
        change (zlen (@nil ascii) =? 0)%Z with true. cbv iota. rewrite MakeSlice_ok; auto.
        destruct CN as [_ CN]. rewrite Nat2Z.inj_mul. exact CN. }
    rewrite HD. cbn [bind]. rewrite ES. reflexivity.
Qed.

(** Formats without padding: nothing more is asked of the layout. *)
Lemma plain_packed c t : ct_valid c = true -> at_valid t = true -> extent c t = element_size c t -> packed_size c t = element_size c t.
Proof. intros Hc Ht. all_ct c t; intros H; try reflexivity; vm_compute in H; discriminate. Qed.

Lemma plain_layout d i ao c t n vs : ct_valid c = true -> at_valid t = true ->
  extent c t = element_size c t -> ~ byte_scalar (SK c t) ->
  gltf_stored d i ao c t n vs -> library_layout d i ao c t n.
Proof.
  intros Hc Ht HE HB (v & kb & b & vo & vl & st & H1 & H2 & H3 & H4 & H5 & H6 & H7 & H9 & _ & _ & _ & H10 & H11 & _) w Hw.
  rewrite H1 in Hw. apply (f_equal (fun o => match o with Some (Some x) => x | _ => v end)) in Hw. subst w.
  rewrite H5, H6, !Nat2Z.id. cbn zeta. rewrite <- HE. split; [exact H11|]. split.
  - rewrite HE, plain_packed by auto. lia.
  - split; intros -> ->; exfalso; apply HB; [left|right]; reflexivity.
Qed.

(** The accessor's elements are determined by the document. *)
Lemma gltf_elements_det d a vs vs' : gltf_elements d a vs -> gltf_elements d a vs' -> vs = vs'.
Proof.
  intros (_ & _ & n & base & Hn & _ & HB & HS) (_ & _ & n' & base' & Hn' & _ & HB' & HS').
  assert (n' = n) as -> by lia.
  assert (base' = base) as ->.
  { unfold gltf_base in *. destruct (acr_BufferView a).
    - destruct HB as (i & ao & E1 & E2 & G), HB' as (i' & ao' & E1' & E2' & G').
      assert (i' = i) as -> by lia. assert (ao' = ao) as -> by lia. eapply gltf_stored_det; eauto.
    - congruence. }
  pose proof (gltf_base_length _ _ _ _ HB) as Lb.
  destruct (acr_Sparse a) as [sp|]; [|congruence].
  destruct HS as (ni & ii & io & vi & vo & idx & vals & H1 & _ & H2 & H3 & H4 & H5 & H6 & H7 & H8 & H9 & _ & H10 & H11 & H12 & H13 & H14).
  destruct HS' as (ni' & ii' & io' & vi' & vo' & idx' & vals' & G1 & _ & G2 & G3 & G4 & G5 & G6 & G7 & G8 & G9 & _ & G10 & G11 & G12 & G13 & G14).
  assert (ni' = ni) as -> by lia. assert (ii' = ii) as -> by lia. assert (io' = io) as -> by lia.
  assert (vi' = vi) as -> by lia. assert (vo' = vo) as -> by lia.
  assert (vals' = vals) as -> by (eapply gltf_stored_det; eauto).
  assert (idx' = idx) as ->.
  { assert (E : map (fun x : Z => [x]) idx' = map (fun x => [x]) idx) by (eapply gltf_stored_det; eauto).
    clear - E. revert idx E. induction idx' as [|x l IH]; intros [|y m] E; try discriminate; [reflexivity|].
    cbn in E. injection E as -> E. f_equal. auto. }
  apply nth_error_ext. intros p. destruct (Nat.lt_ge_cases p n) as [Hp|Hp].
  - destruct (in_dec Z.eq_dec (Z.of_nat p) idx) as [Hin|Hout].
    + apply In_nth_error in Hin as [k Hk]. pose proof (H14 k _ Hk) as E1. pose proof (G14 k _ Hk) as E2. rewrite Nat2Z.id in *. congruence.
    + assert (HO : forall k, nth_error idx k <> Some (Z.of_nat p)) by (intros k Hk; apply Hout; eapply nth_error_In; eauto).
      rewrite (H13 p Hp HO), (G13 p Hp HO). reflexivity.
  - rewrite !(proj2 (nth_error_None _ _)) by lia. reflexivity.
Qed.
