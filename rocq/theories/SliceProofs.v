(** Proofs about MakeSlice / MakeSliceBuffer. *)
From Verif Require Import BaseFacts Types Binary SpecLayout BinaryProofs.

Lemma checkAccessorType_ok c t :
  ct_valid c = true -> at_valid t = true -> checkAccessorType c t = Ok tt.
Proof. intros Hc Ht. unfold checkAccessorType. rewrite Hc, Ht. reflexivity. Qed.

Lemma checkAccessorType_err c t :
  ct_valid c && at_valid t = false -> exists e, checkAccessorType c t = Err e.
Proof.
  intros H. unfold checkAccessorType.
  destruct (ct_valid c); cbn in *; [|eauto]. rewrite H. cbn. eauto.
Qed.

Lemma mem_size_Z c t : ByteSize c * Components t = Z.of_nat (mem_size c t).
Proof. unfold mem_size. rewrite ByteSize_nat, Components_nat. lia. Qed.

Lemma mem_size_pos c t : ct_valid c = true -> at_valid t = true -> (0 < mem_size c t)%nat.
Proof. intros Hc Ht. all_ct c t; vm_compute; lia. Qed.

Lemma MakeSlice_ok c t n :
  ct_valid c = true -> at_valid t = true -> Z.of_nat (n * mem_size c t) <= max_alloc ->
  MakeSlice c t (Z.of_nat n) = Ok (mkSlice (SK c t) (repeat (zero_elem t) n)).
Proof.
  intros Hc Ht Hn. unfold MakeSlice. rewrite checkAccessorType_ok by auto. cbn [bind].
  rewrite mem_size_Z.
  destruct ((Z.of_nat n <? 0) || (max_alloc <? Z.of_nat n * Z.of_nat (mem_size c t))) eqn:E.
  - lia.
  - rewrite Nat2Z.id. reflexivity.
Qed.

Lemma zero_elem_wf c t : ct_valid c = true -> at_valid t = true -> wf_elem c t (zero_elem t).
Proof.
  intros Hc Ht. unfold zero_elem. rewrite Components_nat, Nat2Z.id. split.
  - apply repeat_length.
  - apply Forall_forall. intros x Hx. apply repeat_spec in Hx as ->.
    destruct c; try discriminate; cbn; lia.
Qed.

Lemma map_seq_split {A} (g : nat -> A) a b :
  map g (seq 0 (a + b)) = map g (seq 0 a) ++ map g (seq a b).
Proof. rewrite seq_app, map_app. reflexivity. Qed.

Lemma repeat_map_seq {A} (x : A) a n (g : nat -> A) :
  (forall i, (a <= i < a + n)%nat -> g i = x) -> map g (seq a n) = repeat x n.
Proof.
  revert a; induction n; intros a H; [reflexivity|]. cbn. f_equal.
  - apply H. lia.
  - apply IHn. intros. apply H. lia.
Qed.

Lemma MakeSliceBuffer_ok c t n buf :
  ct_valid c = true -> at_valid t = true -> Z.of_nat (n * mem_size c t) <= max_alloc ->
  (buf = [] \/ ~ (c = CUint /\ t = AMat3)) ->
  MakeSliceBuffer c t (Z.of_nat n) buf =
  Ok (mkSlice (SK c t) (map (buffer_elem c t buf) (seq 0 n))).
Proof.
  intros Hc Ht Hn Hx. unfold MakeSliceBuffer. rewrite checkAccessorType_ok by auto. cbn [bind].
  pose proof (mem_size_pos c t Hc Ht) as Hpos.
  destruct (zlen buf =? 0) eqn:E0.
  - destruct buf; [|rewrite zlen_cons in E0; pose proof (zlen_nonneg buf); lia].
    rewrite MakeSlice_ok by auto. f_equal. f_equal. symmetry.
    apply repeat_map_seq. intros i Hi. unfold buffer_elem.
    destruct ((i + 1) * mem_size c t <=? List.length (@nil ascii))%nat eqn:E1; [cbn in E1; nia|].
    unfold zero_elem. rewrite Components_nat, Nat2Z.id. reflexivity.
  - destruct Hx as [->|Hx]; [discriminate|].
    unfold castSlice. rewrite mem_size_Z.
    destruct (Z.of_nat (mem_size c t) =? 0) eqn:E1; [lia|].
    set (L := (List.length buf / mem_size c t)%nat).
    assert (HL : zlen buf / Z.of_nat (mem_size c t) = Z.of_nat L).
    { unfold zlen, L. rewrite Nat2Z.inj_div. reflexivity. }
    rewrite HL.
    replace (if Z.of_nat L <? Z.of_nat n then Z.of_nat n - Z.of_nat L else 0)
      with (Z.of_nat (n - L)) by (destruct (Z.of_nat L <? Z.of_nat n) eqn:E; lia).
    replace (if Z.of_nat n <? Z.of_nat L then Z.of_nat n else Z.of_nat L)
      with (Z.of_nat (Nat.min n L)) by (destruct (Z.of_nat n <? Z.of_nat L) eqn:E; lia).
    assert (R : reslice c t buf (Z.of_nat (Nat.min n L)) (Z.of_nat (n - L)) =
      Ok (mkSlice (SK c t) (map (buffer_elem c t buf) (seq 0 n)))).
    { unfold reslice. rewrite mem_size_Z.
      destruct (Z.of_nat (Nat.min n L) <? 0) eqn:E2; [lia|].
      destruct (max_alloc <? Z.of_nat (n - L) * Z.of_nat (mem_size c t)) eqn:E3; [nia|].
      rewrite !Nat2Z.id. f_equal. f_equal.
      replace n with (Nat.min n L + (n - L))%nat at 3 by lia.
      rewrite map_seq_split. f_equal.
      - unfold mem_elems. apply map_ext_in. intros j Hj. apply in_seq in Hj.
        unfold buffer_elem.
        assert (Hle : ((j + 1) * mem_size c t <= List.length buf)%nat).
        { assert (j + 1 <= L)%nat by lia. pose proof (Nat.mul_div_le (List.length buf) (mem_size c t)).
          fold L in H0. nia. }
        destruct ((j + 1) * mem_size c t <=? List.length buf)%nat eqn:E4; [|lia].
        unfold mem_elem. rewrite mem_size_Z, Components_nat, ByteSize_nat, !Nat2Z.id.
        reflexivity.
      - symmetry. destruct (Nat.le_gt_cases n L) as [Hc1|Hc1].
        + replace (n - L)%nat with 0%nat by lia. reflexivity.
        + rewrite Nat.min_r by lia. apply repeat_map_seq. intros i Hi. unfold buffer_elem.
          destruct ((i + 1) * mem_size c t <=? List.length buf)%nat eqn:E4.
          * exfalso. assert (i + 1 <= L)%nat by (apply Nat.div_le_lower_bound; lia). lia.
          * unfold zero_elem. rewrite Components_nat, Nat2Z.id. reflexivity. }
    destruct c, t; try discriminate; try exact R. exfalso. apply Hx. auto.
Qed.

Lemma MakeSlice_buffer_nil c t n :
  MakeSliceBuffer c t n [] = MakeSlice c t n.
Proof.
  unfold MakeSliceBuffer, MakeSlice. cbn. destruct (checkAccessorType c t); reflexivity.
Qed.

Lemma MakeSliceBuffer_uint_mat3 n buf :
  buf <> [] -> MakeSliceBuffer CUint AMat3 n buf = Panic.
Proof.
  intros H. unfold MakeSliceBuffer. cbn [checkAccessorType ct_valid at_valid negb bind].
  destruct (zlen buf =? 0) eqn:E.
  - destruct buf; [congruence|]. rewrite zlen_cons in E. pose proof (zlen_nonneg buf). lia.
  - reflexivity.
Qed.

Lemma MakeSliceBuffer_invalid c t n buf :
  ct_valid c && at_valid t = false ->
  (exists e, MakeSliceBuffer c t n buf = Err e) /\ (exists e, MakeSlice c t n = Err e).
Proof.
  intros H. destruct (checkAccessorType_err c t H) as [e He].
  unfold MakeSliceBuffer, MakeSlice. rewrite He. cbn. eauto.
Qed.

Lemma buffer_elem_wf c t buf i :
  ct_valid c = true -> at_valid t = true -> wf_elem c t (buffer_elem c t buf i).
Proof.
  intros Hc Ht. unfold buffer_elem.
  destruct ((i + 1) * mem_size c t <=? List.length buf)%nat eqn:E.
  - split; [rewrite map_length, seq_length; reflexivity|].
    apply Forall_forall. intros x Hx. apply in_map_iff in Hx as (f & <- & Hf). apply in_seq in Hf.
    pose proof (le_val_range (sub buf (i * mem_size c t + f * comp_bytes c) (comp_bytes c))) as H.
    unfold zlen in H. rewrite sub_length in H; [exact H|].
    unfold mem_size in *. nia.
  - pose proof (zero_elem_wf c t Hc Ht) as H. unfold zero_elem in H.
    rewrite Components_nat, Nat2Z.id in H. exact H.
Qed.
