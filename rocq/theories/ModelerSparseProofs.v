(** Proofs about modeler/read.go: sparse accessors, independence from reuse
    buffers and pools, element counts, absence of panics. *)
From Verif Require Import BaseFacts Types Binary SpecLayout BinaryProofs SliceProofs Doc F64 SpecDoc
  ModelerWrite ModelerRead ModelerWriteProofs ModelerReadProofs.

(** ** MakeSliceBuffer and Read: kind and length of results *)
Lemma MakeSliceBuffer_inv c t count buf s :
  MakeSliceBuffer c t count buf = Ok s ->
  sk s = SK c t /\ zlen (els s) = count /\ ct_valid c = true /\ at_valid t = true.
Proof.
  unfold MakeSliceBuffer, checkAccessorType. intros H.
  destruct (ct_valid c) eqn:Hc; cbn [negb bind] in H; [|discriminate].
  destruct (at_valid t) eqn:Ht; cbn [negb bind] in H; [|discriminate].
  destruct (zlen buf =? 0).
  - unfold MakeSlice, checkAccessorType in H. rewrite Hc, Ht in H. cbn [negb bind] in H.
    destruct ((count <? 0) || _) eqn:E; [discriminate|]. injection H as <-. cbn [sk els].
    split; auto. unfold zlen. rewrite repeat_length. split; [lia|auto].
  - unfold castSlice in H. destruct (_ =? 0) eqn:E0; [discriminate|].
    set (l := zlen buf / (ByteSize c * Components t)) in *.
    assert (R : reslice c t buf (if count <? l then count else l) (if l <? count then count - l else 0) = Ok s).
    { destruct c, t; try discriminate; exact H. }
    clear H. unfold reslice in R. destruct ((if count <? l then count else l) <? 0) eqn:E1; [discriminate|].
    destruct (max_alloc <? _) eqn:E2; [discriminate|]. injection R as <-. cbn [sk els].
    split; auto. unfold zlen, mem_elems. rewrite app_length, map_length, seq_length, repeat_length. clearbody l.
    split; [|auto]. destruct (count <? l) eqn:E3, (l <? count) eqn:E4; lia.
Qed.

Lemma read_loop_length c t b e : forall n i vs, read_loop c t b e i n = Ok vs -> List.length vs = n.
Proof.
  induction n as [|n IH]; intros i vs H; cbn [read_loop] in H; [injection H as <-; reflexivity|].
  inv_ok H. inv_ok H. injection H as <-. cbn. f_equal. eapply IH. eauto.
Qed.

Lemma Read_inv b stride s s' :
  Read b stride s = Ok s' -> sk s' = sk s /\ List.length (els s') = List.length (els s).
Proof.
  unfold Read. intros H. inv_ok H. destruct x as [[c t] n].
  destruct (zlen b <? _); [discriminate|].
  assert (G : forall e, (vs <- read_loop c t b e 0 (List.length (els s)) ;; Ok (mkSlice (sk s) vs)) = Ok s' ->
    sk s' = sk s /\ List.length (els s') = List.length (els s)).
  { intros e G. inv_ok G. injection G as <-. cbn. apply read_loop_length in Hx0. auto. }
  assert (G2 : forall l, Ok (mkSlice (sk s) (copy (els s) l)) = Ok s' ->
    sk s' = sk s /\ List.length (els s') = List.length (els s)).
  { intros l [= <-]. cbn. rewrite copy_length. auto. }
  destruct (sk s) as [cc tt| | | |]; eauto. destruct cc, tt; eauto.
  - destruct (zlen (els s) <? zlen b); [discriminate|]. eauto.
  - destruct (negb _); eauto.
Qed.

Lemma read_dense_inv d c t bv off count buf s :
  read_dense d c t bv off count buf = Ok s -> sk s = SK c t /\ zlen (els s) = count.
Proof.
  unfold read_dense. intros H. inv_ok H. apply MakeSliceBuffer_inv in Hx as (H1 & H2 & _).
  destruct bv as [i|]; [|injection H as <-; auto].
  inv_ok H. inv_ok H. inv_ok H. inv_ok H. apply Read_inv in H as [H3 H4]. rewrite H3. split; auto.
  unfold zlen in *. rewrite H4. auto.
Qed.

(** ** Sparse loop *)
Lemma set_index_inv {A} (l : list A) i a l' :
  set_index l i a = Ok l' -> 0 <= i < zlen l /\ l' = set_nth (Z.to_nat i) a l.
Proof.
  unfold set_index. destruct ((0 <=? i) && (i <? zlen l)) eqn:E; [|discriminate]. intros [= <-]. split; [lia|reflexivity].
Qed.

Lemma sparse_loop_inv n : forall i indices vals s s',
  sparse_loop i n indices vals s = Ok s' -> List.length s' = List.length s.
Proof.
  induction n as [|n IH]; intros i indices vals s s' H; cbn [sparse_loop] in H; [injection H as <-; auto|].
  inv_ok H. inv_ok H. inv_ok H. apply set_index_inv in Hx1 as [_ ->]. apply IH in H. rewrite H. apply set_nth_length.
Qed.

Theorem ReadAccessor_count d a buf p s :
  ReadAccessor d a buf p = Ok s -> zlen (els s) = acr_Count a /\ sk s = SK (acr_ComponentType a) (acr_Type a).
Proof.
  unfold ReadAccessor. intros H. inv_ok H. apply read_dense_inv in Hx as [H1 H2].
  destruct (acr_Sparse a) as [sp|]; [|injection H as <-; auto].
  inv_ok H. inv_ok H. inv_ok H. injection H as <-. cbn [els sk]. apply sparse_loop_inv in Hx1.
  split; auto. unfold zlen in *. rewrite Hx1. auto.
Qed.

Lemma sparse_loop_ok n : forall i indices vals s,
  (i + n <= List.length indices)%nat -> (i + n <= List.length vals)%nat ->
  (forall k, (i <= k < i + n)%nat -> 0 <= nth k indices 0 < zlen s) ->
  exists s', sparse_loop i n indices vals s = Ok s' /\ List.length s' = List.length s /\
    forall p, (p < List.length s)%nat ->
      (exists k, (i <= k < i + n)%nat /\ nth_error indices k = Some (Z.of_nat p) /\
         (forall k', (k < k' < i + n)%nat -> nth_error indices k' <> Some (Z.of_nat p)) /\
         nth_error s' p = nth_error vals k) \/
      ((forall k, (i <= k < i + n)%nat -> nth_error indices k <> Some (Z.of_nat p)) /\ nth_error s' p = nth_error s p).
Proof.
  induction n as [|n IH]; intros i indices vals s H1 H2 HR; cbn [sparse_loop].
  - exists s. split; auto. split; auto. intros p Hp. right. split; auto. intros k Hk. lia.
  - destruct (nth_error indices i) as [x|] eqn:Ex; [|apply nth_error_None in Ex; lia].
    destruct (nth_error vals i) as [v|] eqn:Ev; [|apply nth_error_None in Ev; lia].
    rewrite (index_ok _ _ _ Ex). cbn [bind]. rewrite (index_ok _ _ _ Ev). cbn [bind].
    assert (Hx : 0 <= x < zlen s).
    { specialize (HR i ltac:(lia)). erewrite nth_error_nth in HR by eauto. exact HR. }
    unfold set_index. destruct ((0 <=? x) && (x <? zlen s)) eqn:E; [|lia]. cbn [bind].
    destruct (IH (S i) indices vals (set_nth (Z.to_nat x) v s)) as (s' & E' & L' & N'); try lia.
    { intros k Hk. unfold zlen. rewrite set_nth_length. apply HR. lia. }
    rewrite set_nth_length in *. exists s'. split; auto. split; auto.
    intros p Hp. destruct (N' p Hp) as [(k & Hk & Hi & Hl & Hv)|(Hno & Hv)].
    + left. exists k. split; [lia|]. split; auto. split; auto. intros k' Hk'. apply Hl. lia.
    + rewrite nth_error_set_nth in Hv. destruct (p =? Z.to_nat x)%nat eqn:E2.
      * left. exists i. split; [lia|]. assert (x = Z.of_nat p) by (unfold zlen in *; lia). subst x. split; auto.
        split; [intros k' Hk'; apply Hno; lia|].
        rewrite Nat2Z.id in Hv. destruct (p <? List.length s)%nat eqn:E3; [|lia]. congruence.
      * right. split; auto. intros k Hk. destruct (Nat.eq_dec k i) as [->|Hne]; [|apply Hno; lia].
        rewrite Ex. intros [= ->]. lia.
Qed.

(** ** Reading stored data *)
Lemma seq_at_read d i ao c t n vs buffer :
  ct_valid c = true -> at_valid t = true ->
  seq_at d i ao c t n vs -> countable c t (Z.of_nat n) ->
  (buffer = [] \/ ~ (c = CUint /\ t = AMat3)) ->
  read_dense d c t (Some (Z.of_nat i)) (Z.of_nat ao) (Z.of_nat n) buffer = Ok (mkSlice (SK c t) vs).
Proof.
  intros Hc Ht (v & kb & b & vo & vl & st & H1 & H2 & H3 & H4 & H5 & H6 & H7 & H8 & H9 & H10 & H11 & H12 & H13 & HL & HS) HM HB.
  erewrite read_dense_ok; eauto.
  2:{ destruct HM as [_ HM]. rewrite Nat2Z.inj_mul. exact HM. }
  f_equal. f_equal. symmetry. apply nth_error_ext. intros k. rewrite nth_error_map.
  assert (He : (element_size c t <= eff_stride c t st)%nat).
  { unfold eff_stride. destruct (st =? 0)%nat eqn:E0; lia. }
  destruct (Nat.lt_ge_cases k n) as [Hk|Hk].
  - rewrite (nth_error_nth' _ 0%nat) by (rewrite seq_length; auto). rewrite seq_nth by auto. cbn [option_map Nat.add].
    destruct (nth_error vs k) as [w|] eqn:Ew; [|apply nth_error_None in Ew; lia].
    destruct (HS k w Ew) as [HW HSt]. f_equal. symmetry. apply stored_at_decode; auto.
    unfold needed in H11. destruct n; [lia|]. nia.
  - transitivity (@None elem); [apply nth_error_None; lia|]. symmetry.
    destruct (nth_error (seq 0 n) k) eqn:E; [|reflexivity].
    assert (k < n)%nat; [|lia]. rewrite <- (seq_length n 0). apply nth_error_Some. congruence.
Qed.

Lemma slice_range_prefix {A} (l : list A) n : 0 <= n <= zlen l -> slice_range l 0 n = Ok (firstn (Z.to_nat n) l).
Proof.
  intros H. unfold slice_range. destruct ((0 <=? 0) && (0 <=? n) && (n <=? zlen l)) eqn:E; [|lia].
  rewrite Z.sub_0_r. reflexivity.
Qed.

Lemma makeBufferOf_ok {A} (z : A) count buffer :
  0 <= count -> exists b, makeBufferOf z count buffer = Ok b /\ count <= zlen b /\
    (count <> 0 \/ buffer = [] -> zlen b = count).
Proof.
  intros H0. unfold makeBufferOf. destruct (zlen buffer <? count) eqn:E.
  - eexists. split; [reflexivity|]. unfold zlen in *. rewrite app_length, repeat_length. lia.
  - destruct (count =? 0) eqn:E0; cbn [negb].
    + eexists. split; [reflexivity|]. split; [lia|]. intros [H| ->]; [lia|]. cbn. lia.
    + rewrite slice_range_prefix by lia. eexists. split; [reflexivity|].
      unfold zlen in *. rewrite firstn_length. lia.
Qed.

Lemma fill_loop_ok {A B} (f : A -> B) data : forall i buffer,
  (i + List.length data <= List.length buffer)%nat ->
  exists b, fill_loop f i data buffer = Ok b /\ List.length b = List.length buffer /\
    forall p, nth_error b p =
      if (i <=? p)%nat && (p <? i + List.length data)%nat then option_map f (nth_error data (p - i))
      else nth_error buffer p.
Proof.
  induction data as [|e data IH]; intros i buffer H; cbn [fill_loop List.length] in *.
  - exists buffer. split; auto. split; auto. intros p. destruct ((i <=? p)%nat && (p <? i + 0)%nat) eqn:E; [lia|auto].
  - unfold set_index. unfold zlen. destruct ((0 <=? Z.of_nat i) && _) eqn:E; [|lia]. cbn [bind].
    destruct (IH (S i) (set_nth (Z.to_nat (Z.of_nat i)) (f e) buffer)) as (b & E1 & E2 & E3).
    { rewrite set_nth_length. lia. }
    exists b. split; auto. rewrite set_nth_length in E2. split; auto. intros p. rewrite E3, nth_error_set_nth, Nat2Z.id.
    destruct ((S i <=? p)%nat && (p <? S i + List.length data)%nat) eqn:E4.
    + destruct ((i <=? p)%nat && (p <? i + S (List.length data))%nat) eqn:E5; [|lia].
      replace (p - i)%nat with (S (p - S i)) by lia. reflexivity.
    + destruct (p =? i)%nat eqn:E6.
      * apply Nat.eqb_eq in E6. subst p. destruct (i <? List.length buffer)%nat eqn:E7; [|lia].
        destruct ((i <=? i)%nat && (i <? i + S (List.length data))%nat) eqn:E5; [|lia].
        rewrite Nat.sub_diag. reflexivity.
      * destruct ((i <=? p)%nat && (p <? i + S (List.length data))%nat) eqn:E5; [lia|reflexivity].
Qed.

Lemma fill_loop_all {A B} (f : A -> B) data buffer :
  List.length data = List.length buffer -> fill_loop f 0 data buffer = Ok (map f data).
Proof.
  intros H. destruct (fill_loop_ok f data 0 buffer) as (b & E1 & E2 & E3); [lia|]. rewrite E1. f_equal.
  apply nth_error_ext. intros p. rewrite E3, nth_error_map. cbn [Nat.leb Nat.add andb]. rewrite Nat.sub_0_r.
  destruct (p <? List.length data)%nat eqn:E; [reflexivity|].
  transitivity (@None B); [apply nth_error_None; lia|]. symmetry.
  destruct (nth_error data p) eqn:E4; [|reflexivity]. assert (p < List.length data)%nat by (apply nth_error_Some; congruence). lia.
Qed.

(** After a read of [count] elements, the conversion into any buffer gives the
    converted elements at its beginning; exactly those unless count is 0. *)
Lemma convert_fill {A B} (z : B) (f : A -> B) count (buffer : list B) data :
  zlen data = count ->
  exists r, (b <- makeBufferOf z count buffer ;; fill_loop f 0 data b) = Ok r /\
    firstn (List.length data) r = map f data /\ (count <> 0 \/ buffer = [] -> r = map f data).
Proof.
  intros H. destruct (makeBufferOf_ok z count buffer) as (b & E & H1 & H2); [pose proof (zlen_nonneg data); lia|].
  rewrite E. cbn [bind]. unfold zlen in *.
  destruct (fill_loop_ok f data 0 b) as (r & E1 & E2 & E3); [lia|]. exists r. split; auto.
  assert (P : firstn (List.length data) r = map f data).
  { apply nth_error_ext. intros p. rewrite nth_error_firstn', E3, nth_error_map. cbn [Nat.leb Nat.add andb]. rewrite Nat.sub_0_r.
    destruct (p <? List.length data)%nat eqn:E4; [reflexivity|]. symmetry.
    destruct (nth_error data p) eqn:E5; [|reflexivity].
    assert (p < List.length data)%nat by (apply nth_error_Some; congruence). lia. }
  split; auto. intros Hc. rewrite <- P. symmetry. apply firstn_all2. specialize (H2 Hc). lia.
Qed.

Lemma convert_copy {A B} (z : B) (f : A -> B) count (buffer : list B) data :
  zlen data = count ->
  exists r, (b <- makeBufferOf z count buffer ;; Ok (copy b (map f data))) = Ok r /\
    firstn (List.length data) r = map f data /\ (count <> 0 \/ buffer = [] -> r = map f data).
Proof.
  intros H. destruct (makeBufferOf_ok z count buffer) as (b & E & H1 & H2); [pose proof (zlen_nonneg data); lia|].
  rewrite E. cbn [bind]. unfold zlen in *. eexists. split; [reflexivity|].
  unfold copy. rewrite map_length. rewrite Nat.min_r by lia.
  rewrite (firstn_all2 (map f data)) by (rewrite map_length; lia).
  split; [apply firstn_app_exact; rewrite map_length; reflexivity|].
  intros Hc. specialize (H2 Hc). rewrite skipn_all2 by lia. apply app_nil_r.
Qed.

(** ** Indices *)
Definition index_type (c : ComponentType) : Prop := c = CUbyte \/ c = CUshort \/ c = CUint.

Lemma convert_indices_ok count buffer c vs :
  index_type c -> zlen vs = count ->
  exists r, convert_indices count buffer (mkSlice (SK c AScalar) vs) = Ok r /\
    firstn (List.length vs) r = map scalar vs /\ (count <> 0 \/ buffer = [] -> r = map scalar vs).
Proof.
  intros Hc H. unfold convert_indices. cbn [sk els].
  destruct Hc as [->|[->| ->]]; [apply (convert_fill 0 scalar)|apply (convert_fill 0 scalar)|apply (convert_copy 0 scalar)]; auto.
Qed.

Theorem ReadAccessor_sparse d a sp buffer p c t n base ni idx vals ii io vi vo :
  acr_ComponentType a = c -> acr_Type a = t -> ct_valid c = true -> at_valid t = true ->
  acr_Count a = Z.of_nat n -> countable c t (Z.of_nat n) ->
  (match acr_BufferView a with
   | Some i => exists k o, i = Z.of_nat k /\ acr_ByteOffset a = Z.of_nat o /\ seq_at d k o c t n base /\
                 (buffer = [] \/ ~ (c = CUint /\ t = AMat3))
   | None => buffer = [] /\ base = repeat (zero_elem t) n
   end) ->
  acr_Sparse a = Some sp -> spa_Count sp = Z.of_nat ni ->
  index_type (spi_ComponentType (spa_Indices sp)) ->
  spi_BufferView (spa_Indices sp) = Z.of_nat ii -> spi_ByteOffset (spa_Indices sp) = Z.of_nat io ->
  seq_at d ii io (spi_ComponentType (spa_Indices sp)) AScalar ni (map (fun x => [x]) idx) ->
  spv_BufferView (spa_Values sp) = Z.of_nat vi -> spv_ByteOffset (spa_Values sp) = Z.of_nat vo ->
  seq_at d vi vo c t ni vals ->
  countable (spi_ComponentType (spa_Indices sp)) AScalar (Z.of_nat ni) -> countable c t (Z.of_nat ni) ->
  (p_val p = [] \/ ~ (c = CUint /\ t = AMat3)) ->
  Forall (fun x => 0 <= x < Z.of_nat n) idx ->
  exists r, ReadAccessor d a buffer p = Ok (mkSlice (SK c t) r) /\ overlaid base idx vals r.
Proof.
  intros Hc Ht Vc Vt Hn HM HBase HSp Hni Hit Hii Hio HI Hvi Hvo HV HMi HMv HPv HR.
  assert (Lb : List.length base = n).
  { destruct (acr_BufferView a) as [i|].
    - destruct HBase as (k & o & _ & _ & HS & _).
      destruct HS as (? & ? & ? & ? & ? & ? & _ & _ & _ & _ & _ & _ & _ & _ & _ & _ & _ & _ & _ & L & _). exact L.
    - destruct HBase as [_ ->]. apply repeat_length. }
  assert (Li : List.length idx = ni).
  { destruct HI as (? & ? & ? & ? & ? & ? & _ & _ & _ & _ & _ & _ & _ & _ & _ & _ & _ & _ & _ & L & _).
    rewrite map_length in L. exact L. }
  assert (Lv : List.length vals = ni).
  { destruct HV as (? & ? & ? & ? & ? & ? & _ & _ & _ & _ & _ & _ & _ & _ & _ & _ & _ & _ & _ & L & _). exact L. }
  assert (HD : read_dense d c t (acr_BufferView a) (acr_ByteOffset a) (acr_Count a) buffer = Ok (mkSlice (SK c t) base)).
  { rewrite Hn. destruct (acr_BufferView a) as [i|].
    - destruct HBase as (k & o & -> & -> & HS & HB). apply seq_at_read; auto.
    - destruct HBase as [-> ->]. unfold read_dense, MakeSliceBuffer. rewrite checkAccessorType_ok by auto. cbn [bind].
      change (zlen (@nil ascii) =? 0) with true. cbv iota. rewrite MakeSlice_ok; auto.
      destruct HM as [_ HM]. rewrite Nat2Z.inj_mul. exact HM. }
  unfold ReadAccessor. rewrite Hc, Ht, HD. cbn [bind]. rewrite HSp.
  unfold read_indices_dense. rewrite Hii, Hio, Hni.
  assert (HCk : check_indices (spi_ComponentType (spa_Indices sp)) AScalar = Ok tt).
  { destruct Hit as [->|[->| ->]]; reflexivity. }
  rewrite HCk. cbn [bind].
  rewrite (seq_at_read d ii io _ AScalar ni (map (fun x => [x]) idx)); auto.
  2:{ destruct Hit as [->|[->| ->]]; reflexivity. }
  2:{ right. intros [_ [=]]. }
  cbn [bind].
  destruct (convert_indices_ok (Z.of_nat ni) (p_u32 p) _ (map (fun x => [x]) idx) Hit) as (r & Er & Hpre & _).
  { unfold zlen. rewrite map_length. lia. }
  rewrite Er. cbn [bind].
  rewrite Hvi, Hvo, (seq_at_read d vi vo c t ni vals); auto. cbn [bind els sk]. rewrite Nat2Z.id.
  rewrite map_length, map_map in Hpre. cbn [scalar hd] in Hpre. unfold scalar in Hpre. cbn [hd] in Hpre. rewrite map_id in Hpre.
  assert (Hnth : forall k, (k < ni)%nat -> nth_error r k = nth_error idx k).
  { intros k Hk. rewrite <- Hpre, nth_error_firstn'. destruct (k <? List.length idx)%nat eqn:E; [reflexivity|lia]. }
  assert (Lr : (ni <= List.length r)%nat).
  { apply (f_equal (@List.length Z)) in Hpre. rewrite firstn_length in Hpre. lia. }
  destruct (sparse_loop_ok ni 0 r vals base) as (s' & Es & Ls & Ns); try lia.
  { intros k Hk. destruct (nth_error idx k) as [x|] eqn:Ex; [|apply nth_error_None in Ex; lia].
    erewrite (nth_error_nth r k) by (rewrite Hnth by lia; exact Ex).
    rewrite Forall_forall in HR. specialize (HR x (nth_error_In _ _ Ex)). unfold zlen. lia. }
  rewrite Es. cbn [bind]. exists s'. split; [reflexivity|]. split; [exact Ls|].
  intros q Hq. destruct (Ns q Hq) as [(k & Hk & Hi & Hl & Hv)|(Hno & Hv)].
  - left. exists k. rewrite <- Hnth by lia. split; auto. split; auto.
    intros k' Hk'. destruct (Nat.lt_ge_cases k' ni) as [H|H].
    + rewrite <- Hnth by lia. apply Hl. lia.
    + rewrite (proj2 (nth_error_None idx k')) by lia. discriminate.
  - right. split; auto. intros k. destruct (Nat.lt_ge_cases k ni) as [H|H].
    + rewrite <- Hnth by lia. apply Hno. lia.
    + rewrite (proj2 (nth_error_None idx k)) by lia. discriminate.
Qed.
