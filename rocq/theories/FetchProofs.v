(** Proofs of the exact outcome of ReadAccessor (SpecFetch.v). *)
From Verif Require Import BaseFacts Types Binary SpecLayout BinaryProofs SliceProofs Doc F64 SpecDoc
  ModelerWrite ModelerRead ModelerWriteProofs ModelerReadProofs ModelerSparseProofs ModelerReadSpecProofs SpecFetch.

Lemma size_small c t : Z.of_nat (element_size c t) <= 64 /\ Z.of_nat (mem_size c t) <= 64.
Proof. destruct c, t; vm_compute; split; discriminate. Qed.

Lemma get_elem_no_err c t b p e : get_elem c t b p <> Err e.
Proof.
  unfold get_elem. destruct (_ && _); [|discriminate]. induction (get_offsets c t) as [|o l IH]; cbn [mapM]; [discriminate|].
  unfold load at 1. destruct (_ && _); cbn [bind]; [|discriminate].
  destruct (mapM _ l); cbn [bind]; congruence.
Qed.

Lemma read_loop_back c t b s m : s < 0 -> - 2 ^ 31 < s -> read_loop c t b s 0 (S (S m)) = Panic.
Proof.
  intros S1 S2. cbn [read_loop]. pose proof (get_elem_no_err c t b (i64 (s * 0))) as N.
  destruct (get_elem c t b (i64 (s * 0))) as [v|e|]; cbn [bind]; [|exfalso; eapply N; reflexivity|reflexivity].
  rewrite i64_id by (unfold in_i64; lia). unfold get_elem. replace (0 <=? s * (0 + 1)) with false by lia. reflexivity.
Qed.

Lemma get_elem_at0 c t b : ct_valid c = true -> at_valid t = true -> Z.of_nat (element_size c t) <= zlen b ->
  get_elem c t b 0 = Ok (decode_elem c t b 0).
Proof. intros. apply (get_elem_ok c t b 0); auto. unfold zlen in *. lia. Qed.

(** ** binary.Read on a slice of [n] elements *)
Definition rd_step (c : ComponentType) (t : AccessorType) (s : Z) : Z := if s =? 0 then Z.of_nat (element_size c t) else s.

Lemma Read_modest c t b s old : ct_valid c = true -> at_valid t = true ->
  - 2 ^ 31 < s < 2 ^ 31 -> zlen old < 2 ^ 31 ->
  Read b s (mkSlice (SK c t) old) =
  if zlen b <? (zlen old - 1) * rd_step c t s + Z.of_nat (element_size c t) then Err ErrShortBuffer else
  match c, t with
  | CByte, AScalar => if zlen old <? zlen b then Panic else Ok (mkSlice (SK c t) (copy old (map (fun x => [b2z x]) b)))
  | CUbyte, AScalar => if negb (rd_step c t s =? 1) then Ok (mkSlice (SK c t) (copy old (map (fun x => [b2z x]) b)))
      else vs <- read_loop c t b (rd_step c t s) 0 (List.length old) ;; Ok (mkSlice (SK c t) vs)
  | _, _ => vs <- read_loop c t b (rd_step c t s) 0 (List.length old) ;; Ok (mkSlice (SK c t) vs)
  end.
Proof.
  intros Hc Ht S N. unfold Read, TypeOf. cbn [sk els]. rewrite Hc, Ht. cbn [andb bind]. rewrite SizeOfElement_nat by auto.
  fold (rd_step c t s). destruct (size_small c t) as [Z1 _]. pose proof (zlen_nonneg old) as N0.
  assert (R : - 2 ^ 31 < rd_step c t s < 2 ^ 31) by (unfold rd_step; destruct (s =? 0); lia).
  set (r := rd_step c t s) in *. set (z := Z.of_nat (element_size c t)) in *. assert (0 <= z) by lia. set (n := zlen old) in *. clearbody r z n.
  assert (H1 : i64 (n * r) = n * r) by (apply i64_id; unfold in_i64; nia). rewrite H1.
  assert (H2 : (if r =? z then n * r else i64 (n * r - i64 (r - z))) = (n - 1) * r + z).
  { destruct (Z.eqb_spec r z); [nia|]. rewrite (i64_id (r - z)) by (unfold in_i64; lia). rewrite i64_id by (unfold in_i64; nia). nia. }
  rewrite H2. destruct c, t; reflexivity.
Qed.

Lemma nth_error_copy {A} (old new : list A) k :
  nth_error (copy old new) k = if (k <? List.length new)%nat && (k <? List.length old)%nat then nth_error new k else nth_error old k.
Proof.
  unfold copy. set (n := Nat.min (List.length old) (List.length new)).
  destruct (Nat.ltb_spec k n).
  - replace ((k <? List.length new)%nat && (k <? List.length old)%nat) with true by lia.
    rewrite nth_error_app1 by (rewrite firstn_length; lia). rewrite nth_error_firstn'. replace (k <? n)%nat with true by lia. reflexivity.
  - rewrite nth_error_app2 by (rewrite firstn_length; lia). rewrite firstn_length. replace (Nat.min n (List.length new)) with n by lia.
    rewrite nth_error_skipn'. replace (n + (k - n))%nat with k by lia.
    destruct ((k <? List.length new)%nat && (k <? List.length old)%nat) eqn:E; [lia|reflexivity].
Qed.

(** ** Looking up the view *)
Lemma found_unique d i v b v' b' : found d i v b -> found d i v' b' -> v = v' /\ b = b'.
Proof.
  intros (_ & E1 & _ & E2) (_ & E3 & _ & E4). rewrite E1 in E3. assert (v = v') by congruence. subst v'. rewrite E2 in E4. split; congruence.
Qed.

Definition lookup_outcome (d : Document) (i : Z) (r : res bytes) : Prop :=
  match r with
  | Panic => lookup_crashes d i /\ forall v b, found d i v b -> ~ spans v b
  | Err _ => ~ lookup_crashes d i /\ forall v b, found d i v b -> ~ spans v b
  | Ok bs => ~ lookup_crashes d i /\ exists v b, found d i v b /\ spans v b /\
      bs = sub (buf_Data b) (Z.to_nat (bvw_ByteOffset v)) (Z.to_nat (bvw_ByteLength v)) /\ index (doc_BufferViews d) i = Ok (Some v)
  end.

Lemma lookup_fate d i : (forall v, In (Some v) (doc_BufferViews d) -> modest_view v) -> lookup_outcome d i (readBufferView d i).
Proof.
  intros M. unfold readBufferView, lookup_outcome.
  destruct (Z.leb_spec (zlen (doc_BufferViews d)) i) as [L|L].
  { assert (N : nth_error (doc_BufferViews d) (Z.to_nat i) = None) by (apply nth_error_None; unfold zlen in L; lia).
    split; [|intros v b (_ & F & _); congruence]. intros [E|[E|(v & E & _)]]; [pose proof (zlen_nonneg (doc_BufferViews d)); lia|congruence..]. }
  unfold index. destruct (Z.leb_spec 0 i) as [P|P]; cbn [andb].
  2:{ cbn [bind]. split; [left; exact P|]. intros v b (F & _). lia. }
  replace (i <? zlen (doc_BufferViews d)) with true by lia.
  destruct (nth_error (doc_BufferViews d) (Z.to_nat i)) as [[v|]|] eqn:E.
  3:{ apply nth_error_None in E. unfold zlen in L. lia. }
  2:{ cbn [bind ReadBufferView deref]. split; [right; left; exact E|]. intros v b (_ & F & _). congruence. }
  cbn [bind]. unfold ReadBufferView. cbn [deref bind].
  assert (G1 : forall w, nth_error (doc_BufferViews d) (Z.to_nat i) = Some (Some w) -> w = v) by (intros; congruence).
  destruct (M v (nth_error_In _ _ E)) as (M1 & M2 & _).
  destruct (Z.leb_spec (zlen (doc_Buffers d)) (bvw_Buffer v)) as [B|B].
  { assert (N : nth_error (doc_Buffers d) (Z.to_nat (bvw_Buffer v)) = None) by (apply nth_error_None; unfold zlen in B; lia).
    pose proof (zlen_nonneg (doc_Buffers d)). split.
    - intros [H1|[H1|(w & H1 & H2)]]; [lia|congruence|]. apply G1 in H1. subst w. destruct H2 as [H2|[H2|(b & H2 & _)]]; [lia|congruence..].
    - intros w b (_ & F1 & _ & F2). apply G1 in F1. subst w. congruence. }
  unfold index. destruct (Z.leb_spec 0 (bvw_Buffer v)) as [Q|Q]; cbn [andb].
  2:{ cbn [bind]. split; [right; right; exists v; auto|]. intros w b (_ & F1 & F2 & _). apply G1 in F1. subst w. lia. }
  replace (bvw_Buffer v <? zlen (doc_Buffers d)) with true by lia.
  destruct (nth_error (doc_Buffers d) (Z.to_nat (bvw_Buffer v))) as [[b|]|] eqn:F.
  3:{ apply nth_error_None in F. unfold zlen in B. lia. }
  2:{ cbn [bind deref]. split; [right; right; exists v; auto|]. intros w b (_ & F1 & F2 & F3). apply G1 in F1. subst w. congruence. }
  cbn [bind deref]. rewrite i64_id by (unfold in_i64; lia).
  assert (G2 : forall w, nth_error (doc_Buffers d) (Z.to_nat (bvw_Buffer v)) = Some (Some w) -> w = b) by (intros; congruence).
  assert (NC : ~ (bvw_ByteOffset v + bvw_ByteLength v <= zlen (buf_Data b) /\ (bvw_ByteOffset v < 0 \/ bvw_ByteLength v < 0)) -> ~ lookup_crashes d i).
  { intros K [H1|[H1|(w & H1 & H2)]]; [lia|congruence|]. apply G1 in H1. subst w. destruct H2 as [H2|[H2|(b' & H2 & H3)]]; [lia|congruence|].
    apply G2 in H2. subst b'. exact (K H3). }
  assert (FD : found d i v b) by (repeat split; auto).
  destruct (Z.ltb_spec (zlen (buf_Data b)) (bvw_ByteOffset v + bvw_ByteLength v)) as [T|T].
  { split; [apply NC; lia|]. intros w b' FF. destruct (found_unique _ _ _ _ _ _ FF FD) as [-> ->]. unfold spans. lia. }
  unfold slice_range. destruct ((0 <=? bvw_ByteOffset v) && _ && _) eqn:C.
  - split; [apply NC; lia|]. exists v, b. split; [exact FD|]. split; [unfold spans; lia|]. split; [|reflexivity].
    unfold sub. f_equal. lia.
  - split.
    + right. right. exists v. split; [exact E|]. right. right. exists b. split; [exact F|]. lia.
    + intros w b' FF. destruct (found_unique _ _ _ _ _ _ FF FD) as [-> ->]. unfold spans. lia.
Qed.

(** ** Making the slice *)
Lemma make_fate c t n buf : ct_valid c = true -> at_valid t = true -> n < 2 ^ 31 ->
  make_crashes c t n buf /\ MakeSliceBuffer c t n buf = Panic \/
  ~ make_crashes c t n buf /\ MakeSliceBuffer c t n buf = Ok (mkSlice (SK c t) (map (buffer_elem c t buf) (seq 0 (Z.to_nat n)))).
Proof.
  intros Hc Ht N. destruct (size_small c t) as [_ S].
  destruct (Z.ltb_spec n 0) as [L|L].
  { left. split; [left; exact L|]. unfold MakeSliceBuffer. rewrite checkAccessorType_ok by auto. cbn [bind]. destruct (zlen buf =? 0).
    - unfold MakeSlice. rewrite checkAccessorType_ok by auto. cbn [bind]. replace (n <? 0) with true by lia. reflexivity.
    - unfold castSlice. destruct (_ =? 0); [reflexivity|].
      assert (0 <= zlen buf / (ByteSize c * Components t)).
      { rewrite mem_size_Z. pose proof (mem_size_pos c t Hc Ht). apply Z.div_pos; [apply zlen_nonneg|lia]. }
      set (l := zlen buf / _) in *. clearbody l. destruct (n <? l) eqn:E1; [|lia]. destruct (l <? n) eqn:E2; [lia|].
      rewrite Hc, Ht. cbn [andb]. unfold reslice. destruct (n <? 0) eqn:E3; [|lia]. destruct c, t; reflexivity. }
  assert (D : (c = CUint /\ t = AMat3 /\ buf <> []) \/ (buf = [] \/ ~ (c = CUint /\ t = AMat3))).
  { destruct buf; [right; left; reflexivity|]. destruct c, t; try (right; right; intros [? ?]; discriminate). left. split; [reflexivity|]. split; [reflexivity|discriminate]. }
  destruct D as [D|D].
  - left. split; [right; exact D|]. destruct D as (-> & -> & B). unfold MakeSliceBuffer. cbn [checkAccessorType ct_valid at_valid negb bind].
    destruct buf as [|x buf]; [contradiction|]. rewrite zlen_cons. pose proof (zlen_nonneg buf). replace (1 + zlen buf =? 0) with false by lia. reflexivity.
  - right. split; [intros [H|(H1 & H2 & H3)]; [lia|]; destruct D as [->|D]; [apply H3; reflexivity|apply D; auto]|].
    rewrite <- (Z2Nat.id n L) at 1. apply MakeSliceBuffer_ok; auto. unfold max_alloc. nia.
Qed.

(** ** Reading: crash or elements, in terms of the bytes [b] left in the view *)
Definition elem_in (c : ComponentType) (t : AccessorType) (s : Z) (b : bytes) (buf : bytes) (k : nat) (e : elem) : Prop :=
  if bytes_only c t then
    if Z.of_nat k <? zlen b then wf_elem c t e /\ stored_at c t b k e else e = buffer_elem c t buf k
  else wf_elem c t e /\ stored_at c t b (Z.to_nat (s * Z.of_nat k)) e.

Lemma byte_stored c b k y : c = CByte \/ c = CUbyte -> nth_error b k = Some y -> wf_elem c AScalar [b2z y] /\ stored_at c AScalar b k [b2z y].
Proof.
  intros C E. split.
  - pose proof (b2z_range y). destruct C as [->| ->]; (split; [reflexivity|]; constructor; [|constructor]; cbn; lia).
  - assert (G : encoded_byte c AScalar [b2z y] 0 = Some y).
    { destruct C as [->| ->]; unfold encoded_byte, byte_role; cbn; rewrite Z.div_1_r; f_equal; apply z2b_b2z. }
    intros j z H. assert (j < 1)%nat by (pose proof (encoded_byte_bound c AScalar [b2z y] j z); destruct C as [->| ->]; apply H0; auto).
    assert (j = 0)%nat by lia. subst j. rewrite G in H. rewrite Nat.add_0_r. congruence.
Qed.

Lemma loop_forward c t b s n : ct_valid c = true -> at_valid t = true -> zlen b < 2 ^ 62 ->
  (0 <= s \/ (n <= 1)%nat) -> (Z.of_nat n - 1) * s + Z.of_nat (element_size c t) <= zlen b ->
  exists vs, read_loop c t b s 0 n = Ok vs /\ List.length vs = n /\
    forall k e, nth_error vs k = Some e -> wf_elem c t e /\ stored_at c t b (Z.to_nat (s * Z.of_nat k)) e.
Proof.
  intros Hc Ht L O X. destruct n as [|[|m]].
  - exists []. split; [reflexivity|]. split; [reflexivity|]. intros k e. destruct k; discriminate.
  - cbn [read_loop]. rewrite Z.mul_0_r. change (i64 0) with 0. rewrite get_elem_at0 by (auto; lia). cbn [bind].
    eexists. split; [reflexivity|]. split; [reflexivity|]. intros [|k] e E; [|destruct k; discriminate].
    assert (e = decode_elem c t b 0) by (cbn in E; congruence). subst e. rewrite Z.mul_0_r. change (Z.to_nat 0) with 0%nat.
    split; [apply decode_elem_wf|apply decode_elem_stored]; auto; unfold zlen in X; lia.
  - destruct O as [O|O]; [|lia]. set (n := S (S m)) in *. assert (N2 : (2 <= n)%nat) by (unfold n; lia). clearbody n. clear m.
    pose proof (read_loop_spec c t b (Z.to_nat s) 0 n Hc Ht) as R. rewrite Z2Nat.id in R by lia. change (Z.of_nat 0) with 0 in R.
    rewrite R; [|unfold zlen in X; destruct n; [lia|]; nia|unfold zlen in L; lia]. clear R.
    eexists. split; [reflexivity|]. rewrite map_length, seq_length. split; [reflexivity|]. intros k e E.
    rewrite nth_error_map in E. destruct (nth_error (seq 0 n) k) as [q|] eqn:Q; [|discriminate]. cbn in E.
    assert (K : (k < n)%nat) by (rewrite <- (seq_length n 0); apply nth_error_Some; congruence).
    assert (q = k). { apply nth_error_nth with (d := 0%nat) in Q. rewrite seq_nth in Q by exact K. lia. } subst q.
    assert (e = decode_elem c t b (Z.to_nat s * k)) by congruence. subst e.
    replace (Z.to_nat (s * Z.of_nat k)) with (Z.to_nat s * k)%nat by nia.
    split; [apply decode_elem_wf|apply decode_elem_stored]; auto; unfold zlen in X; nia.
Qed.

(** [elem_in] for any previous elements. *)
Definition elem_old (c : ComponentType) (t : AccessorType) (s : Z) (b : bytes) (old : list elem) (k : nat) (e : elem) : Prop :=
  if bytes_only c t then
    if Z.of_nat k <? zlen b then wf_elem c t e /\ stored_at c t b k e else nth_error old k = Some e
  else wf_elem c t e /\ stored_at c t b (Z.to_nat (s * Z.of_nat k)) e.
Lemma Read_fate_any c t b s old n : ct_valid c = true -> at_valid t = true ->
  - 2 ^ 31 < s < 2 ^ 31 -> 0 <= n < 2 ^ 31 -> zlen b < 2 ^ 62 -> zlen old = n ->
  let st := rd_step c t s in
  let ext := (n - 1) * st + Z.of_nat (element_size c t) in
  let bad := c = CByte /\ t = AScalar /\ n < zlen b \/ bytes_only c t = false /\ 2 <= n /\ st < 0 in
  (zlen b < ext /\ Read b s (mkSlice (SK c t) old) = Err ErrShortBuffer) \/
  (ext <= zlen b /\ bad /\ Read b s (mkSlice (SK c t) old) = Panic) \/
  (ext <= zlen b /\ ~ bad /\ exists vs, Read b s (mkSlice (SK c t) old) = Ok (mkSlice (SK c t) vs) /\ zlen vs = n /\
     forall k e, nth_error vs k = Some e -> elem_old c t st b old k e).
Proof.
  intros Hc Ht S N L OL st ext bad.
  rewrite Read_modest by (auto; lia). rewrite OL. fold st. fold ext.
  assert (OL' : List.length old = Z.to_nat n) by (unfold zlen in OL; lia). rewrite OL'.
  destruct (Z.ltb_spec (zlen b) ext) as [X|X]; [left; auto|right].
  assert (SR : - 2 ^ 31 < st < 2 ^ 31) by (unfold st, rd_step; destruct (size_small c t); destruct (s =? 0); lia).
  assert (LOOP : bytes_only c t = false \/ st = 1 ->
    (2 <= n /\ st < 0 /\ (vs <- read_loop c t b st 0 (Z.to_nat n) ;; Ok (mkSlice (SK c t) vs)) = Panic) \/
    (~ (2 <= n /\ st < 0) /\ exists vs, (vs <- read_loop c t b st 0 (Z.to_nat n) ;; Ok (mkSlice (SK c t) vs)) = Ok (mkSlice (SK c t) vs) /\ zlen vs = n /\
      forall k e, nth_error vs k = Some e -> wf_elem c t e /\ stored_at c t b (Z.to_nat (st * Z.of_nat k)) e)).
  { intros _. destruct (Z_lt_le_dec n 2) as [N2|N2]; [|destruct (Z_lt_le_dec st 0) as [P|P]].
    - right. split; [lia|]. destruct (loop_forward c t b st (Z.to_nat n) Hc Ht L) as (vs & R & RL & RE); [right; lia|unfold ext in X; rewrite Z2Nat.id by lia; exact X|].
      exists vs. rewrite R. cbn [bind]. split; [reflexivity|]. split; [unfold zlen; lia|exact RE].
    - left. split; [exact N2|]. split; [exact P|]. replace (Z.to_nat n) with (2 + (Z.to_nat n - 2))%nat by lia.
      cbn [Nat.add]. rewrite read_loop_back by lia. reflexivity.
    - right. split; [lia|]. destruct (loop_forward c t b st (Z.to_nat n) Hc Ht L) as (vs & R & RL & RE); [left; lia|unfold ext in X; rewrite Z2Nat.id by lia; exact X|].
      exists vs. rewrite R. cbn [bind]. split; [reflexivity|]. split; [unfold zlen; lia|exact RE]. }
  assert (COPY : (c = CByte \/ c = CUbyte) -> t = AScalar -> zlen (copy old (map (fun x => [b2z x]) b)) = n /\
    forall k e, nth_error (copy old (map (fun x => [b2z x]) b)) k = Some e -> elem_old c t st b old k e).
  { intros C ->. split; [unfold zlen; rewrite copy_length; lia|]. intros k e E.
    assert (K : (k < Z.to_nat n)%nat) by (rewrite <- OL', <- (copy_length old (map (fun x => [b2z x]) b)); apply nth_error_Some; congruence).
    unfold elem_old. replace (bytes_only c AScalar) with true by (destruct C as [->| ->]; reflexivity).
    rewrite nth_error_copy, map_length in E. unfold zlen. destruct (Z.ltb_spec (Z.of_nat k) (Z.of_nat (List.length b))) as [I|I].
    - replace ((k <? List.length b)%nat && (k <? List.length old)%nat) with true in E by lia.
      rewrite nth_error_map in E. destruct (nth_error b k) as [y|] eqn:Y; [|discriminate]. cbn in E. assert (e = [b2z y]) by congruence. subst e.
      apply byte_stored; auto.
    - replace (k <? List.length b)%nat with false in E by lia. cbn [andb] in E. exact E. }
  assert (D : (c = CByte /\ t = AScalar) \/ (c = CUbyte /\ t = AScalar) \/ bytes_only c t = false).
  { destruct c, t; auto. }
  destruct D as [[Ec Et]|[[Ec Et]|D]].
  - subst c t. destruct (COPY (or_introl eq_refl) eq_refl) as [C1 C2].
    destruct (Z.ltb_spec n (zlen b)) as [Q|Q].
    + left. split; [exact X|]. split; [left; auto|reflexivity].
    + right. split; [exact X|]. split; [intros [(_ & _ & B)|(B & _)]; [lia|discriminate]|]. eexists. split; [reflexivity|]. split; [exact C1|exact C2].
  - subst c t. right. split; [exact X|]. split; [intros [(B & _)|(B & _)]; discriminate|].
    destruct (Z.eqb_spec st 1) as [Q|Q]; cbn [negb].
    + destruct (LOOP (or_intror Q)) as [(_ & B & _)|(_ & vs & R & RL & RE)]; [lia|]. exists vs. split; [exact R|]. split; [exact RL|].
      intros k e E. unfold elem_old. cbn [bytes_only]. replace (Z.of_nat k <? zlen b) with true.
      * specialize (RE k e E). rewrite Q, Z.mul_1_l, Nat2Z.id in RE. exact RE.
      * assert (k < List.length vs)%nat by (apply nth_error_Some; congruence). unfold ext in X. rewrite Q in X. cbn [element_size comp_bytes] in X. unfold zlen in *. lia.
    + eexists. split; [reflexivity|]. destruct (COPY (or_intror eq_refl) eq_refl) as [C1 C2]. split; [exact C1|exact C2].
  - assert (M : match c, t with
      | CByte, AScalar => if n <? zlen b then Panic else Ok (mkSlice (SK c t) (copy old (map (fun x => [b2z x]) b)))
      | CUbyte, AScalar => if negb (st =? 1) then Ok (mkSlice (SK c t) (copy old (map (fun x => [b2z x]) b)))
          else vs <- read_loop c t b st 0 (Z.to_nat n) ;; Ok (mkSlice (SK c t) vs)
      | _, _ => vs <- read_loop c t b st 0 (Z.to_nat n) ;; Ok (mkSlice (SK c t) vs)
      end = (vs <- read_loop c t b st 0 (Z.to_nat n) ;; Ok (mkSlice (SK c t) vs))) by (destruct c, t; try discriminate; reflexivity).
    rewrite M. destruct (LOOP (or_introl D)) as [(B1 & B2 & R)|(B & vs & R & RL & RE)].
    + left. split; [exact X|]. split; [right; auto|exact R].
    + right. split; [exact X|]. split; [intros [(-> & -> & _)|(_ & K)]; [discriminate|exact (B K)]|]. exists vs. split; [exact R|]. split; [exact RL|].
      intros k e E. unfold elem_old. rewrite D. exact (RE k e E).
Qed.

Lemma Read_fate c t b s buf n : ct_valid c = true -> at_valid t = true ->
  - 2 ^ 31 < s < 2 ^ 31 -> 0 <= n < 2 ^ 31 -> zlen b < 2 ^ 62 ->
  let old := map (buffer_elem c t buf) (seq 0 (Z.to_nat n)) in
  let st := rd_step c t s in
  let ext := (n - 1) * st + Z.of_nat (element_size c t) in
  let bad := c = CByte /\ t = AScalar /\ n < zlen b \/ bytes_only c t = false /\ 2 <= n /\ st < 0 in
  (zlen b < ext /\ Read b s (mkSlice (SK c t) old) = Err ErrShortBuffer) \/
  (ext <= zlen b /\ bad /\ Read b s (mkSlice (SK c t) old) = Panic) \/
  (ext <= zlen b /\ ~ bad /\ exists vs, Read b s (mkSlice (SK c t) old) = Ok (mkSlice (SK c t) vs) /\ zlen vs = n /\
     forall k e, nth_error vs k = Some e -> elem_in c t st b buf k e).
Proof.
  intros Hc Ht S N L old st ext bad. assert (OL : zlen old = n) by (unfold old, zlen; rewrite map_length, seq_length; lia).
  destruct (Read_fate_any c t b s old n Hc Ht S N L OL) as [H|[H|(H1 & H2 & vs & H3 & H4 & H5)]]; [left; exact H|right; left; exact H|right; right].
  split; [exact H1|]. split; [exact H2|]. exists vs. split; [exact H3|]. split; [exact H4|]. intros k e E. specialize (H5 k e E). unfold elem_old in H5. unfold elem_in.
  destruct (bytes_only c t); [|exact H5]. destruct (Z.of_nat k <? zlen b); [exact H5|]. unfold old in H5. rewrite nth_error_map in H5.
  destruct (nth_error (seq 0 (Z.to_nat n)) k) as [q|] eqn:Q; [|discriminate]. cbn in H5.
  assert (K : (k < Z.to_nat n)%nat) by (rewrite <- (seq_length (Z.to_nat n) 0); apply nth_error_Some; congruence).
  assert (q = k). { apply nth_error_nth with (d := 0%nat) in Q. rewrite seq_nth in Q by exact K. lia. } subst q. congruence.
Qed.

(** ** The part of ReadAccessor without substitutions *)
Lemma element_of_unique c t v b off buf k e e' : ct_valid c = true -> at_valid t = true ->
  element_of c t v b off buf k e -> element_of c t v b off buf k e' -> e = e'.
Proof.
  intros Hc Ht. unfold element_of. destruct (bytes_only c t); [destruct (_ <? _)|].
  - intros [W S] [W' S']. eapply stored_at_unique; eauto.
  - congruence.
  - intros [W S] [W' S']. eapply stored_at_unique; eauto.
Qed.

Lemma stored_shift c t (b data : bytes) p q e : (forall k y, nth_error b k = Some y -> nth_error data (p + k) = Some y) ->
  stored_at c t b q e -> stored_at c t data (p + q) e.
Proof. intros H S j y E. rewrite <- Nat.add_assoc. apply H. exact (S j y E). Qed.

Lemma same_lists {A} (P : nat -> A -> Prop) (l l' : list A) : (forall k x x', P k x -> P k x' -> x = x') ->
  zlen l = zlen l' -> (forall k x, nth_error l k = Some x -> P k x) -> (forall k x, nth_error l' k = Some x -> P k x) -> l = l'.
Proof.
  intros U L H H'. apply nth_error_ext. intros k. unfold zlen in L. destruct (nth_error l k) as [x|] eqn:E.
  - destruct (nth_error l' k) as [x'|] eqn:E'; [f_equal; eapply U; eauto|]. apply nth_error_None in E'.
    assert (k < List.length l)%nat by (apply nth_error_Some; congruence). lia.
  - apply nth_error_None in E. symmetry. apply nth_error_None. lia.
Qed.

Lemma dense_reads_unique d c t bv off n buf vs vs' :
  dense_reads d c t bv off n buf vs -> dense_reads d c t bv off n buf vs' -> vs = vs'.
Proof.
  intros (Hc & Ht & _ & L & H) (_ & _ & _ & L' & H'). destruct bv as [i|].
  - destruct H as (v & b & F & _ & _ & _ & _ & H). destruct H' as (v' & b' & F' & _ & _ & _ & _ & H').
    destruct (found_unique _ _ _ _ _ _ F F') as [<- <-]. eapply same_lists; [|congruence|exact H|exact H'].
    intros k x x'. apply element_of_unique; auto.
  - eapply same_lists; [|congruence|exact H|exact H']. cbn. intros. congruence.
Qed.

Definition dense_outcome (d : Document) c t bv off n buf (r : res slice) : Prop :=
  match r with
  | Panic => dense_crashes d c t bv off n buf /\ forall vs, ~ dense_reads d c t bv off n buf vs
  | Err _ => ~ dense_crashes d c t bv off n buf /\ forall vs, ~ dense_reads d c t bv off n buf vs
  | Ok s => ~ dense_crashes d c t bv off n buf /\ sk s = SK c t /\ dense_reads d c t bv off n buf (els s)
  end.

Lemma dense_fate d c t bv off n buf : (forall v, In (Some v) (doc_BufferViews d) -> modest_view v) -> n < 2 ^ 31 ->
  dense_outcome d c t bv off n buf (read_dense d c t bv off n buf).
Proof.
  intros M N. unfold read_dense.
  destruct (ct_valid c && at_valid t) eqn:V.
  2:{ destruct (MakeSliceBuffer_invalid c t n buf V) as [[e E] _]. rewrite E. cbn [bind dense_outcome]. unfold dense_crashes, dense_reads.
      split; [intros (A & B & _)|intros vs (A & B & _)]; rewrite A, B in V; discriminate. }
  apply andb_true_iff in V as [Hc Ht].
  destruct (make_fate c t n buf Hc Ht N) as [[C E]|[C E]]; rewrite E; cbn [bind].
  { cbn [dense_outcome]. split; [split; [exact Hc|]; split; [exact Ht|]; left; exact C|]. intros vs (_ & _ & K & _). exact (K C). }
  assert (N0 : 0 <= n) by (destruct (Z_lt_le_dec n 0); [exfalso; apply C; left; assumption|assumption]).
  assert (OL : zlen (map (buffer_elem c t buf) (seq 0 (Z.to_nat n))) = n) by (unfold zlen; rewrite map_length, seq_length; lia).
  destruct bv as [i|].
  2:{ cbn [dense_outcome sk els]. split; [intros (_ & _ & [K|(i & K & _)]); [exact (C K)|discriminate]|]. split; [reflexivity|].
      split; [exact Hc|]. split; [exact Ht|]. split; [exact C|]. split; [exact OL|]. intros k e K.
      assert (KL : (k < Z.to_nat n)%nat) by (apply (f_equal (fun o => match o with Some _ => true | None => false end)) in K; destruct (Nat.ltb_spec k (Z.to_nat n)); [assumption|];
        rewrite (proj2 (nth_error_None _ k)) in K by (rewrite map_length, seq_length; assumption); discriminate).
      rewrite nth_error_map in K. destruct (nth_error (seq 0 (Z.to_nat n)) k) as [q|] eqn:Q; [|discriminate]. cbn in K.
      assert (q = k). { apply nth_error_nth with (d := 0%nat) in Q. rewrite seq_nth in Q by exact KL. lia. } subst q. congruence. }
  pose proof (lookup_fate d i M) as LF. unfold lookup_outcome in LF.
  destruct (readBufferView d i) as [bs|e|]; cbn [bind].
  2:{ destruct LF as [L1 L2]. cbn [dense_outcome]. split.
      - intros (_ & _ & [K|(j & K & [H|(v & b & F & SP & _)])]); [exact (C K)| |]; assert (j = i) by congruence; subst j; [exact (L1 H)|exact (L2 v b F SP)].
      - intros vs (_ & _ & _ & _ & v & b & F & SP & _). exact (L2 v b F SP). }
  2:{ destruct LF as [L1 L2]. cbn [dense_outcome]. split.
      - split; [exact Hc|]. split; [exact Ht|]. right. exists i. split; [reflexivity|]. left. exact L1.
      - intros vs (_ & _ & _ & _ & v & b & F & SP & _). exact (L2 v b F SP). }
  destruct LF as [L1 (v & b & F & SP & -> & IX)]. rewrite IX. cbn [bind deref].
  assert (MV : modest_view v) by (apply M; destruct F as (_ & F & _); eapply nth_error_In; exact F). destruct MV as (M1 & M2 & M3).
  assert (FU : forall j v' b', Some i = Some j -> found d j v' b' -> v' = v /\ b' = b).
  { intros j v' b' J F'. assert (j = i) by congruence. subst j. destruct (found_unique _ _ _ _ _ _ F F') as [-> ->]. auto. }
  assert (NL : forall j, Some i = Some j -> ~ lookup_crashes d j) by (intros j J; assert (j = i) by congruence; subst j; exact L1).
  pose proof SP as (S1 & S2 & S3).
  set (bs := sub (buf_Data b) _ _). assert (BL : zlen bs = bvw_ByteLength v) by (unfold bs, zlen; rewrite sub_length_exact; unfold zlen in S3; lia).
  unfold slice_from. rewrite BL. destruct ((0 <=? off) && (off <=? bvw_ByteLength v)) eqn:O; cbn [bind].
  2:{ cbn [dense_outcome]. split.
      - split; [exact Hc|]. split; [exact Ht|]. right. exists i. split; [reflexivity|]. right. exists v, b. split; [exact F|]. split; [exact SP|]. lia.
      - intros vs (_ & _ & _ & _ & v' & b' & F' & _ & O' & _). destruct (FU i v' b' eq_refl F') as [-> ->]. lia. }
  set (tail := skipn (Z.to_nat off) bs). assert (TL : zlen tail = bvw_ByteLength v - off) by (unfold tail, zlen; rewrite skipn_length; unfold zlen in BL; lia).
  assert (SH : forall k y, nth_error tail k = Some y -> nth_error (buf_Data b) (Z.to_nat (bvw_ByteOffset v + off) + k) = Some y).
  { intros k y K. unfold tail in K. rewrite nth_error_skipn' in K. unfold bs in K. rewrite nth_error_sub in K.
    destruct (_ <? _)%nat in K; [|discriminate]. rewrite <- K. f_equal. lia. }
  destruct (Read_fate c t tail (bvw_ByteStride v) buf n Hc Ht M3 (conj N0 N)) as [[X R]|[(X & B & R)|(X & B & vs & R & RL & RE)]]; [lia| | |]; rewrite R.
  - cbn [dense_outcome]. rewrite TL in X. split.
    + intros (_ & _ & [K|(j & J & [K|(v' & b' & F' & _ & K)])]); [exact (C K)|exact (NL j J K)|]. destruct (FU j v' b' J F') as [-> ->].
      unfold extent, step in K. unfold rd_step in X. lia.
    + intros vs (_ & _ & _ & _ & v' & b' & F' & _ & _ & K & _). destruct (FU i v' b' eq_refl F') as [-> ->]. unfold extent, step in K. unfold rd_step in X. lia.
  - cbn [dense_outcome]. rewrite TL in X, B. split.
    + split; [exact Hc|]. split; [exact Ht|]. right. exists i. split; [reflexivity|]. right. exists v, b. split; [exact F|]. split; [exact SP|].
      right. right. split; [exact X|exact B].
    + intros vs (_ & _ & _ & _ & v' & b' & F' & _ & _ & _ & K & _). destruct (FU i v' b' eq_refl F') as [-> ->]. exact (K B).
  - cbn [dense_outcome sk els]. rewrite TL in X, B. split.
    + intros (_ & _ & [K|(j & J & [K|(v' & b' & F' & _ & K)])]); [exact (C K)|exact (NL j J K)|]. destruct (FU j v' b' J F') as [-> ->].
      destruct K as [K|[K|[_ K]]]; [lia|lia|exact (B K)].
    + split; [reflexivity|]. split; [exact Hc|]. split; [exact Ht|]. split; [exact C|]. split; [exact RL|]. exists v, b.
      split; [exact F|]. split; [exact SP|]. split; [lia|]. split; [exact X|]. split; [exact B|]. intros k e K. specialize (RE k e K).
      unfold elem_in in RE. unfold element_of. rewrite TL in RE. destruct (bytes_only c t) eqn:BO.
      * destruct (Z.of_nat k <? bvw_ByteLength v - off); [|exact RE]. destruct RE as [W ST]. split; [exact W|].
        replace (Z.to_nat (bvw_ByteOffset v + off + Z.of_nat k)) with (Z.to_nat (bvw_ByteOffset v + off) + k)%nat by lia. apply (stored_shift c t tail); assumption.
      * destruct RE as [W ST]. split; [exact W|]. fold (rd_step c t (bvw_ByteStride v)) in *. unfold step. fold (rd_step c t (bvw_ByteStride v)).
        assert (KP : 0 <= rd_step c t (bvw_ByteStride v) * Z.of_nat k).
        { destruct k as [|k]; [lia|]. assert (S k < List.length vs)%nat by (apply nth_error_Some; congruence). unfold zlen in RL.
          destruct (Z_lt_le_dec (rd_step c t (bvw_ByteStride v)) 0); [|nia]. exfalso. apply B. right. split; [reflexivity|]. split; [lia|assumption]. }
        replace (Z.to_nat (bvw_ByteOffset v + off + rd_step c t (bvw_ByteStride v) * Z.of_nat k)) with
          (Z.to_nat (bvw_ByteOffset v + off) + Z.to_nat (rd_step c t (bvw_ByteStride v) * Z.of_nat k))%nat by lia. apply (stored_shift c t tail); assumption.
Qed.

(** ** Substitutions *)
Lemma sparse_loop_bad n : forall i indices vals s,
  (i + n <= List.length indices)%nat -> (i + n <= List.length vals)%nat ->
  (exists k x, (i <= k < i + n)%nat /\ nth_error indices k = Some x /\ ~ (0 <= x < zlen s)) ->
  sparse_loop i n indices vals s = Panic.
Proof.
  induction n as [|n IH]; intros i indices vals s H1 H2 (k & x & K & E & X); [lia|]. cbn [sparse_loop].
  destruct (nth_error indices i) as [y|] eqn:Ex; [|apply nth_error_None in Ex; lia].
  destruct (nth_error vals i) as [v|] eqn:Ev; [|apply nth_error_None in Ev; lia].
  rewrite (index_ok _ _ _ Ex). cbn [bind]. rewrite (index_ok _ _ _ Ev). cbn [bind].
  unfold set_index. destruct ((0 <=? y) && (y <? zlen s)) eqn:B; cbn [bind]; [|reflexivity].
  apply IH; [lia|lia|]. exists k, x. split; [|split; [exact E|unfold zlen; rewrite set_nth_length; exact X]].
  destruct (Nat.eq_dec k i) as [->|D]; [|lia]. exfalso. apply X. assert (y = x) by congruence. subst y. lia.
Qed.

Lemma overlaid_unique base idx vals r r' : overlaid base idx vals r -> overlaid base idx vals r' -> r = r'.
Proof.
  intros [L H] [L' H']. apply nth_error_ext. intros p. destruct (Nat.ltb_spec p (List.length base)) as [P|P].
  2:{ rewrite (proj2 (nth_error_None r p)), (proj2 (nth_error_None r' p)) by lia. reflexivity. }
  destruct (H p P) as [(k & K1 & K2 & K3)|[N1 N2]], (H' p P) as [(k' & K1' & K2' & K3')|[N1' N2']].
  - destruct (Nat.lt_trichotomy k k') as [Q|[Q|Q]]; [exfalso; exact (K2 k' Q K1')|subst k'; congruence|exfalso; exact (K2' k Q K1)].
  - exfalso. exact (N1' k K1).
  - exfalso. exact (N1 k' K1').
  - congruence.
Qed.

Lemma singles (vs : list elem) c : Forall (wf_elem c AScalar) vs -> vs = map (fun x => [x]) (map scalar vs) /\ Forall (fun x => 0 <= x) (map scalar vs).
Proof.
  induction 1 as [|e vs [W R] _ [IH1 IH2]]; [split; [reflexivity|constructor]|]. destruct e as [|x [|y e]]; [discriminate| |discriminate].
  cbn [map scalar hd]. split; [f_equal; exact IH1|]. constructor; [|exact IH2]. inversion R; lia.
Qed.

Lemma map_single_inj (l l' : list Z) : map (fun x => [x]) l = map (fun x => [x]) l' -> l = l'.
Proof.
  revert l'. induction l as [|x l IH]; intros [|y l'] E; try discriminate; [reflexivity|]. cbn in E.
  assert (x = y) by (apply (f_equal (fun l => hd 0 (hd [] l))) in E; exact E). subst y. f_equal. apply IH. apply (f_equal (@tl _)) in E. exact E.
Qed.

Lemma index_component_type c : index_component c <-> index_type c.
Proof. reflexivity. Qed.

(** ** All of ReadAccessor *)
Definition fetch_outcome (d : Document) (a : Accessor) (buf : bytes) (p : pools) (r : res slice) : Prop :=
  let crash := accessor_crashes d a buf (p_idx p) (p_val p) in
  let reads := accessor_reads d a buf (p_idx p) (p_val p) in
  match r with
  | Panic => crash /\ forall vs, ~ reads vs
  | Err _ => ~ crash /\ forall vs, ~ reads vs
  | Ok s => ~ crash /\ sk s = SK (acr_ComponentType a) (acr_Type a) /\ reads (els s)
  end.

Lemma accessor_fate d a buf p : modest d a -> fetch_outcome d a buf p (ReadAccessor d a buf p).
Proof.
  intros (M & N & NS). unfold ReadAccessor.
  pose proof (dense_fate d (acr_ComponentType a) (acr_Type a) (acr_BufferView a) (acr_ByteOffset a) (acr_Count a) buf M N) as DF.
  fold (base_crashes d a buf) in DF. unfold dense_outcome in DF. fold (base_crashes d a buf) in DF. fold (base_reads d a buf) in DF.
  destruct (read_dense d _ _ (acr_BufferView a) _ _ buf) as [data|e|] eqn:RD; cbn [bind].
  2:{ destruct DF as [D1 D2]. cbn [fetch_outcome]. split.
      - intros [K|(base & sp & K & _)]; [exact (D1 K)|exact (D2 _ K)].
      - intros vs (base & K & _). exact (D2 _ K). }
  2:{ destruct DF as [D1 D2]. cbn [fetch_outcome]. split; [left; exact D1|]. intros vs (base & K & _). exact (D2 _ K). }
  destruct DF as (D1 & D2 & D3).
  assert (BU : forall base, base_reads d a buf base -> base = els data) by (intros base K; eapply dense_reads_unique; [exact K|exact D3]).
  destruct (acr_Sparse a) as [sp|] eqn:SP.
  2:{ cbn [fetch_outcome]. split; [intros [K|(base & sp & _ & K & _)]; [exact (D1 K)|congruence]|]. split; [exact D2|].
      exists (els data). split; [exact D3|]. rewrite SP. reflexivity. }
  specialize (NS sp eq_refl). cbv zeta.
  assert (SU : forall sp', Some sp = Some sp' -> sp' = sp) by (intros; congruence).
  (* the indices *)
  unfold read_indices_dense.
  destruct (check_indices_spec (spi_ComponentType (spa_Indices sp)) AScalar) as [(IT & _ & CE)|(IT & e & CE)]; rewrite CE; cbn [bind].
  2:{ cbn [fetch_outcome]. split.
      - intros [K|(base & sp' & _ & S' & T & _)]; [exact (D1 K)|]. rewrite SP in S'. apply SU in S'. subst sp'. apply IT. split; [exact T|reflexivity].
      - intros vs (base & _ & K). rewrite SP in K. destruct K as [T _]. apply IT. split; [exact T|reflexivity]. }
  pose proof (dense_fate d (spi_ComponentType (spa_Indices sp)) AScalar (Some (spi_BufferView (spa_Indices sp))) (spi_ByteOffset (spa_Indices sp)) (spa_Count sp) (p_idx p) M NS) as IF.
  unfold dense_outcome in IF. fold (indices_crash d sp (p_idx p)) in IF.
  destruct (read_dense d _ AScalar _ _ _ (p_idx p)) as [di|e|] eqn:RI; cbn [bind].
  2:{ destruct IF as [I1 I2]. cbn [fetch_outcome]. split.
      - intros [K|(base & sp' & _ & S' & T & K)]; [exact (D1 K)|]. rewrite SP in S'. apply SU in S'. subst sp'. destruct K as [K|(idx & K & _)]; [exact (I1 K)|exact (I2 _ K)].
      - intros vs (base & _ & K). rewrite SP in K. destruct K as (_ & idx & vals & K & _). exact (I2 _ K). }
  2:{ destruct IF as [I1 I2]. cbn [fetch_outcome]. split.
      - right. exists (els data), sp. split; [exact D3|]. split; [exact SP|]. split; [exact IT|]. left. exact I1.
      - intros vs (base & _ & K). rewrite SP in K. destruct K as (_ & idx & vals & K & _). exact (I2 _ K). }
  destruct IF as (I1 & I2 & I3). destruct di as [ki vi]. cbn [sk els] in I2, I3. subst ki.
  destruct (convert_indices_ok (spa_Count sp) (p_u32 p) _ vi IT (proj1 (proj2 (proj2 (proj2 I3))))) as (r & CR & FR & _). rewrite CR. cbn [bind].
  pose proof (read_dense_wf _ _ _ _ _ _ _ _ RI) as WI. cbn [els] in WI. destruct (singles vi _ WI) as [VI NI].
  set (idx := map scalar vi) in *. rewrite VI in I3. fold (indices_read d sp (p_idx p) idx) in I3.
  assert (IU : forall idx', indices_read d sp (p_idx p) idx' -> idx' = idx) by (intros idx' K; apply map_single_inj; unfold indices_read in K, I3; exact (dense_reads_unique _ _ _ _ _ _ _ _ _ K I3)).
  assert (IL : zlen idx = spa_Count sp). { destruct I3 as (_ & _ & _ & L & _). unfold zlen in *. rewrite map_length in L. exact L. }
  (* the values *)
  pose proof (dense_fate d (acr_ComponentType a) (acr_Type a) (Some (spv_BufferView (spa_Values sp))) (spv_ByteOffset (spa_Values sp)) (spa_Count sp) (p_val p) M NS) as VF.
  unfold dense_outcome in VF. fold (values_crash d a sp (p_val p)) in VF. fold (values_read d a sp (p_val p)) in VF.
  destruct (read_dense d _ _ _ _ _ (p_val p)) as [dv|e|] eqn:RV; cbn [bind].
  2:{ destruct VF as [V1 V2]. cbn [fetch_outcome]. split.
      - intros [K|(base & sp' & _ & S' & T & K)]; [exact (D1 K)|]. rewrite SP in S'. apply SU in S'. subst sp'.
        destruct K as [K|(idx' & _ & [K|(vals & x & K & _)])]; [exact (I1 K)|exact (V1 K)|exact (V2 _ K)].
      - intros vs (base & _ & K). rewrite SP in K. destruct K as (_ & idx' & vals & _ & K & _). exact (V2 _ K). }
  2:{ destruct VF as [V1 V2]. cbn [fetch_outcome]. split.
      - right. exists (els data), sp. split; [exact D3|]. split; [exact SP|]. split; [exact IT|]. right. exists idx. split; [exact I3|]. left. exact V1.
      - intros vs (base & _ & K). rewrite SP in K. destruct K as (_ & idx' & vals & _ & K & _). exact (V2 _ K). }
  destruct VF as (V1 & V2 & V3).
  assert (VU : forall vals, values_read d a sp (p_val p) vals -> vals = els dv) by (intros vals K; unfold values_read in K, V3; eapply dense_reads_unique; [exact K|exact V3]).
  assert (VL : zlen (els dv) = spa_Count sp) by (destruct V3 as (_ & _ & _ & L & _); exact L).
  assert (DL : zlen (els data) = acr_Count a) by (destruct D3 as (_ & _ & _ & L & _); exact L).
  assert (RN : forall k, (k < List.length idx)%nat -> nth_error r k = nth_error idx k).
  { intros k K. rewrite <- FR. rewrite nth_error_firstn'. unfold idx in K. rewrite map_length in K. replace (k <? List.length vi)%nat with true by lia. reflexivity. }
  assert (RL : (List.length idx <= List.length r)%nat).
  { apply (f_equal (@List.length _)) in FR. fold idx in FR. rewrite firstn_length in FR. unfold idx in *. rewrite map_length in *. lia. }
  set (n := Z.to_nat (spa_Count sp)). assert (NL : n = List.length idx) by (unfold n, zlen in *; lia).
  assert (NV : n = List.length (els dv)) by (unfold n, zlen in *; lia).
  destruct (existsb (fun x => acr_Count a <=? x) idx) eqn:EX.
  - (* some index is beyond the accessor *)
    apply existsb_exists in EX as (x & XI & XB).
    destruct (In_nth_error _ _ XI) as (k & XK). assert (KL : (k < List.length idx)%nat) by (apply nth_error_Some; congruence).
    rewrite (sparse_loop_bad n 0 r (els dv) (els data)); [|lia|lia|exists k, x; split; [lia|]; split; [rewrite RN by exact KL; exact XK|lia]].
    cbn [bind fetch_outcome]. split.
    + right. exists (els data), sp. split; [exact D3|]. split; [exact SP|]. split; [exact IT|]. right. exists idx. split; [exact I3|]. right.
      exists (els dv), x. split; [exact V3|]. split; [exact XI|lia].
    + intros vs (base & _ & K). rewrite SP in K. destruct K as (_ & idx' & vals & K1 & _ & K2 & _). apply IU in K1. subst idx'.
      rewrite Forall_forall in K2. specialize (K2 x XI). lia.
  - assert (AB : forall x, In x idx -> x < acr_Count a).
    { intros x XI. destruct (Z_lt_le_dec x (acr_Count a)); [assumption|]. exfalso.
      assert (existsb (fun x => acr_Count a <=? x) idx = true) by (apply existsb_exists; exists x; split; [exact XI|lia]). congruence. }
    destruct (sparse_loop_ok n 0 r (els dv) (els data)) as (s' & SE & SL & SV); [lia|lia| |].
    { intros k K. assert (KL : (k < List.length idx)%nat) by lia. destruct (nth_error idx k) as [x|] eqn:XK; [|apply nth_error_None in XK; lia].
      assert (nth k r 0 = x) by (apply nth_error_nth; rewrite RN by exact KL; exact XK). rewrite H. pose proof (nth_error_In _ _ XK) as XI.
      rewrite Forall_forall in NI. specialize (NI x XI). specialize (AB x XI). lia. }
    rewrite SE. cbn [bind fetch_outcome sk els]. split; [|split; [exact D2|]].
    + intros [K|(base & sp' & _ & S' & T & K)]; [exact (D1 K)|]. rewrite SP in S'. apply SU in S'. subst sp'.
      destruct K as [K|(idx' & K' & [K|(vals & x & _ & XI & XB)])]; [exact (I1 K)|exact (V1 K)|]. apply IU in K'. subst idx'. specialize (AB x XI). lia.
    + exists (els data). split; [exact D3|]. rewrite SP. split; [exact IT|]. exists idx, (els dv). split; [exact I3|]. split; [exact V3|].
      split; [apply Forall_forall; exact AB|]. split; [exact SL|]. intros q Q. destruct (SV q Q) as [(k & K & K1 & K2 & K3)|[K1 K2]].
      * left. exists k. rewrite RN in K1 by lia. split; [exact K1|]. split; [|exact K3]. intros k' K' KE.
        assert (k' < List.length idx)%nat by (apply nth_error_Some; congruence). apply (K2 k'); [lia|]. rewrite RN by assumption. exact KE.
      * right. split; [|exact K2]. intros k KE. assert (k < List.length idx)%nat by (apply nth_error_Some; congruence).
        apply (K1 k); [lia|]. rewrite RN by assumption. exact KE.
Qed.

Lemma accessor_reads_unique d a buf bi bv vs vs' : accessor_reads d a buf bi bv vs -> accessor_reads d a buf bi bv vs' -> vs = vs'.
Proof.
  intros (base & B & H) (base' & B' & H'). assert (base' = base) by (eapply dense_reads_unique; [exact B'|exact B]). subst base'.
  destruct (acr_Sparse a) as [sp|]; [|congruence]. destruct H as (_ & idx & vals & I & V & _ & O), H' as (_ & idx' & vals' & I' & V' & _ & O').
  assert (idx' = idx) by (apply map_single_inj; unfold indices_read in I', I; exact (dense_reads_unique _ _ _ _ _ _ _ _ _ I' I)).
  assert (vals' = vals) by (unfold values_read in V', V; eapply dense_reads_unique; [exact V'|exact V]). subst. eapply overlaid_unique; eauto.
Qed.
