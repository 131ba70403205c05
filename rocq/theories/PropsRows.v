(** C104: interleaved bytes, the cases that C12 leaves out. *)
From Verif Require Import BaseFacts Types Binary SpecLayout BinaryProofs SliceProofs Doc F64 SpecDoc SpecTarget
  ModelerWrite ModelerRead ModelerWriteProofs ModelerReadProofs ModelerSparseProofs ModelerLayoutProofs ModelerShapeProofs
  ModelerAttrProofs ModelerTargetProofs SpecAccessor AccessorProofs AccessorWriteProofs PropsModelerWrite SpecFetch FetchProofs PropsFetch SpecRows.

(** The accessor and the view of slice [k]. *)
Lemma rows_shape d data d' idx k s : WriteAccessorsInterleaved d data = Ok (d', Ok idx) -> (2 <= List.length data)%nat ->
  nth_error data k = Some s -> exists c t a v b vo i, kind_ct (sk s) = Some (c, t) /\
    nth_error (doc_Accessors d') (List.length (doc_Accessors d) + k) = Some (Some a) /\
    acr_ComponentType a = c /\ acr_Type a = t /\ acr_Sparse a = None /\ acr_Count a = zlen (els s) /\
    acr_BufferView a = Some (Z.of_nat i) /\ i = List.length (doc_BufferViews d) /\ acr_ByteOffset a = Z.of_nat (sum_sizes (firstn k data)) /\
    found d' (Z.of_nat i) v b /\ spans v b /\ bvw_ByteOffset v = Z.of_nat vo /\ bvw_ByteStride v = Z.of_nat (sum_sizes data) /\
    bvw_ByteLength v = Z.of_nat (List.length (els s) * sum_sizes data).
Proof.
  intros H L Hk. apply WriteAccessorsInterleaved_shaped in H. destruct H as (d0 & d1 & vi & accs & HP & HV & -> & [_ HF]).
  destruct (HF k s Hk) as (c & t & a & Hs & Ha & HC). 
  assert (EV : doc_BufferViews d0 = doc_BufferViews d) by (apply ensurePadding_inv in HP as (pre & b & b' & pad & _ & -> & _); reflexivity).
  apply writeBufferViews_inv in HV as [(e & [=] & _)|H].
  destruct H as (pre & b & stride & size & written & b' & [= ->] & HV & HLB & HS0 & HM & HD & HL & _ & -> & ->).
  assert (Hne : data <> []) by (intros ->; destruct k; discriminate).
  destruct (view_loop_sized _ _ _ _ Hne HV) as (st & e & n & -> & Hsz & ->).
  pose proof (sized_nth _ _ _ _ _ _ Hsz Hk) as (c' & t' & Hs' & Hn & He & Hst).
  destruct Hsz as (_ & Hsum & [Hone|[_ Hone]]); [lia|]. subst st e.
  exists c, t, a, (mk_view (zlen pre) (zlen (buf_Data b)) (Z.of_nat (n * sum_sizes data)) (Z.of_nat (sum_sizes data)) TargetArrayBuffer),
    (set_buf_Data written (set_buf_ByteLength (i64 (buf_ByteLength b + Z.of_nat (n * sum_sizes data))) b)),
    (List.length (buf_Data b)), (List.length (doc_BufferViews d)).
  split; [exact Hs|]. split.
  { unfold with_accs. cbn [doc_Accessors set_doc_Accessors]. rewrite nth_error_app2 by lia. replace (_ + k - _)%nat with k by lia. rewrite nth_error_map, Ha. reflexivity. }
  destruct HC as (C1 & C2 & C3 & C4 & C5 & C6). rewrite C1, C2, C3, C4, C5, C6.
  do 4 (split; [reflexivity|]). split; [cbn; rewrite EV; reflexivity|]. split; [reflexivity|]. split; [reflexivity|]. split.
  { split; [lia|]. rewrite Nat2Z.id. split; [|split; [unfold zlen; cbn; lia|]].
    - unfold with_accs. cbn [doc_BufferViews set_doc_BufferViews set_doc_Accessors]. rewrite EV, nth_error_app2 by lia. rewrite Nat.sub_diag. reflexivity.
    - unfold with_accs. cbn [bvw_Buffer mk_view]. unfold zlen. rewrite Nat2Z.id. cbn [doc_Buffers set_doc_BufferViews set_doc_Buffers set_doc_Accessors].
      rewrite nth_error_app2 by lia. rewrite Nat.sub_diag. reflexivity. }
  split.
  { unfold spans. cbn. unfold zlen in *. lia. }
  split; [reflexivity|]. split; [reflexivity|]. cbn. rewrite Hn. reflexivity.
Qed.

Lemma rows_sizes d data d' idx : WriteAccessorsInterleaved d data = Ok (d', Ok idx) -> (2 <= List.length data)%nat ->
  Forall (fun s => (1 <= elem_bytes s)%nat) data.
Proof.
  intros H L. apply Forall_forall. intros s I. apply In_nth_error in I as [k Hk].
  destruct (rows_shape _ _ _ _ _ _ H L Hk) as (c & t & _ & _ & _ & _ & _ & Ks & _). rewrite (elem_bytes_kind _ _ _ Ks).
  destruct (kind_ct_valid _ _ _ Ks) as [Hc Ht]. pose proof (element_size_pos c t Hc Ht). lia.
Qed.

Lemma later_size data k s s' : nth_error data k = Some s -> nth_error data (S k) = Some s' ->
  (sum_sizes (firstn (S k) data) = sum_sizes (firstn k data) + elem_bytes s)%nat.
Proof.
  revert k. induction data as [|x data IH]; intros [|k] H H'; cbn in H; try discriminate.
  - injection H as ->. cbn [firstn]. rewrite (sum_sizes_cons s). cbn. lia.
  - cbn [firstn]. rewrite !sum_sizes_cons. pose proof (IH _ H H'). cbn [firstn] in *. lia.
Qed.
Lemma last_size data k s : nth_error data k = Some s -> S k = List.length data -> (sum_sizes data = sum_sizes (firstn k data) + elem_bytes s)%nat.
Proof.
  revert k. induction data as [|x data IH]; intros [|k] H H'; cbn in H, H'; try discriminate.
  - injection H as ->. destruct data; [|discriminate]. cbn [firstn]. rewrite (sum_sizes_cons s). cbn. lia.
  - cbn [firstn]. rewrite !sum_sizes_cons. rewrite (IH k H) by lia. lia.
Qed.

(** []int8: stored as it should be, but the library crashes when it reads it,
    unless it is the last slice and has one element. *)
Theorem C104_int8 d data d' idx k s :
  WriteAccessorsInterleaved d data = Ok (d', Ok idx) -> (2 <= List.length data)%nat ->
  nth_error data k = Some s -> sk s = SK CByte AScalar -> els s <> [] ->
  (forall v, In (Some v) (doc_BufferViews d') -> modest_view v) -> zlen (els s) < 2 ^ 31 ->
  exists a, nth_error (doc_Accessors d') (List.length (doc_Accessors d) + k) = Some (Some a) /\
    forall buffer p, ReadAccessor d' a buffer p = Panic <-> ~ (List.length (els s) = 1 /\ S k = List.length data)%nat.
Proof.
  intros H L Hk Hs HN M N31. pose proof (rows_sizes _ _ _ _ H L) as HE.
  destruct (rows_shape _ _ _ _ _ _ H L Hk) as (c & t & a & v & b & vo & i & Ks & Ha & A1 & A2 & A3 & A4 & A5 & A6 & A7 & F & SP & V1 & V2 & V3).
  exists a. split; [exact Ha|]. intros buffer p. rewrite Hs in Ks. assert (c = CByte /\ t = AScalar) as [-> ->] by (cbn in Ks; split; congruence).
  assert (MO : modest d' a) by (split; [exact M|]; split; [rewrite A4; exact N31|intros sp E; congruence]).
  destruct (C95_outcome d' a buffer p MO) as [O _]. rewrite O. clear O.
  assert (EB : elem_bytes s = 1%nat) by (unfold elem_bytes; rewrite Hs; reflexivity).
  pose proof (sum_sizes_split _ _ _ Hk) as SS. rewrite EB in SS.
  assert (N1 : (1 <= List.length (els s))%nat) by (destruct (els s); [contradiction|cbn; lia]).
  set (n := List.length (els s)) in *. set (e := sum_sizes data) in *. set (o := sum_sizes (firstn k data)) in *.
  assert (NE : (n * e = e * (n - 1) + e)%nat) by (destruct n; [lia|]; replace (S n - 1)%nat with n by lia; lia).
  assert (E2 : (2 <= e)%nat).
  { unfold e. destruct data as [|s0 [|s1 l]]; cbn in L; try lia. rewrite !sum_sizes_cons. inversion HE as [|? ? E0 HE']; subst. inversion HE'; subst. lia. }
  assert (ZN : zlen (els s) = Z.of_nat n) by reflexivity.
  assert (DC : base_crashes d' a buffer <-> (n < n * e - o)%nat).
  { unfold base_crashes, dense_crashes. rewrite A1, A2, A4, A5, A7. split.
    - intros (_ & _ & [[Q|(Q & _)]|(i' & Ei & Q)]); [lia|discriminate|]. assert (i' = Z.of_nat i) as -> by congruence.
      destruct F as (F1 & F2 & F3 & F4). destruct Q as [Q|(v' & b' & (G1 & G2 & G3 & G4) & _ & Q)].
      + exfalso. destruct Q as [Q|[Q|(v' & Q & R)]]; [lia|congruence|]. assert (v' = v) as -> by congruence.
        destruct R as [R|[R|(b' & R1 & R2 & R3)]]; [lia|congruence|]. destruct SP as (S1 & S2 & S3). lia.
      + assert (v' = v) as -> by congruence. rewrite V3 in Q. destruct Q as [Q|[Q|[_ [(_ & _ & Q)|(Q & _)]]]]; [lia|nia|lia|discriminate].
    - intros Q. split; [reflexivity|]. split; [reflexivity|]. right. exists (Z.of_nat i). split; [reflexivity|]. right. exists v, b. split; [exact F|]. split; [exact SP|].
      right; right. rewrite V3. split.
      + unfold SpecFetch.extent, step. rewrite V2. replace (Z.of_nat e =? 0) with false by lia. change (Z.of_nat (element_size CByte AScalar)) with 1. nia.
      + left. split; [reflexivity|]. split; [reflexivity|]. lia. }
  unfold accessor_crashes. assert (DX : (n < n * e - o)%nat <-> ~ (n = 1 /\ S k = List.length data)%nat).
  { destruct (Nat.eq_dec n 1) as [E1|E1].
    - destruct (Nat.eq_dec (S k) (List.length data)) as [EL|EL].
      + pose proof (last_size _ _ _ Hk EL) as LS. rewrite EB in LS. fold e o in LS. lia.
      + destruct (nth_error data (S k)) as [s'|] eqn:Hk'; [|apply nth_error_None in Hk'; pose proof (proj1 (nth_error_Some data k) ltac:(congruence)); lia].
        pose proof (later_size _ _ _ _ Hk Hk') as LS. rewrite EB in LS. fold o in LS. pose proof (sum_sizes_split _ _ _ Hk') as SS'. rewrite LS in SS'. fold e in SS'.
        rewrite Forall_forall in HE. pose proof (HE s' (nth_error_In _ _ Hk')). lia.
    - assert (e * (n - 1) >= 2 * (n - 1))%nat by nia. lia. }
  rewrite <- DX, <- DC. split; [|intros Q; left; exact Q]. intros [Q|(base & sp & _ & Q & _)]; [exact Q|congruence].
Qed.
Print Assumptions C104_int8.

Lemma first_byte c t b pos y ys : ct_valid c = true -> at_valid t = true -> stored_at c t b pos (y :: ys) -> nth_error b pos = Some (z2b y).
Proof.
  intros Hc Ht S. assert (E : encoded_byte c t (y :: ys) 0 = Some (z2b y)).
  { assert (R : byte_role c t 0 = Some (0%nat, 0%nat)) by (all_ct c t; reflexivity). unfold encoded_byte. rewrite R. cbn [nth Z.of_nat]. rewrite Z.pow_0_r, Z.div_1_r. reflexivity. }
  specialize (S _ _ E). rewrite Nat.add_0_r in S. exact S.
Qed.

(** []uint8: with two elements or more, its second element and the first byte of
    an element of the slice that follows are one byte; if they are to differ, not
    both slices are read back. *)
Theorem C104_uint8 d data d' idx k s k' s' r x y ys :
  WriteAccessorsInterleaved d data = Ok (d', Ok idx) -> (2 <= List.length data)%nat ->
  nth_error data k = Some s -> sk s = SK CUbyte AScalar ->
  follows data k k' r -> nth_error data k' = Some s' -> (r = 1%nat -> sk s' <> SK CUbyte AScalar) ->
  nth_error (els s) 1 = Some [x] -> 0 <= x < 256 -> nth_error (els s') r = Some (y :: ys) -> x <> y mod 256 ->
  (forall v, In (Some v) (doc_BufferViews d') -> modest_view v) -> zlen (els s) < 2 ^ 31 -> zlen (els s') < 2 ^ 31 ->
  exists a a', nth_error (doc_Accessors d') (List.length (doc_Accessors d) + k) = Some (Some a) /\
    nth_error (doc_Accessors d') (List.length (doc_Accessors d) + k') = Some (Some a') /\
    forall buf p buf' p', ~ (ReadAccessor d' a buf p = Ok (mkSlice (read_kind (sk s)) (els s)) /\
                            ReadAccessor d' a' buf' p' = Ok (mkSlice (read_kind (sk s')) (els s'))).
Proof.
  intros H L Hk Hs FO Hk' Hs' E1 X E2 NE M N N'.
  destruct (rows_shape _ _ _ _ _ _ H L Hk) as (c & t & a & v & b & vo & i & Ks & Ha & A1 & A2 & A3 & A4 & A5 & A6 & A7 & F & SP & V1 & V2 & V3).
  destruct (rows_shape _ _ _ _ _ _ H L Hk') as (c' & t' & a' & v' & b' & vo' & i' & Ks' & Ha' & A1' & A2' & A3' & A4' & A5' & A6' & A7' & F' & SP' & V1' & V2' & V3').
  exists a, a'. split; [exact Ha|]. split; [exact Ha'|]. intros buf p buf' p' [R R'].
  rewrite Hs in Ks. assert (c = CUbyte /\ t = AScalar) as [-> ->] by (cbn in Ks; split; congruence).
  rewrite <- A6 in A6'. subst i'. destruct F as (F1 & F2 & F3 & F4), F' as (_ & F2' & _ & F4').
  assert (v' = v) as -> by congruence. assert (b' = b) as -> by congruence. assert (vo' = vo) as -> by lia.
  assert (MO : modest d' a) by (split; [exact M|]; split; [rewrite A4; exact N|intros sp E; congruence]).
  assert (MO' : modest d' a') by (split; [exact M|]; split; [rewrite A4'; exact N'|intros sp E; congruence]).
  assert (EB : elem_bytes s = 1%nat) by (unfold elem_bytes; rewrite Hs; reflexivity).
  destruct (kind_ct_valid _ _ _ Ks') as [Hc' Ht']. pose proof (element_size_pos c' t' Hc' Ht') as EP.
  pose proof (sum_sizes_split _ _ _ Hk) as SS. rewrite EB in SS. pose proof (sum_sizes_split _ _ _ Hk') as SS'. rewrite (elem_bytes_kind _ _ _ Ks') in SS'.
  assert (N2 : (2 <= List.length (els s))%nat) by (apply nth_error_Some; congruence).
  set (n := List.length (els s)) in *. set (e := sum_sizes data) in *. set (o := sum_sizes (firstn k data)) in *. set (o' := sum_sizes (firstn k' data)) in *.
  assert (NN : List.length (els s') = n).
  { assert (e <> 0)%nat by lia. rewrite V3 in V3'. apply Nat2Z.inj in V3'. symmetry. eapply Nat.mul_cancel_r; [|exact V3']. lia. }
  assert (PO : (o + 1 = o' + e * r)%nat).
  { destruct FO as [(-> & -> & FL)|(FL & -> & ->)].
    - pose proof (later_size _ _ _ _ Hk Hk') as LS. rewrite EB in LS. fold o in LS. fold o' in LS. lia.
    - pose proof (last_size _ _ _ Hk FL) as LS. rewrite EB in LS. fold e o in LS. unfold o'. cbn [firstn]. change (sum_sizes []) with 0%nat. lia. }
  pose proof (rows_sizes _ _ _ _ H L) as HE.
  assert (E2' : (2 <= e)%nat).
  { unfold e. destruct data as [|s0 [|s1 l]]; cbn in L; try lia. rewrite !sum_sizes_cons. inversion HE as [|? ? Q1 HE']; subst. inversion HE'; subst. lia. }
  assert (NEE : (n * e = e * (n - 1) + e)%nat) by (destruct n; [lia|]; replace (S n - 1)%nat with n by lia; lia).
  assert (NEL : (e * (n - 1) >= 2 * (n - 1))%nat) by nia.
  (* the byte, read as the second element *)
  assert (B1 : nth_error (buf_Data b) (vo + o + 1) = Some (z2b x)).
  { destruct (C95_outcome d' a buf p MO) as (_ & O & _). rewrite Hs in R. rewrite A1, A2 in O. apply O in R. destruct R as (base & BR & EQ). rewrite A3 in EQ. subst base.
    unfold base_reads, dense_reads in BR. rewrite A5 in BR. destruct BR as (_ & _ & _ & _ & v1 & b1 & (_ & G2 & _ & G4) & _ & _ & _ & _ & EL).
    assert (v1 = v) as -> by congruence. assert (b1 = b) as -> by congruence. specialize (EL _ _ E1). unfold element_of in EL. rewrite A1, A2, A7, V1, V3 in EL. cbn [bytes_only] in EL.
    replace (Z.of_nat 1 <? Z.of_nat (n * e) - Z.of_nat o) with true in EL by lia. destruct EL as [_ EL]. apply first_byte in EL; [|reflexivity|reflexivity].
    replace (Z.to_nat (Z.of_nat vo + Z.of_nat o + Z.of_nat 1)) with (vo + o + 1)%nat in EL by lia. exact EL. }
  (* the same byte, read as the start of the element of the other slice *)
  assert (B2 : nth_error (buf_Data b) (vo + o + 1) = Some (z2b y)).
  { destruct (C95_outcome d' a' buf' p' MO') as (_ & O & _). rewrite (read_kind_ct _ _ _ Ks') in R'. rewrite A1', A2' in O. apply O in R'. destruct R' as (base & BR & EQ). rewrite A3' in EQ. subst base.
    unfold base_reads, dense_reads in BR. rewrite A5' in BR. destruct BR as (_ & _ & _ & _ & v1 & b1 & (_ & G2 & _ & G4) & _ & _ & _ & DC & EL).
    assert (v1 = v) as -> by congruence. assert (b1 = b) as -> by congruence. specialize (EL _ _ E2). unfold element_of in EL. unfold decode_crashes in DC. rewrite A1', A2', A7', V1, V3 in EL. rewrite A1', A2', A4', A7', V3 in DC.
    destruct (bytes_only c' t') eqn:BO.
    - assert (c' = CUbyte /\ t' = AScalar) as [-> ->].
      { destruct c', t'; try discriminate; [|split; reflexivity]. exfalso. apply DC. left. split; [reflexivity|]. split; [reflexivity|]. unfold zlen. rewrite NN.
        change (element_size CByte AScalar) with 1%nat in SS'. lia. }
      assert (r = 0%nat) as ->.
      { destruct FO as [(_ & Q & _)|(_ & _ & Q)]; [exact Q|]. exfalso. apply (Hs' Q). destruct (sk s') as [c0 t0| | | |]; try discriminate. cbn in Ks'. destruct (ct_valid c0 && at_valid t0); [|discriminate]. congruence. }
      change (element_size CUbyte AScalar) with 1%nat in SS'.
      replace (Z.of_nat 0 <? Z.of_nat (n * e) - Z.of_nat o') with true in EL by lia. destruct EL as [_ EL]. apply first_byte in EL; [|reflexivity|reflexivity].
      replace (Z.to_nat (Z.of_nat vo + Z.of_nat o' + Z.of_nat 0)) with (vo + o + 1)%nat in EL by lia. exact EL.
    - destruct EL as [_ EL]. apply first_byte in EL; [|exact Hc'|exact Ht']. unfold step in EL. rewrite V2 in EL. replace (Z.of_nat e =? 0) with false in EL by lia.
      replace (Z.to_nat (Z.of_nat vo + Z.of_nat o' + Z.of_nat e * Z.of_nat r)) with (vo + o + 1)%nat in EL by lia. exact EL. }
  rewrite B1 in B2. injection B2 as B2. apply (f_equal b2z) in B2. rewrite !b2z_z2b in B2. rewrite Z.mod_small in B2 by lia. contradiction.
Qed.
Print Assumptions C104_uint8.

(** Cases that meet the hypotheses: signed bytes beside shorts, and bytes before
    and behind shorts. *)
Definition i8_row := mkSlice (SK CByte AScalar) [[1]; [2]].
Definition u8_row := mkSlice (SK CUbyte AScalar) [[1]; [2]].
Definition u16_row := mkSlice (SK CUshort AScalar) [[515]; [1029]].
Example C104_example :
  (exists d idx, WriteAccessorsInterleaved zero_Document [u16_row; i8_row] = Ok (d, Ok idx) /\
     forall v, In (Some v) (doc_BufferViews d) -> modest_view v) /\
  (exists d idx, WriteAccessorsInterleaved zero_Document [u8_row; u16_row] = Ok (d, Ok idx) /\
     forall v, In (Some v) (doc_BufferViews d) -> modest_view v) /\
  follows [u8_row; u16_row] 0 1 0 /\ 2 <> 515 mod 256 /\
  (exists d idx, WriteAccessorsInterleaved zero_Document [u16_row; u8_row] = Ok (d, Ok idx) /\
     forall v, In (Some v) (doc_BufferViews d) -> modest_view v) /\
  follows [u16_row; u8_row] 1 0 1 /\ 2 <> 1029 mod 256.
Proof.
  assert (V : forall d,
    match doc_BufferViews d with [Some v] => modest_view v | _ => False end -> forall v, In (Some v) (doc_BufferViews d) -> modest_view v).
  { intros d H v I. destruct (doc_BufferViews d) as [|[w|] [|]]; try contradiction. destruct I as [I|[]]. congruence. }
  split; [|split; [|split; [left; cbn; lia|split; [discriminate|split; [|split; [right; cbn; lia|discriminate]]]]]].
  all: do 2 eexists; (split; [vm_compute; reflexivity|]); apply V; vm_compute; repeat split; reflexivity.
Qed.

(** One signed byte behind one short is read back. *)
Example C104_one_example : match WriteAccessorsInterleaved zero_Document [mkSlice (SK CUshort AScalar) [[515]]; mkSlice (SK CByte AScalar) [[1]]] with
  | Ok (d, Ok [_; i]) => match nth_error (doc_Accessors d) (Z.to_nat i) with
      | Some (Some a) => ReadAccessor d a [] fresh_pools = Ok (mkSlice (SK CByte AScalar) [[1]]) | _ => False end
  | _ => False end.
Proof. vm_compute. reflexivity. Qed.
