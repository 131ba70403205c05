(** What binary.Read and binary.Write do for any stride: C97. *)
From Verif Require Import BaseFacts Types Binary SpecLayout BinaryProofs ModelerWriteProofs SpecFetch FetchProofs SpecPut.

Lemma put_elem_no_err c t b p v e : put_elem c t b p v <> Err e.
Proof.
  unfold put_elem. destruct (_ && _); [|discriminate]. generalize (put_offsets c t). intros l. revert b.
  induction l as [|[o [r k]] l IH]; intros b; cbn [put_all]; [discriminate|].
  unfold index. destruct (_ && _); cbn [bind]; [|discriminate]. destruct (nth_error v _); cbn [bind]; [|discriminate].
  unfold store. destruct (_ && _); cbn [bind]; [|discriminate]. apply IH.
Qed.
Lemma write_loop_back c t b s v1 v2 vs : s < 0 -> - 2 ^ 31 < s -> write_loop c t b s 0 (v1 :: v2 :: vs) = Panic.
Proof.
  intros S1 S2. cbn [write_loop]. pose proof (put_elem_no_err c t b (i64 (s * 0)) v1) as N.
  destruct (put_elem c t b (i64 (s * 0)) v1) as [b1|e|]; cbn [bind]; [|exfalso; eapply N; reflexivity|reflexivity].
  rewrite i64_id by (unfold in_i64; lia). unfold put_elem. replace (0 <=? s * (0 + 1)) with false by lia. reflexivity.
Qed.

(** [covers] from element number [i0] on. *)
Definition covers_from c t step (i0 : nat) (vs : list elem) (p i : nat) (y : byte) : Prop :=
  exists v j, nth_error vs i = Some v /\ encoded_byte c t v j = Some y /\ p = (step * (i0 + i) + j)%nat.
Lemma loop_in_turn c t step : ct_valid c = true -> at_valid t = true -> forall vs b i0, Forall (wf_elem c t) vs ->
  (match vs with [] => 0 | _ => step * (i0 + List.length vs - 1) + element_size c t end <= List.length b)%nat ->
  Z.of_nat (List.length b) < 2 ^ 63 ->
  exists b', write_loop c t b (Z.of_nat step) (Z.of_nat i0) vs = Ok b' /\ List.length b' = List.length b /\
    forall p, (p < List.length b)%nat ->
      (exists i y, covers_from c t step i0 vs p i y /\ (forall i' y', covers_from c t step i0 vs p i' y' -> (i' <= i)%nat) /\ nth_error b' p = Some y) \/
      (forall i y, ~ covers_from c t step i0 vs p i y) /\ nth_error b' p = nth_error b p.
Proof.
  intros Hc Ht. induction vs as [|v vs IH]; intros b i0 W L B.
  - exists b. split; [reflexivity|]. split; [reflexivity|]. intros p _. right. split; [|reflexivity]. intros i y (v & j & E & _). destruct i; discriminate.
  - inversion W as [|? ? W1 W2]; subst. cbn [write_loop List.length] in *.
    rewrite i64_id by (unfold in_i64; nia). replace (Z.of_nat step * Z.of_nat i0) with (Z.of_nat (step * i0)) by lia.
    destruct (put_elem_spec c t b (step * i0) v Hc Ht W1) as (b1 & P1 & L1 & N1); [nia|]. rewrite P1. cbn [bind].
    destruct (IH b1 (S i0) W2) as (b' & P2 & L2 & N2); [rewrite L1; destruct vs; cbn [List.length] in *; nia|rewrite L1; exact B|].
    replace (Z.of_nat i0 + 1) with (Z.of_nat (S i0)) by lia. exists b'. split; [exact P2|]. split; [lia|].
    intros p Hp. destruct (N2 p ltac:(lia)) as [(i & y & (v' & j & C1 & C2 & C3) & M & E)|(M & E)].
    + left. exists (S i), y. split; [exists v', j; split; [exact C1|]; split; [exact C2|lia]|]. split; [|exact E].
      intros [|i'] y' (v2 & j2 & D1 & D2 & D3); [lia|]. apply le_n_S. apply (M i' y'). exists v2, j2. split; [exact D1|]. split; [exact D2|lia].
    + rewrite E, N1.
      assert (LATER : forall i y, ~ covers_from c t step i0 (v :: vs) p (S i) y).
      { intros i y (v2 & j2 & D1 & D2 & D3). apply (M i y). exists v2, j2. split; [exact D1|]. split; [exact D2|lia]. }
      destruct (Nat.leb_spec (step * i0) p) as [Q|Q].
      * destruct (encoded_byte c t v (p - step * i0)) as [y|] eqn:EB.
        -- left. exists O, y. split; [exists v, (p - step * i0)%nat; split; [reflexivity|]; split; [exact EB|lia]|]. split; [|reflexivity].
           intros [|i'] y' C; [lia|]. destruct (LATER i' y' C).
        -- right. split; [|reflexivity]. intros [|i] y C; [|exact (LATER i y C)]. destruct C as (v2 & j2 & D1 & D2 & D3). cbn in D1. assert (v2 = v) by congruence. subst v2.
           replace (p - step * i0)%nat with j2 in EB by lia. congruence.
      * right. split; [|reflexivity]. intros [|i] y C; [|exact (LATER i y C)]. destruct C as (v2 & j2 & D1 & D2 & D3). lia.
Qed.
Lemma loop_put c t step vs b : ct_valid c = true -> at_valid t = true -> Forall (wf_elem c t) vs -> vs <> [] ->
  (step * (List.length vs - 1) + element_size c t <= List.length b)%nat -> Z.of_nat (List.length b) < 2 ^ 63 ->
  exists b', write_loop c t b (Z.of_nat step) 0 vs = Ok b' /\ put_in_turn c t step vs b b'.
Proof.
  intros Hc Ht W NE L B. destruct (loop_in_turn c t step Hc Ht vs b 0 W) as (b' & P & LL & N); [destruct vs; [contradiction|]; cbn [List.length Nat.add] in *; exact L|exact B|].
  exists b'. split; [exact P|]. split; [exact LL|]. exact N.
Qed.

Lemma copy_put vs b : Forall (wf_elem CUbyte AScalar) vs -> put_in_turn CUbyte AScalar 1 vs b (copy b (map (fun v => z2b (hd 0 v)) vs)).
Proof.
  intros W. split; [apply copy_length|]. intros p Hp.
  assert (CB : forall v j y, encoded_byte CUbyte AScalar v j = Some y -> j = O).
  { intros v j y E. apply encoded_byte_bound in E; [|reflexivity|reflexivity]. cbn in E. lia. }
  rewrite nth_error_copy, map_length. replace (p <? List.length b)%nat with true by lia. rewrite andb_true_r.
  destruct (Nat.ltb_spec p (List.length vs)) as [Q|Q].
  - left. destruct (nth_error vs p) as [v|] eqn:E; [|apply nth_error_None in E; lia]. exists p, (z2b (hd 0 v)).
    split; [exists v, O; split; [exact E|]; split; [|lia]|].
    + assert (Wv : wf_elem CUbyte AScalar v) by (rewrite Forall_forall in W; apply W; eapply nth_error_In; exact E). destruct Wv as [LV _].
      destruct v as [|x [|]]; cbn in LV; try discriminate. unfold encoded_byte, byte_role; cbn. rewrite Z.div_1_r. reflexivity.
    + split; [intros i' y' (v2 & j2 & D1 & D2 & D3); apply CB in D2; lia|]. rewrite nth_error_map, E. reflexivity.
  - right. split; [|reflexivity]. intros i y (v2 & j2 & D1 & D2 & D3). apply CB in D2. subst j2.
    assert (i < List.length vs)%nat by (apply nth_error_Some; congruence). lia.
Qed.

(** ** C97 *)
(** Write: nothing for no elements; a short buffer exactly when the extent is
    above the length; a crash exactly when there are at least two elements,
    the stride is negative and the slice is not a []uint8; else the elements
    are put one after the other, also over each other. *)
Theorem C97_write k c t s vs b :
  kind_ct k = Some (c, t) -> Forall (wf_elem c t) vs -> - 2 ^ 31 < s < 2 ^ 31 -> zlen vs < 2 ^ 31 -> zlen b < 2 ^ 62 ->
  match Write b s (mkSlice k vs) with
  | Err e => vs <> [] /\ zlen b < reach c t s (zlen vs) /\ e = ErrShortBuffer
  | Panic => reach c t s (zlen vs) <= zlen b /\ backwards c t s (zlen vs) /\ ~ byte_slice k
  | Ok b' => (vs = [] \/ reach c t s (zlen vs) <= zlen b /\ ~ (backwards c t s (zlen vs) /\ ~ byte_slice k)) /\
      put_in_turn c t (put_pace k c t s) vs b b'
  end.
Proof.
  intros K W SR N L. destruct (kind_ct_valid _ _ _ K) as [Hc Ht]. destruct (size_small c t) as [Z1 _].
  assert (T : TypeOf (mkSlice k vs) = Ok (c, t, zlen vs)).
  { unfold TypeOf. cbn [sk els]. destruct k as [c' t'| | | |]; cbn in K; try discriminate; try (injection K as <- <-; reflexivity).
    destruct (ct_valid c' && at_valid t') eqn:V; [|discriminate]. injection K as <- <-. reflexivity. }
  unfold Write. rewrite T. cbn [bind sk els]. destruct (Z.eqb_spec (zlen vs) 0) as [E0|E0].
  { assert (vs = []) by (destruct vs; [reflexivity|rewrite zlen_cons in E0; pose proof (zlen_nonneg vs); lia]). subst vs.
    split; [left; reflexivity|]. split; [reflexivity|]. intros p _. right. split; [|reflexivity]. intros i y (v & j & E & _). destruct i; discriminate. }
  assert (NE : vs <> []) by (intros ->; apply E0; reflexivity). pose proof (zlen_nonneg vs) as N0.
  rewrite SizeOfElement_nat by auto. fold (pace c t s).
  assert (R : - 2 ^ 31 < pace c t s < 2 ^ 31) by (unfold pace; destruct (s =? 0); lia).
  rewrite (i64_id (pace c t s * (zlen vs - 1))) by (unfold in_i64; nia). rewrite i64_id by (unfold in_i64; nia).
  replace (pace c t s * (zlen vs - 1) + Z.of_nat (element_size c t)) with (reach c t s (zlen vs)) by (unfold reach; lia).
  destruct (Z.ltb_spec (zlen b) (reach c t s (zlen vs))) as [X|X]; [auto|].
  assert (LOOP : ~ byte_slice k ->
    match write_loop c t b (pace c t s) 0 vs with
    | Err e => vs <> [] /\ zlen b < reach c t s (zlen vs) /\ e = ErrShortBuffer
    | Panic => reach c t s (zlen vs) <= zlen b /\ backwards c t s (zlen vs) /\ ~ byte_slice k
    | Ok b' => (vs = [] \/ reach c t s (zlen vs) <= zlen b /\ ~ (backwards c t s (zlen vs) /\ ~ byte_slice k)) /\
        put_in_turn c t (Z.to_nat (pace c t s)) vs b b'
    end).
  { intros NB. destruct (Z_lt_le_dec (pace c t s) 0) as [P|P].
    - destruct vs as [|v1 [|v2 vs]]; [contradiction| |].
      + cbn [write_loop]. rewrite Z.mul_0_r. inversion W as [|? ? W1 _]; subst. unfold reach in X. change (zlen [v1]) with 1 in *. cbn [Z.sub Z.mul Z.add Z.pos_sub Z.opp] in X.
        destruct (put_elem_spec c t b 0 v1 Hc Ht W1) as (b1 & P1 & L1 & N1); [unfold zlen in X; lia|]. change (i64 0) with (Z.of_nat 0). rewrite P1. cbn [bind].
        split; [right; split; [unfold reach; lia|unfold backwards; lia]|]. split; [exact L1|]. intros p Hp. rewrite N1. cbn [Nat.leb]. rewrite Nat.sub_0_r.
        destruct (encoded_byte c t v1 p) as [y|] eqn:EB.
        * left. exists O, y. split; [exists v1, p; split; [reflexivity|]; split; [exact EB|lia]|]. split; [|reflexivity]. intros [|i'] y' (v & j & D & _); [lia|destruct i'; discriminate].
        * right. split; [|reflexivity]. intros [|i] y (v & j & D1 & D2 & D3); [|destruct i; discriminate]. cbn in D1. assert (v = v1) by congruence. subst v.
          replace p with j in EB by lia. congruence.
      + rewrite write_loop_back by lia. split; [exact X|]. split; [|exact NB]. split; [exact P|]. rewrite !zlen_cons. pose proof (zlen_nonneg vs). lia.
    - destruct (loop_put c t (Z.to_nat (pace c t s)) vs b Hc Ht W NE) as (b' & P1 & P2).
      + unfold reach in X. unfold zlen in *. nia.
      + unfold zlen in L. lia.
      + rewrite Z2Nat.id in P1 by lia. rewrite P1. split; [right; split; [exact X|unfold backwards; lia]|exact P2]. }
  destruct k as [c' t'| | | |]; try (cbn in K; discriminate); try (apply LOOP; unfold byte_slice; discriminate).
  assert (c' = c /\ t' = t) as [-> ->] by (cbn in K; destruct (ct_valid c' && at_valid t'); [|discriminate]; split; congruence).
  destruct c, t; try (apply LOOP; unfold byte_slice; discriminate).
  split; [right; split; [exact X|unfold byte_slice; tauto]|]. apply copy_put. exact W.
Qed.
Print Assumptions C97_write.

(** Read: a short buffer exactly when the extent is above the length; a crash
    exactly when there are at least two elements and the stride is negative,
    the slice being neither a []uint8 nor a []int8, or when the slice is a
    []int8 with fewer elements than there are bytes. *)
Theorem C97_read k c t s old b :
  kind_ct k = Some (c, t) -> - 2 ^ 31 < s < 2 ^ 31 -> zlen old < 2 ^ 31 -> zlen b < 2 ^ 62 ->
  let crash := int8_slice k /\ zlen old < zlen b \/ ~ (byte_slice k \/ int8_slice k) /\ backwards c t s (zlen old) in
  match Read b s (mkSlice k old) with
  | Err e => zlen b < reach c t s (zlen old) /\ e = ErrShortBuffer
  | Panic => reach c t s (zlen old) <= zlen b /\ crash
  | Ok r => reach c t s (zlen old) <= zlen b /\ ~ crash /\ sk r = k /\ zlen (els r) = zlen old /\
      forall i e, nth_error (els r) i = Some e -> got k c t s b old i e
  end.
Proof.
  intros K SR N L crash. destruct (kind_ct_valid _ _ _ K) as [Hc Ht]. pose proof (zlen_nonneg old) as N0.
  pose proof (Read_fate_any c t b s old (zlen old) Hc Ht SR (conj N0 N) L eq_refl) as H. cbv zeta in H.
  change (rd_step c t s) with (pace c t s) in H. fold (reach c t s (zlen old)) in H.
  assert (SW : match Read b s (mkSlice (SK c t) old) with
               | Ok r => Read b s (mkSlice k old) = Ok (mkSlice k (els r))
               | Err e => Read b s (mkSlice k old) = Err e
               | Panic => Read b s (mkSlice k old) = Panic
               end).
  { destruct k as [c' t'| | | |]; try (cbn in K; discriminate).
    - assert (c' = c /\ t' = t) as [-> ->] by (cbn in K; destruct (ct_valid c' && at_valid t'); [|discriminate]; split; congruence).
      destruct H as [(_ & ->)|[(_ & _ & ->)|(_ & _ & vs & -> & _)]]; reflexivity.
    - cbn in K. injection K as <- <-. unfold Read. cbn [TypeOf sk els ct_valid at_valid andb bind]. destruct (zlen b <? _); [reflexivity|]. destruct (read_loop _ _ _ _ _ _); reflexivity.
    - cbn in K. injection K as <- <-. unfold Read. cbn [TypeOf sk els ct_valid at_valid andb bind]. destruct (zlen b <? _); [reflexivity|]. destruct (read_loop _ _ _ _ _ _); reflexivity. }
  assert (BY : (c = CByte /\ t = AScalar <-> int8_slice k) /\ (bytes_only c t = true <-> byte_slice k \/ int8_slice k)).
  { unfold byte_slice, int8_slice. destruct k as [c' t'| | | |]; try (cbn in K; discriminate).
    - assert (c' = c /\ t' = t) as [-> ->] by (cbn in K; destruct (ct_valid c' && at_valid t'); [|discriminate]; split; congruence).
      split; [split; [intros [-> ->]; reflexivity|intros [= -> ->]; auto]|]. destruct c, t; cbn; split; intros HH; try discriminate; auto; destruct HH as [HH|HH]; discriminate.
    - cbn in K. injection K as <- <-. split; split; intros HH; [destruct HH; discriminate|discriminate|discriminate|destruct HH; discriminate].
    - cbn in K. injection K as <- <-. split; split; intros HH; [destruct HH; discriminate|discriminate|discriminate|destruct HH; discriminate]. }
  destruct BY as [B1 B2].
  assert (CR : crash <-> c = CByte /\ t = AScalar /\ zlen old < zlen b \/ bytes_only c t = false /\ 2 <= zlen old /\ pace c t s < 0).
  { unfold crash, backwards. assert (B3 : ~ (byte_slice k \/ int8_slice k) <-> bytes_only c t = false) by (rewrite <- B2; destruct (bytes_only c t); split; congruence).
    rewrite B3. tauto. }
  destruct H as [(H1 & H2)|[(H1 & H2 & H3)|(H1 & H2 & vs & H3 & H4 & H5)]].
  - rewrite H2 in SW. rewrite SW. auto.
  - rewrite H3 in SW. rewrite SW. split; [exact H1|]. apply CR. exact H2.
  - rewrite H3 in SW. cbn [els] in SW. rewrite SW. cbn [sk els]. split; [exact H1|]. split; [rewrite CR; exact H2|]. split; [reflexivity|]. split; [exact H4|].
    intros i e E. specialize (H5 i e E). unfold elem_old in H5. unfold got. destruct (bytes_only c t).
    + pose proof (proj1 B2 eq_refl) as BB. destruct (Z.ltb_spec (Z.of_nat i) (zlen b)) as [Q|Q]; [left; tauto|right; left; tauto].
    + right. right. split; [intros BB; apply B2 in BB; discriminate|exact H5].
Qed.
Print Assumptions C97_read.

(** Slices of other types crash both. *)
Theorem C97_unsupported k vs b s : kind_ct k = None -> Write b s (mkSlice k vs) = Panic /\ Read b s (mkSlice k vs) = Panic.
Proof.
  intros K. assert (T : TypeOf (mkSlice k vs) = Panic).
  { unfold TypeOf. cbn [sk]. destruct k as [c t| | | |]; cbn in K; try discriminate; try reflexivity. destruct (ct_valid c && at_valid t); [discriminate|reflexivity]. }
  unfold Write, Read. rewrite T. split; reflexivity.
Qed.
Print Assumptions C97_unsupported.

(** Overlapping elements: the later one wins; the padding of a vector is left
    alone.  A negative stride crashes, except for a []uint8. *)
Example C97_example :
  let v3 := mkSlice (SK CUbyte AVec3) [[1; 2; 3]; [4; 5; 6]] in
  Write (map z2b [9; 9; 9; 9; 9; 9; 9]) 2 v3 = Ok (map z2b [1; 2; 4; 5; 6; 9; 9]) /\
  Write (map z2b [9; 9; 9; 9; 9]) 2 v3 = Err ErrShortBuffer /\
  Write (map z2b [9; 9; 9; 9; 9]) (-2) v3 = Panic /\
  Write (map z2b [9]) (-2) (mkSlice (SK CUbyte AScalar) [[1]; [2]]) = Ok (map z2b [1]) /\
  Read (map z2b [7]) (-2) (mkSlice (SK CUbyte AScalar) [[1]; [2]]) = Ok (mkSlice (SK CUbyte AScalar) [[7]; [2]]) /\
  Read (map z2b [7; 8]) 0 (mkSlice (SK CByte AScalar) [[1]]) = Panic /\
  reach CUbyte AVec3 2 2 = 6 /\ reach CUbyte AScalar (-2) 2 = -1.
Proof. cbv zeta. repeat split; vm_compute; reflexivity. Qed.
