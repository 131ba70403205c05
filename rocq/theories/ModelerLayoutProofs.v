(** Proofs about modeler/write.go: the layout of what is written, reading it
    back. *)
From Verif Require Import BaseFacts Types Binary SpecLayout BinaryProofs SliceProofs Doc F64 SpecDoc
  ModelerWrite ModelerRead ModelerWriteProofs ModelerReadProofs.

(** ** The sizing loop *)
Lemma TypeOf_inv s c t l : TypeOf s = Ok (c, t, l) -> kind_ct (sk s) = Some (c, t) /\ l = zlen (els s).
Proof.
  unfold TypeOf. destruct s as [k vs]; cbn [sk els]. destruct k; try discriminate; cbn [kind_ct].
  - destruct (ct_valid c0 && at_valid t0); [|discriminate]. intros [= <- <- <-]. auto.
  - intros [= <- <- <-]. auto.
  - intros [= <- <- <-]. auto.
Qed.

Lemma TypeOf_ok s c t : kind_ct (sk s) = Some (c, t) -> TypeOf s = Ok (c, t, zlen (els s)).
Proof. destruct s as [k vs]. cbn [sk els]. apply TypeOf_kind. Qed.

Lemma elem_bytes_kind s c t : kind_ct (sk s) = Some (c, t) -> elem_bytes s = element_size c t.
Proof. unfold elem_bytes. intros ->. reflexivity. Qed.

Lemma elem_bytes_Z s c t : kind_ct (sk s) = Some (c, t) -> SizeOfElement c t = Z.of_nat (elem_bytes s).
Proof.
  intros H. rewrite (elem_bytes_kind _ _ _ H). destruct (kind_ct_valid _ _ _ H).
  apply SizeOfElement_nat; auto.
Qed.

Lemma sum_sizes_cons s data : sum_sizes (s :: data) = (elem_bytes s + sum_sizes data)%nat.
Proof. reflexivity. Qed.

Lemma sum_sizes_in s data : In s data -> (elem_bytes s <= sum_sizes data)%nat.
Proof.
  induction data as [|x data IH]; intros H; [contradiction|]. rewrite sum_sizes_cons.
  destruct H as [->|H]; [lia|]. specialize (IH H). lia.
Qed.

Definition errLengths : error := ErrMsg "interleaved data shall have the same number of elements".

Lemma view_loop_many tgt nd i ref st sz data :
  (1 < nd)%nat -> (0 < i)%nat -> Forall supported data ->
  view_loop tgt nd i ref st sz data =
  Ok (if forallb (fun s => ref =? zlen (els s)) data
      then Ok (st + Z.of_nat (sum_sizes data), sz + ref * Z.of_nat (sum_sizes data))
      else Err errLengths).
Proof.
  intros Hnd. revert i st sz. induction data as [|s data IH]; intros i st sz Hi HS.
  - cbn. do 3 f_equal; cbn; lia.
  - inversion HS as [|? ? [c [t Hs]] HS']; subst. cbn [view_loop].
    rewrite (TypeOf_ok _ _ _ Hs). cbn [bind forallb].
    destruct (i =? 0)%nat eqn:E0; [lia|]. cbn [negb andb].
    destruct (ref =? zlen (els s)) eqn:E1; cbn [negb andb]; [|reflexivity].
    destruct (1 <? nd)%nat eqn:E2; [|lia].
    rewrite IH by (auto; lia). destruct (forallb _ data); [|reflexivity].
    rewrite (elem_bytes_Z _ _ _ Hs), sum_sizes_cons. do 3 f_equal; nia.
Qed.

Lemma view_loop_supported tgt nd i ref st sz data r :
  view_loop tgt nd i ref st sz data = Ok (Ok r) -> Forall supported data.
Proof.
  revert i ref st sz. induction data as [|s data IH]; intros i ref st sz H; [constructor|].
  cbn [view_loop] in H. inv_ok H. destruct x as [[c t] l]. apply TypeOf_inv in Hx as [Hs ->].
  destruct (negb (i =? 0)%nat && negb (ref =? zlen (els s))); [discriminate|].
  constructor; [exists c, t; auto|]. eapply IH. exact H.
Qed.

(** The stride of a view of exactly one slice. *)
Definition single_stride (tgt : Z) (c : ComponentType) (t : AccessorType) : Z :=
  if (tgt =? TargetArrayBuffer) && negb (ByteSize c * Components t =? SizeOfElement c t)
  then SizeOfElement c t else 0.

Lemma view_loop_one tgt s c t :
  kind_ct (sk s) = Some (c, t) ->
  view_loop tgt 1 0 0 0 0 [s] = Ok (Ok (single_stride tgt c t, zlen (els s) * SizeOfElement c t)).
Proof.
  intros H. cbn [view_loop]. rewrite (TypeOf_ok _ _ _ H). cbn [bind Nat.eqb negb andb].
  change (1 <? 1)%nat with false. cbn [view_loop]. unfold single_stride.
  destruct ((tgt =? TargetArrayBuffer) && _); cbn [bind]; rewrite Z.add_0_l; reflexivity.
Qed.

Lemma view_loop_all tgt s data :
  data <> [] -> Forall supported (s :: data) ->
  view_loop tgt (List.length (s :: data)) 0 0 0 0 (s :: data) =
  Ok (if forallb (fun x => zlen (els s) =? zlen (els x)) data
      then Ok (Z.of_nat (sum_sizes (s :: data)), zlen (els s) * Z.of_nat (sum_sizes (s :: data)))
      else Err errLengths).
Proof.
  intros Hne HS. inversion HS as [|? ? [c [t Hs]] HS']; subst.
  cbn [view_loop]. rewrite (TypeOf_ok _ _ _ Hs). cbn [bind Nat.eqb negb andb].
  destruct data as [|s1 data]; [congruence|].
  destruct (1 <? List.length (s :: s1 :: data))%nat eqn:E; [|cbn in E; lia].
  rewrite view_loop_many by (auto; cbn; lia).
  destruct (forallb _ _); [|reflexivity].
  rewrite (elem_bytes_Z _ _ _ Hs), (sum_sizes_cons s). do 3 f_equal; lia.
Qed.

Lemma forallb_same_length s data :
  forallb (fun x => zlen (els s) =? zlen (els x)) data = true <-> same_length (s :: data).
Proof.
  rewrite forallb_forall. split.
  - intros H. assert (G : forall x, In x (s :: data) -> List.length (els x) = List.length (els s)).
    { intros x [->|Hx]; auto. apply H in Hx. unfold zlen in Hx. lia. }
    intros x y Hx Hy. rewrite (G x), (G y); auto.
  - intros H x Hx. specialize (H s x (or_introl eq_refl) (or_intror Hx)). unfold zlen. lia.
Qed.

(** Everything about a successful sizing loop: all elements are of the same
    number n, e bytes apart; st is the recorded stride. *)
Definition sized (data : list slice) (st e n : nat) : Prop :=
  Forall (fun s => exists c t, kind_ct (sk s) = Some (c, t) /\ List.length (els s) = n /\
     eff_stride c t st = e /\ (st = 0 \/ element_size c t <= st)%nat) data /\
  (sum_sizes data = e)%nat /\
  (List.length data = 1%nat \/ (data <> [] /\ st = e)).

Lemma mem_size_packed c t : ct_valid c = true -> at_valid t = true -> (mem_size c t <= element_size c t)%nat.
Proof. intros Hc Ht. all_ct c t; vm_compute; lia. Qed.

Lemma view_loop_sized tgt data st sz :
  data <> [] -> view_loop tgt (List.length data) 0 0 0 0 data = Ok (Ok (st, sz)) ->
  exists st' e n, st = Z.of_nat st' /\ sized data st' e n /\ sz = Z.of_nat (n * e).
Proof.
  intros Hne H. pose proof (view_loop_supported _ _ _ _ _ _ _ _ H) as HS.
  destruct data as [|s [|s1 data]]; [congruence| |].
  - inversion HS as [|? ? [c [t Hs]] _]; subst.
    cbn [List.length] in H. rewrite (view_loop_one _ _ _ _ Hs) in H. injection H as <- <-.
    destruct (kind_ct_valid _ _ _ Hs) as [Hc Ht].
    pose proof (element_size_pos c t Hc Ht) as Hpos.
    assert (E : exists st', single_stride tgt c t = Z.of_nat st' /\ (st' = 0 \/ st' = element_size c t)%nat).
    { unfold single_stride. rewrite SizeOfElement_nat by auto. destruct (_ && _).
      - exists (element_size c t). auto.
      - exists 0%nat. auto. }
    destruct E as (st' & -> & Hst).
    exists st', (element_size c t), (List.length (els s)). split; auto. split.
    + split; [|split].
      * constructor; [|constructor]. exists c, t. repeat split; auto.
        -- unfold eff_stride. destruct (st' =? 0)%nat eqn:E0; lia.
        -- lia.
      * rewrite sum_sizes_cons, (elem_bytes_kind _ _ _ Hs). cbn. lia.
      * left. reflexivity.
    + rewrite SizeOfElement_nat by auto. unfold zlen. lia.
  - rewrite view_loop_all in H by (auto; discriminate).
    destruct (forallb _ _) eqn:EF; [|discriminate]. injection H as <- <-.
    apply forallb_same_length in EF.
    exists (sum_sizes (s :: s1 :: data)), (sum_sizes (s :: s1 :: data)), (List.length (els s)).
    split; auto. split.
    + split; [|split; [reflexivity|right; split; [discriminate|reflexivity]]].
      apply Forall_forall. intros x Hx. rewrite Forall_forall in HS.
      destruct (HS x Hx) as (c & t & Hxk). exists c, t. split; auto.
      destruct (kind_ct_valid _ _ _ Hxk) as [Hc Ht].
      pose proof (element_size_pos c t Hc Ht) as Hpos.
      assert (Hle : (element_size c t <= sum_sizes (s :: s1 :: data))%nat).
      { rewrite <- (elem_bytes_kind _ _ _ Hxk). apply sum_sizes_in. exact Hx. }
      split; [apply EF; cbn in *; tauto|].
      split; [unfold eff_stride; destruct (_ =? 0)%nat eqn:E0; lia|lia].
    + unfold zlen. lia.
Qed.

(** ** The writing loop *)
Lemma div_add_small a b q : (b < q)%nat -> ((q * a + b) / q = a)%nat /\ ((q * a + b) mod q = b)%nat.
Proof.
  intros H. split.
  - symmetry. apply Nat.div_unique with b; auto.
  - symmetry. apply Nat.mod_unique with a; auto.
Qed.

Definition in_lane (base e o w p : nat) : Prop :=
  (base <= p)%nat /\ (o <= (p - base) mod e < o + w)%nat.

Lemma write_data_loop_spec data : forall buf st e n base o,
  Forall wf_slice data ->
  Forall (fun s => exists c t, kind_ct (sk s) = Some (c, t) /\ List.length (els s) = n /\
     eff_stride c t st = e /\ (st = 0 \/ element_size c t <= st)%nat) data ->
  Forall (fun s => sk s = SK CUbyte AScalar -> (st <= 1)%nat) data ->
  (o + sum_sizes data <= e)%nat ->
  (0 < n)%nat \/ (List.length data <= 1)%nat /\ o = 0%nat ->
  List.length buf = (base + n * e)%nat -> zlen buf < 2 ^ 63 ->
  exists buf', write_data_loop buf (Z.of_nat st) (Z.of_nat (base + o)) data = Ok buf' /\
    List.length buf' = List.length buf /\
    (forall p, ~ in_lane base e o (sum_sizes data) p -> nth_error buf' p = nth_error buf p) /\
    (forall k s c t i v, nth_error data k = Some s -> kind_ct (sk s) = Some (c, t) ->
       nth_error (els s) i = Some v ->
       stored_at c t buf' (base + o + sum_sizes (firstn k data) + e * i) v).
Proof.
  induction data as [|s data IH]; intros buf st e n base o HW HK HU Ho Hn HL H63.
  - exists buf. cbn. repeat split; auto. intros [] ? ? ? ? ? [=].
  - inversion HW as [|? ? HW1 HW2]; subst. inversion HK as [|? ? HK1 HK2]; subst.
    inversion HU as [|? ? HU1 HU2]; subst.
    destruct HK1 as (c & t & Hs & Hlen & He & Hst).
    destruct (kind_ct_valid _ _ _ Hs) as [Hc Ht].
    pose proof (element_size_pos c t Hc Ht) as Hpos.
    rewrite sum_sizes_cons, (elem_bytes_kind _ _ _ Hs) in *.
    cbn [write_data_loop].
    assert (Hoff : (base + o <= List.length buf)%nat) by (destruct Hn as [Hn|[Hn ->]]; nia).
    unfold slice_from. unfold zlen at 1.
    destruct ((0 <=? Z.of_nat (base + o)) && (Z.of_nat (base + o) <=? Z.of_nat (List.length buf))) eqn:E1; [|lia].
    rewrite Nat2Z.id. cbn [bind].
    destruct s as [k vs]; cbn [sk els] in *.
    destruct HW1 as (c' & t' & Hk' & Hvs). cbn [sk els] in *.
    rewrite Hk' in Hs. injection Hs as -> ->.
    assert (Hneed : (needed c t e (List.length vs) <= List.length (skipn (base + o) buf))%nat).
    { rewrite skipn_length. unfold needed. rewrite Hlen. destruct n as [|m]; [lia|]. nia. }
    destruct (Write_ok k c t vs (skipn (base + o) buf) st) as (tail' & HWr & HSt); auto.
    { rewrite skipn_length. unfold zlen in H63. lia. }
    { rewrite He. exact Hneed. }
    rewrite HWr. cbn [bind]. rewrite (TypeOf_kind _ _ _ _ Hk'). cbn [bind].
    rewrite SizeOfElement_nat by auto.
    pose proof HSt as [HStl HStn]. rewrite skipn_length in HStl. rewrite He in *.
    set (buf1 := overwrite buf (base + o) tail').
    assert (L1 : List.length buf1 = List.length buf) by (apply overwrite_length; lia).
    assert (N1 : forall p, nth_error buf1 p =
      if (base + o <=? p)%nat then nth_error tail' (p - (base + o)) else nth_error buf p).
    { intros p. unfold buf1. rewrite nth_error_overwrite by lia.
      destruct (base + o <=? p)%nat eqn:E2; cbn [andb]; [|reflexivity].
      destruct (p <? base + o + List.length tail')%nat eqn:E3; [reflexivity|].
      transitivity (@None ascii).
      - apply nth_error_None. lia.
      - symmetry. apply nth_error_None. lia. }
    replace (Z.of_nat (base + o) + Z.of_nat (element_size c t))
      with (Z.of_nat (base + (o + element_size c t))) by lia.
    destruct data as [|s2 data].
    + (* last slice *)
      exists buf1. cbn [write_data_loop]. split; [reflexivity|]. split; [exact L1|]. split.
      * intros p Hp. rewrite N1. destruct (base + o <=? p)%nat eqn:E2; [|reflexivity].
        destruct (Nat.lt_ge_cases p (List.length buf)) as [Hpl|Hpl].
        2:{ transitivity (@None ascii); [apply nth_error_None; lia|symmetry; apply nth_error_None; lia]. }
        rewrite HStn by (rewrite skipn_length; lia).
        rewrite nth_error_skipn'. replace (base + o + (p - (base + o)))%nat with p by lia.
        destruct (nth_error vs _) as [v|] eqn:E3; [|reflexivity].
        destruct (encoded_byte c t v _) as [y|] eqn:E4; [|reflexivity].
        exfalso. apply Hp. apply encoded_byte_bound in E4; auto.
        split; [lia|]. cbn [sum_sizes map list_sum fold_right] in *.
        set (q := (p - (base + o))%nat) in *.
        pose proof (Nat.div_mod q e ltac:(lia)) as DM.
        assert ((p - base) mod e = o + q mod e)%nat as ->; [|lia].
        symmetry. apply Nat.mod_unique with (q / e)%nat; [cbn in Ho; lia|].
        unfold q in DM at 1. lia.
      * intros j s' c' t' i v Hj Hk'' Hi. destruct j as [|j]; [|destruct j; discriminate].
        cbn in Hj. injection Hj as <-. cbn [sk els] in *. rewrite Hk' in Hk''. injection Hk'' as <- <-.
        pose proof (stored_all_stored_at c t _ _ e vs i v Hc Ht ltac:(cbn in Ho; lia) HSt Hneed Hi) as Q.
        intros m y Hm. cbn [firstn sum_sizes map list_sum fold_right].
        rewrite N1. destruct (base + o <=? base + o + 0 + e * i + m)%nat eqn:E2; [|lia].
        specialize (Q m y Hm). rewrite <- Q. f_equal. lia.
    + (* more slices follow *)
      assert (Hn0 : (0 < n)%nat) by (destruct Hn as [Hn|[Hn _]]; [auto|cbn in Hn; lia]).
      destruct (IH buf1 st e n base (o + element_size c t)%nat) as (buf' & HL' & Hlen' & HF' & HS'); auto; try lia.
      { unfold zlen. rewrite L1. exact H63. }
      exists buf'. split; [exact HL'|]. split; [lia|]. split.
      * intros p Hp. rewrite HF'.
        2:{ intros [A B]. apply Hp. split; [exact A|lia]. }
        rewrite N1. destruct (base + o <=? p)%nat eqn:E2; [|reflexivity].
        destruct (Nat.lt_ge_cases p (List.length buf)) as [Hpl|Hpl].
        2:{ transitivity (@None ascii); [apply nth_error_None; lia|symmetry; apply nth_error_None; lia]. }
        rewrite HStn by (rewrite skipn_length; lia).
        rewrite nth_error_skipn'. replace (base + o + (p - (base + o)))%nat with p by lia.
        destruct (nth_error vs _) as [v|] eqn:E3; [|reflexivity].
        destruct (encoded_byte c t v _) as [y|] eqn:E4; [|reflexivity].
        exfalso. apply Hp. apply encoded_byte_bound in E4; auto.
        split; [lia|].
        set (q := (p - (base + o))%nat) in *.
        pose proof (Nat.div_mod q e ltac:(lia)) as DM.
        assert ((p - base) mod e = o + q mod e)%nat as ->; [|lia].
        symmetry. apply Nat.mod_unique with (q / e)%nat; [lia|].
        unfold q in DM at 1. lia.
      * intros j s' c' t' i v Hj Hk'' Hi. destruct j as [|j].
        -- cbn in Hj. injection Hj as <-. cbn [sk els] in *. rewrite Hk' in Hk''. injection Hk'' as <- <-.
           pose proof (stored_all_stored_at c t _ _ e vs i v Hc Ht ltac:(lia) HSt Hneed Hi) as Q.
           intros m y Hm. cbn [firstn sum_sizes map list_sum fold_right].
           pose proof (encoded_byte_bound _ _ _ _ _ Hc Ht Hm) as Hmb.
           rewrite HF'.
           2:{ intros [A B]. replace (base + o + 0 + e * i + m - base)%nat with (e * i + (o + m))%nat in B by lia.
               rewrite (proj2 (div_add_small i (o + m) e ltac:(lia))) in B. lia. }
           rewrite N1. destruct (base + o <=? base + o + 0 + e * i + m)%nat eqn:E2; [|lia].
           specialize (Q m y Hm). rewrite <- Q. f_equal. lia.
        -- cbn [nth_error] in Hj. pose proof (HS' j s' c' t' i v Hj Hk'' Hi) as Q.
           cbn [firstn]. rewrite sum_sizes_cons, (elem_bytes_kind (mkSlice k vs) c t Hk').
           replace (base + o + (element_size c t + sum_sizes (firstn j (s2 :: data))) + e * i)%nat
             with (base + (o + element_size c t) + sum_sizes (firstn j (s2 :: data)) + e * i)%nat by lia.
           exact Q.
Qed.

Lemma read_kind_ct k c t : kind_ct k = Some (c, t) -> read_kind k = SK c t.
Proof.
  destruct k; cbn; try discriminate; try (intros [= <- <-]; reflexivity).
  destruct (ct_valid c0 && at_valid t0); [|discriminate]. intros [= <- <-]. reflexivity.
Qed.

Lemma wf_slice_supported s : wf_slice s -> supported s.
Proof. intros (c & t & H & _). exists c, t. exact H. Qed.

(** Interleaving two or more empty slices panics (write.go:340, slice bounds
    out of range). *)
Lemma write_data_loop_empty buf st s s1 data r :
  write_data_loop buf st (zlen buf) (s :: s1 :: data) = Ok r -> els s = [] -> False.
Proof.
  cbn [write_data_loop]. intros H Hs. inv_ok H. apply slice_from_inv in Hx as [_ ->].
  match type of H with bind ?m _ = _ => destruct m as [b1| |] eqn:E1 end; cbn [bind] in H; try discriminate.
  destruct (TypeOf s) as [[[c t] l]| |] eqn:ET; cbn [bind] in H; try discriminate.
  apply TypeOf_inv in ET as [ET ->]. 
  assert (List.length b1 = List.length buf).
  { unfold Write in E1. rewrite (TypeOf_ok _ _ _ ET), Hs in E1. cbn [bind] in E1.
    change (zlen [] =? 0) with true in E1. cbn iota in E1. injection E1 as <-. apply overwrite_length.
    rewrite skipn_length. unfold zlen. lia. }
  unfold slice_from at 1 in H. destruct (kind_ct_valid _ _ _ ET) as [Hc Ht].
  rewrite SizeOfElement_nat in H by auto. pose proof (element_size_pos c t Hc Ht).
  unfold zlen in H at 2. destruct ((0 <=? _) && _) eqn:E; [unfold zlen in E; lia|]. discriminate.
Qed.

Lemma sized_nth data st e n k s :
  sized data st e n -> nth_error data k = Some s ->
  exists c t, kind_ct (sk s) = Some (c, t) /\ List.length (els s) = n /\
     eff_stride c t st = e /\ (st = 0 \/ element_size c t <= st)%nat.
Proof.
  intros [H _] Hk. rewrite Forall_forall in H. apply H. eapply nth_error_In. exact Hk.
Qed.

Lemma sum_sizes_split data k s :
  nth_error data k = Some s -> (sum_sizes (firstn k data) + elem_bytes s <= sum_sizes data)%nat.
Proof.
  revert k. induction data as [|x data IH]; intros [|k] H; cbn in H; try discriminate.
  - injection H as ->. cbn [firstn]. rewrite (sum_sizes_cons s). cbn. lia.
  - cbn [firstn]. rewrite !sum_sizes_cons. specialize (IH _ H). lia.
Qed.

Theorem writeBufferViews_read d tgt data d' vi :
  writeBufferViews d tgt data = Ok (d', Ok vi) ->
  Forall wf_slice data ->
  (2 <= List.length data -> Forall (fun s => ~ byte_scalar (sk s)) data)%nat ->
  forall k s c t buffer, nth_error data k = Some s -> kind_ct (sk s) = Some (c, t) ->
    (buffer = [] \/ ~ (c = CUint /\ t = AMat3)) ->
    read_dense d' c t (Some vi) (Z.of_nat (sum_sizes (firstn k data))) (zlen (els s)) buffer =
    Ok (mkSlice (SK c t) (els s)).
Proof.
  intros H HW HB k s c t buffer Hk Hs Hbuf.
  assert (Hne : data <> []) by (intros ->; destruct k; discriminate).
  apply writeBufferViews_inv in H as [(e & [=] & _)|H].
  destruct H as (pre & b & stride & size & written & b' & [= ->] & HV & _ & _ & HM & HD & HL & _ & -> & ->).
  destruct (view_loop_sized _ _ _ _ Hne HV) as (st & e & n & -> & Hsz & ->).
  pose proof (sized_nth _ _ _ _ _ _ Hsz Hk) as (c' & t' & Hs' & Hn & He & Hst).
  rewrite Hs in Hs'. injection Hs' as <- <-.
  destruct (kind_ct_valid _ _ _ Hs) as [Hc Ht].
  pose proof (element_size_pos c t Hc Ht) as Hpos.
  pose proof (mem_size_packed c t Hc Ht) as Hmem.
  assert (Hcase : (0 < n)%nat \/ (List.length data <= 1)%nat).
  { destruct (Nat.eq_0_gt_0_cases n) as [->|]; auto. right.
    destruct data as [|s0 [|s1 data]]; cbn; try lia. exfalso.
    pose proof (sized_nth _ _ _ _ 0%nat s0 Hsz eq_refl) as (? & ? & _ & Hn0 & _).
    cbn [Nat.mul Z.of_nat Z.to_nat] in HD. unfold zeros in HD. cbn [repeat] in HD.
    rewrite app_nil_r in HD. eapply write_data_loop_empty; [exact HD|].
    destruct (els s0); [reflexivity|discriminate]. }
  pose proof Hsz as (HF & Hsum & Hone).
  set (base := List.length (buf_Data b)) in *.
  set (buf := buf_Data b ++ zeros (Z.to_nat (Z.of_nat (n * e)))) in *.
  assert (Lb : List.length buf = (base + n * e)%nat).
  { unfold buf. rewrite app_length, zeros_length. unfold base. lia. }
  assert (HMx : Z.of_nat (base + n * e) <= max_alloc) by (unfold zlen in HM; fold base in HM; lia).
  assert (Hm63 : max_alloc < 2 ^ 63) by (vm_compute; reflexivity).
  destruct (write_data_loop_spec data buf st e n base 0%nat) as (buf' & HD' & Hl' & _ & Hst'); auto.
  { apply Forall_forall. intros x Hx Hxk.
    destruct (Nat.lt_ge_cases 1 (List.length data)) as [H2|H2].
    - exfalso. specialize (HB H2). rewrite Forall_forall in HB. apply (HB x Hx). left. exact Hxk.
    - destruct data as [|s0 [|]]; cbn in H2; try lia; [congruence|].
      destruct Hx as [<-|[]]. 
      pose proof (sized_nth _ _ _ _ 0%nat s0 Hsz eq_refl) as (c0 & t0 & K0 & _ & E0 & S0).
      rewrite Hxk in K0. injection K0 as <- <-.
      rewrite sum_sizes_cons in Hsum. unfold elem_bytes in Hsum. rewrite Hxk in Hsum.
      cbn in Hsum. unfold eff_stride in E0. destruct (st =? 0)%nat eqn:Est; lia. }
  { lia. }
  { destruct Hcase as [|]; [left; auto|]. right. auto. }
  { unfold zlen. lia. }
  rewrite Nat.add_0_r in HD'.
  assert (written = buf') as -> by (unfold zlen in HD; fold base in HD; congruence). clear HD'.
  pose proof (sum_sizes_split _ _ _ Hk) as Hspl. rewrite (elem_bytes_kind _ _ _ Hs) in Hspl.
  set (o := sum_sizes (firstn k data)) in *.
  assert (Hfit : (o + needed c t e n <= n * e)%nat \/ n = 0%nat /\ o = 0%nat).
  { destruct n as [|m].
    - right. split; auto. destruct Hcase as [|Hcase]; [lia|].
      destruct data as [|s0 [|]]; cbn in Hcase; try lia; [congruence|].
      destruct k as [|[|k]]; try discriminate. reflexivity.
    - left. cbn [needed]. nia. }
  replace (zlen (els s)) with (Z.of_nat n) by (unfold zlen; lia).
  replace (zlen (doc_BufferViews d)) with (Z.of_nat (List.length (doc_BufferViews d))) by reflexivity.
  rewrite (read_dense_ok _ c t (List.length (doc_BufferViews d))
    (mk_view (zlen pre) (zlen (buf_Data b)) (Z.of_nat (n * e)) (Z.of_nat st) tgt)
    (List.length pre)
    (set_buf_Data buf' (set_buf_ByteLength (i64 (buf_ByteLength b + Z.of_nat (n * e))) b))
    base (n * e)%nat st o n buffer); auto.
  - f_equal. f_equal. cbn [buf_Data set_buf_Data].
    apply nth_error_ext. intros i.
    destruct (nth_error (els s) i) as [v|] eqn:Ei.
    + assert (Hi : (i < n)%nat) by (rewrite <- Hn; apply nth_error_Some; congruence).
      rewrite nth_error_map.
      rewrite nth_error_nth' with (d := 0%nat) by (rewrite seq_length; auto).
      rewrite seq_nth by auto. cbn [option_map plus]. f_equal. rewrite He.
      rewrite Forall_forall in HW. pose proof (HW s (nth_error_In _ _ Hk)) as (c2 & t2 & K2 & W2).
      rewrite Hs in K2. injection K2 as <- <-. rewrite Forall_forall in W2.
      apply stored_at_decode; auto.
      * apply W2. eapply nth_error_In. exact Ei.
      * destruct Hfit as [Hfit|[-> ->]]; [|lia]. rewrite Hl', Lb. unfold needed in Hfit. destruct n; [lia|]. nia.
      * pose proof (Hst' _ _ _ _ _ _ Hk Hs Ei) as Q.
        replace (base + o + e * i)%nat with (base + 0 + o + e * i)%nat by lia. exact Q.
    + rewrite nth_error_map.
      replace (nth_error (seq 0 n) i) with (@None nat); [reflexivity|].
      symmetry. apply nth_error_None. rewrite seq_length. apply nth_error_None in Ei. lia.
  - cbn [doc_BufferViews set_doc_BufferViews]. rewrite nth_error_app2 by lia. rewrite Nat.sub_diag. reflexivity.
  - cbn [doc_Buffers set_doc_BufferViews set_doc_Buffers]. rewrite nth_error_app2 by lia. rewrite Nat.sub_diag. reflexivity.
  - cbn [buf_Data set_buf_Data]. lia.
  - cbn [buf_Data set_buf_Data]. unfold zlen. lia.
  - nia.
  - rewrite He. destruct Hfit as [|[E1 E2]]; [lia|rewrite E1, E2; cbn; lia].
  - rewrite He. unfold fits. destruct n as [|m]; [|cbn [needed]; nia].
    destruct Hcase as [|Hcase]; [lia|].
    assert (e <= 64)%nat.
    { destruct data as [|s0 [|]]; cbn in Hcase; try lia; [congruence|].
      destruct k as [|[|k]]; try discriminate. injection Hk as ->.
      rewrite sum_sizes_cons, (elem_bytes_kind _ _ _ Hs) in Hsum. cbn in Hsum.
      assert (element_size c t <= 64)%nat by (clear - Hc Ht; all_ct c t; vm_compute; lia). lia. }
    cbn [needed]. lia.
  - unfold readable, reads_strided.
    destruct (Nat.lt_ge_cases 1 (List.length data)) as [H2|H2].
    + specialize (HB H2). rewrite Forall_forall in HB. specialize (HB s (nth_error_In _ _ Hk)).
      left. unfold byte_scalar in HB. destruct (sk s) eqn:Esk; cbn in Hs; try discriminate.
      * destruct (ct_valid c0 && at_valid t0); [|discriminate]. injection Hs as <- <-.
        split; [intros E; apply HB; right; exact E|intros E; exfalso; apply HB; left; exact E].
      * injection Hs as <- <-. split; [discriminate|discriminate].
      * injection Hs as <- <-. split; [discriminate|discriminate].
    + assert (Hd : data = [s]).
      { destruct data as [|s0 [|]]; cbn in H2; try lia; [congruence|].
        destruct k as [|[|k]]; try discriminate. injection Hk as ->. reflexivity. }
      subst data. rewrite sum_sizes_cons, (elem_bytes_kind _ _ _ Hs) in Hsum. cbn in Hsum.
      assert (Hk0 : k = 0%nat) by (destruct k as [|[|k]]; [auto|discriminate|discriminate]). subst k.
      assert (o = 0%nat) by reflexivity.
      destruct (ct_eqb c CByte && at_eqb t AScalar) eqn:Eb.
      * right. destruct c, t; try discriminate. split; auto. split; auto.
        cbn in Hsum, He. unfold eff_stride in He. destruct (st =? 0)%nat eqn:Est; cbn in He; lia.
      * left. split; [intros [= -> ->]; discriminate|].
        intros [= -> ->]. cbn in Hsum, He. unfold eff_stride in He. destruct (st =? 0)%nat eqn:Est; cbn in He; lia.
  - nia.
Qed.

(** ** WriteAccessor *)
Theorem WriteAccessor_inv d tgt data d' i :
  WriteAccessor d tgt data = Ok (d', i) ->
  exists c t d1 d2, kind_ct (sk data) = Some (c, t) /\ ensurePadding d = Ok d1 /\
    writeBufferViews d1 tgt [data] = Ok (d2, Ok (zlen (doc_BufferViews d1))) /\
    d' = add_accessor d2 (new_accessor (zlen (doc_BufferViews d1)) 0 c t (zlen (els data))) /\
    i = zlen (doc_Accessors d) /\ doc_Accessors d2 = doc_Accessors d.
Proof.
  intros H. pose proof (WriteAccessor_extends _ _ _ _ _ H) as (_ & -> & _).
  unfold WriteAccessor in H. inv_ok H. inv_ok H. destruct x0 as [d2 j]. inv_ok H. destruct x0 as [[c t] l].
  apply TypeOf_inv in Hx1 as [Hk ->]. injection H as <- _.
  unfold WriteBufferView in Hx0. inv_ok Hx0. destruct x0 as [d3 r].
  pose proof (writeBufferViews_accessors _ _ _ _ _ Hx1) as HA.
  pose proof (ensurePadding_accessors _ _ Hx) as HA'.
  pose proof Hx1 as Hx2. apply writeBufferViews_inv in Hx1 as [(e & -> & -> & HV)|Hr].
  - exfalso. cbn [List.length] in HV. rewrite (view_loop_one _ _ _ _ Hk) in HV. discriminate.
  - destruct Hr as (? & ? & ? & ? & ? & ? & -> & _). injection Hx0 as <- <-.
    exists c, t, x, d3. repeat split; auto. congruence.
Qed.

Lemma nth_error_snoc {A} (l : list A) x : nth_error (l ++ [x]) (List.length l) = Some x.
Proof. rewrite nth_error_app2, Nat.sub_diag by lia. reflexivity. Qed.

Theorem WriteAccessor_read d tgt data d' i :
  WriteAccessor d tgt data = Ok (d', i) -> wf_slice data ->
  exists c t a, kind_ct (sk data) = Some (c, t) /\ i = zlen (doc_Accessors d) /\
    nth_error (doc_Accessors d') (List.length (doc_Accessors d)) = Some (Some a) /\
    a = new_accessor (zlen (doc_BufferViews d)) 0 c t (zlen (els data)) /\
    forall buffer p, (buffer = [] \/ ~ (c = CUint /\ t = AMat3)) ->
      ReadAccessor d' a buffer p = Ok (mkSlice (read_kind (sk data)) (els data)).
Proof.
  intros H HW. apply WriteAccessor_inv in H as (c & t & d1 & d2 & Hk & HP & HV & -> & -> & HA).
  assert (HVs : doc_BufferViews d1 = doc_BufferViews d).
  { apply ensurePadding_inv in HP as (? & ? & ? & ? & _ & -> & _). reflexivity. }
  exists c, t. eexists. split; auto. split; auto. split.
  { cbn [add_accessor doc_Accessors set_doc_Accessors]. rewrite HA. apply nth_error_snoc. }
  split; [rewrite HVs; reflexivity|].
  intros buffer p Hb. unfold ReadAccessor.
  cbn [acr_ComponentType acr_Type acr_BufferView acr_ByteOffset acr_Count acr_Sparse new_accessor
       set_acr_BufferView set_acr_ByteOffset set_acr_ComponentType set_acr_Type set_acr_Count].
  assert (E : read_dense d2 c t (Some (zlen (doc_BufferViews d1))) 0 (zlen (els data)) buffer =
              Ok (mkSlice (SK c t) (els data))).
  { apply (writeBufferViews_read d1 tgt [data] d2 (zlen (doc_BufferViews d1)) HV
       ltac:(constructor; auto) ltac:(cbn; lia) 0%nat data); auto. }
  erewrite (read_dense_mono d2); [| |exact E]; [|apply extends_accessors; apply extends_refl].
  cbn. rewrite (read_kind_ct _ _ _ Hk). reflexivity.
Qed.

(** ** WriteAccessorsInterleaved *)
Lemma accessors_loop_spec data : forall d bv off d' l,
  accessors_loop d bv (Z.of_nat off) data = Ok (d', l) ->
  exists accs, d' = set_doc_Accessors (doc_Accessors d ++ map Some accs) d /\
    List.length accs = List.length data /\
    (forall k s, nth_error data k = Some s -> exists c t, kind_ct (sk s) = Some (c, t) /\
       nth_error accs k = Some (new_accessor bv (Z.of_nat (off + sum_sizes (firstn k data))) c t (zlen (els s)))).
Proof.
  induction data as [|s data IH]; intros d bv off d' l H; cbn [accessors_loop] in H.
  - injection H as <- <-. exists []. split; [|split; [reflexivity|intros [] ? [=]]].
    cbn. rewrite app_nil_r. destruct d; reflexivity.
  - inv_ok H. destruct x as [[c t] n]. apply TypeOf_inv in Hx as [Hk ->].
    rewrite (elem_bytes_Z _ _ _ Hk) in H.
    replace (Z.of_nat off + Z.of_nat (elem_bytes s)) with (Z.of_nat (off + elem_bytes s)) in H by lia.
    inv_ok H. destruct x as [d1 rest]. injection H as <- _.
    apply IH in Hx as (accs & -> & Hl & HN).
    exists (new_accessor bv (Z.of_nat off) c t (zlen (els s)) :: accs). split; [|split].
    + unfold add_accessor. cbn [doc_Accessors set_doc_Accessors map]. rewrite <- app_assoc. reflexivity.
    + cbn. lia.
    + intros [|k] s' Hk'; cbn [nth_error] in *.
      * injection Hk' as <-. exists c, t. split; auto. cbn. rewrite Nat.add_0_r. reflexivity.
      * apply HN in Hk' as (c' & t' & Hc & Hn). exists c', t'. split; auto. rewrite Hn.
        cbn [firstn]. rewrite sum_sizes_cons. do 3 f_equal. lia.
Qed.

Theorem WriteAccessorsInterleaved_read d data d' idx :
  WriteAccessorsInterleaved d data = Ok (d', Ok idx) ->
  Forall wf_slice data ->
  (2 <= List.length data -> Forall (fun s => ~ byte_scalar (sk s)) data)%nat ->
  List.length idx = List.length data /\
  forall k s, nth_error data k = Some s -> exists c t a,
    kind_ct (sk s) = Some (c, t) /\
    nth_error idx k = Some (Z.of_nat (List.length (doc_Accessors d) + k)) /\
    nth_error (doc_Accessors d') (List.length (doc_Accessors d) + k) = Some (Some a) /\
    a = new_accessor (zlen (doc_BufferViews d)) (Z.of_nat (sum_sizes (firstn k data))) c t (zlen (els s)) /\
    forall buffer p, (buffer = [] \/ ~ (c = CUint /\ t = AMat3)) ->
      ReadAccessor d' a buffer p = Ok (mkSlice (read_kind (sk s)) (els s)).
Proof.
  intros H HW HB. pose proof (WriteAccessorsInterleaved_extends _ _ _ _ H) as [_ HI].
  specialize (HI _ eq_refl). subst idx. rewrite map_length, seq_length. split; auto.
  unfold WriteAccessorsInterleaved, WriteBufferViewInterleaved in H.
  inv_ok H. inv_ok H. destruct x0 as [d2 [vi| |]]; try discriminate.
  inv_ok H. destruct x0 as [d3 l]. injection H as <- _.
  pose proof (writeBufferViews_accessors _ _ _ _ _ Hx0) as HA.
  pose proof (ensurePadding_accessors _ _ Hx) as HA'.
  assert (HVs : vi = zlen (doc_BufferViews d)).
  { apply ensurePadding_inv in Hx as (? & ? & ? & ? & _ & -> & _).
    apply writeBufferViews_inv in Hx0 as [(e & [=] & _)|Hr].
    destruct Hr as (? & ? & ? & ? & ? & ? & [= ->] & _). reflexivity. }
  apply (accessors_loop_spec data d2 vi 0%nat) in Hx1 as (accs & -> & Hl & HN).
  intros k s Hk. destruct (HN k s Hk) as (c & t & Hkc & Hn). exists c, t.
  eexists. split; [exact Hkc|]. split.
  { rewrite nth_error_map. assert (k < List.length data)%nat by (apply nth_error_Some; congruence).
    rewrite nth_error_nth' with (d := 0%nat) by (rewrite seq_length; auto).
    rewrite seq_nth by auto. cbn. f_equal. unfold zlen. lia. }
  split.
  { cbn [doc_Accessors set_doc_Accessors]. rewrite HA, HA'.
    rewrite nth_error_app2 by lia. replace (_ + k - _)%nat with k by lia.
    rewrite nth_error_map, Hn. reflexivity. }
  split; [cbn [Nat.add]; rewrite HVs; reflexivity|].
  intros buffer p Hb. unfold ReadAccessor.
  cbn [acr_ComponentType acr_Type acr_BufferView acr_ByteOffset acr_Count acr_Sparse new_accessor
       set_acr_BufferView set_acr_ByteOffset set_acr_ComponentType set_acr_Type set_acr_Count].
  pose proof (writeBufferViews_read _ _ _ _ _ Hx0 HW HB k s c t buffer Hk Hkc Hb) as E.
  cbn [Nat.add].
  erewrite (read_dense_mono d2); [| |exact E]; [|apply extends_accessors; apply extends_refl].
  cbn. rewrite (read_kind_ct _ _ _ Hkc). reflexivity.
Qed.
