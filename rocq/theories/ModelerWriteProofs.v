(** Proofs about modeler/write.go: appending, validity, layout. *)
From Verif Require Import BaseFacts Types Binary SpecLayout BinaryProofs Doc F64 ModelerWrite SpecDoc.

(** ** Length preservation of binary.Write *)
Lemma store_length w b off x b' : 0 <= w -> store w b off x = Ok b' -> List.length b' = List.length b.
Proof.
  unfold store. intros Hw H. destruct ((0 <=? off) && (off + w <=? zlen b)) eqn:E; [|discriminate].
  injection H as <-. apply overwrite_length. rewrite le_bytes_length. unfold zlen in E. lia.
Qed.

Lemma put_all_length w base nc tbl v b b' :
  0 <= w -> put_all w base nc tbl v b = Ok b' -> List.length b' = List.length b.
Proof.
  intros Hw. revert b. induction tbl as [|[o [r k]] tbl IH]; cbn [put_all]; intros b H.
  - injection H as <-. reflexivity.
  - destruct (index v (r * nc + k)); cbn [bind] in H; try discriminate.
    destruct (store w b (base + o) a) eqn:E; cbn [bind] in H; try discriminate.
    apply IH in H. apply store_length in E; auto. congruence.
Qed.

Lemma put_elem_length c t b base v b' : put_elem c t b base v = Ok b' -> List.length b' = List.length b.
Proof.
  unfold put_elem. destruct ((0 <=? base) && (base <=? zlen b)); [|discriminate].
  apply put_all_length. destruct c; cbn; lia.
Qed.

Lemma write_loop_length c t b e i vs b' :
  write_loop c t b e i vs = Ok b' -> List.length b' = List.length b.
Proof.
  revert b i. induction vs as [|v vs IH]; cbn [write_loop]; intros b i H.
  - injection H as <-. reflexivity.
  - destruct (put_elem c t b (i64 (e * i)) v) eqn:E; cbn [bind] in H; try discriminate.
    apply IH in H. apply put_elem_length in E. congruence.
Qed.

Lemma copy_length {A} (dst src : list A) : List.length (copy dst src) = List.length dst.
Proof. unfold copy. rewrite app_length, firstn_length, skipn_length. lia. Qed.

Lemma Write_length b stride d b' : Write b stride d = Ok b' -> List.length b' = List.length b.
Proof.
  unfold Write. destruct (TypeOf d) as [[[c t] n]| |]; cbn [bind]; try discriminate.
  destruct (n =? 0); [intros [= <-]; reflexivity|].
  destruct (zlen b <? _); [discriminate|].
  destruct (sk d) as [[] []| | | |]; try (apply write_loop_length).
  intros [= <-]. apply copy_length.
Qed.

(** ** The data loop only touches what is past its offset *)
Lemma slice_from_inv {A} (l : list A) lo r :
  slice_from l lo = Ok r -> 0 <= lo <= zlen l /\ r = skipn (Z.to_nat lo) l.
Proof.
  unfold slice_from. destruct ((0 <=? lo) && (lo <=? zlen l)) eqn:E; [|discriminate].
  intros [= <-]. split; [lia|reflexivity].
Qed.

Lemma SizeOfElement_nonneg c t : 0 <= SizeOfElement c t.
Proof. destruct c, t; cbn; lia. Qed.

Lemma write_data_loop_prefix buf stride off data buf' :
  0 <= off -> write_data_loop buf stride off data = Ok buf' ->
  List.length buf' = List.length buf /\
  forall n, (n <= Z.to_nat off)%nat -> firstn n buf' = firstn n buf.
Proof.
  revert buf off. induction data as [|d data IH]; cbn [write_data_loop]; intros buf off Ho H.
  - injection H as <-. split; auto.
  - destruct (slice_from buf off) as [tail| |] eqn:E; cbn [bind] in H; try discriminate.
    apply slice_from_inv in E as [Hb ->].
    match type of H with bind ?m _ = _ => destruct m as [b1| |] eqn:E1 end; cbn [bind] in H; try discriminate.
    destruct (TypeOf d) as [[[c a] l]| |]; cbn [bind] in H; try discriminate.
    apply IH in H; [|pose proof (SizeOfElement_nonneg c a); lia].
    assert (Hb1 : List.length b1 = List.length buf /\
        forall n, (n <= Z.to_nat off)%nat -> firstn n b1 = firstn n buf).
    { destruct (Write (skipn (Z.to_nat off) buf) stride d) as [t'| |] eqn:EW; try discriminate.
      - injection E1 as <-. apply Write_length in EW. rewrite skipn_length in EW.
        unfold zlen in Hb. split.
        + apply overwrite_length. lia.
        + intros n Hn. unfold overwrite. rewrite firstn_app.
          rewrite firstn_firstn, Nat.min_l by lia.
          rewrite firstn_length, Nat.min_l by lia.
          replace (n - Z.to_nat off)%nat with 0%nat by lia. cbn. apply app_nil_r.
      - injection E1 as <-. split; auto. }
    destruct Hb1 as [L1 F1], H as [L F]. split; [congruence|].
    intros n Hn. rewrite F by (pose proof (SizeOfElement_nonneg c a); lia). apply F1. exact Hn.
Qed.

(** ** lastBuffer *)
Definition last_buffer_is (d : Document) (pre : list (option Buffer)) (b : Buffer) : Prop :=
  doc_Buffers d = pre ++ [Some b] \/ (doc_Buffers d = [] /\ pre = [] /\ b = zero_Buffer).

Lemma doc_Buffers_set v d : doc_Buffers (set_doc_Buffers v d) = v.
Proof. reflexivity. Qed.

Lemma set_nth_last {A} (pre : list A) x y : set_nth (List.length pre) y (pre ++ [x]) = pre ++ [y].
Proof. induction pre as [|p pre IH]; cbn; [reflexivity|]. rewrite IH. reflexivity. Qed.

Lemma lastBuffer_inv d d' b :
  lastBuffer d = Ok (d', b) ->
  exists pre, last_buffer_is d pre b /\ d' = set_doc_Buffers (pre ++ [Some b]) d.
Proof.
  unfold lastBuffer. intros H.
  destruct (doc_Buffers d) as [|x l] eqn:E.
  - vm_compute in H. injection H as <- <-. exists []. split; [right; auto|]. reflexivity.
  - remember (x :: l) as l0 eqn:El0.
    assert (Hl : exists pre z, l0 = pre ++ [z]).
    { destruct (exists_last (l := l0)) as (pre & z & Hz); [rewrite El0; discriminate|]. eauto. }
    destruct Hl as (pre & z & Hz).
    rewrite E, Hz in H.
    unfold index in H. rewrite zlen_app in H. unfold zlen in H. cbn [List.length] in H.
    destruct ((0 <=? _) && _) eqn:E2; [|discriminate].
    replace (Z.to_nat (Z.of_nat (List.length pre) + Z.of_nat 1 - 1)) with (List.length pre) in H by lia.
    rewrite nth_error_app2, Nat.sub_diag in H by lia. cbn in H.
    destruct z as [b0|]; cbn in H; [|discriminate]. injection H as <- <-.
    exists pre. split; [left; rewrite E; exact Hz|].
    rewrite <- Hz, <- E. destruct d; reflexivity.
Qed.

Lemma lastBuffer_ok d pre b :
  last_buffer_is d pre b -> lastBuffer d = Ok (set_doc_Buffers (pre ++ [Some b]) d, b).
Proof.
  intros [H|(H & -> & ->)]; unfold lastBuffer; rewrite H; [|reflexivity].
  destruct (pre ++ [Some b]) as [|x l] eqn:E; [destruct pre; discriminate|].
  rewrite H. rewrite <- E in H |- *. unfold index. rewrite zlen_app. unfold zlen. cbn [List.length].
  destruct ((0 <=? _) && _) eqn:E2; [|lia].
  replace (Z.to_nat (Z.of_nat (List.length pre) + Z.of_nat 1 - 1)) with (List.length pre) by lia.
  rewrite nth_error_app2, Nat.sub_diag by lia. cbn.
  f_equal. f_equal. rewrite <- H. destruct d; reflexivity.
Qed.

Lemma set_lastBuffer_app d pre b b' :
  set_lastBuffer (set_doc_Buffers (pre ++ [Some b]) d) b' = set_doc_Buffers (pre ++ [Some b']) d.
Proof.
  unfold set_lastBuffer. rewrite doc_Buffers_set, app_length. cbn [List.length].
  replace (List.length pre + 1 - 1)%nat with (List.length pre) by lia.
  rewrite set_nth_last. reflexivity.
Qed.

Lemma zlen_zeros n : 0 <= n -> zlen (zeros (Z.to_nat n)) = n.
Proof. intros. unfold zlen, zeros. rewrite repeat_length. lia. Qed.

Lemma zlen_snoc {A} (l : list A) x : zlen (l ++ [x]) - 1 = zlen l.
Proof. rewrite zlen_app. unfold zlen. cbn [List.length]. lia. Qed.

Lemma grow_inv data n r :
  grow data n = Ok r -> 0 <= n /\ zlen data + n <= max_alloc /\ r = data ++ zeros (Z.to_nat n).
Proof.
  unfold grow. destruct ((n <? 0) || (max_alloc <? zlen data + n)) eqn:E; [discriminate|].
  intros [= <-]. split; [lia|]. split; [lia|reflexivity].
Qed.

Lemma getPadding_spec n : 0 <= n -> 0 <= getPadding n < 4 /\ (n + getPadding n) mod 4 = 0.
Proof.
  intros Hn. unfold getPadding. rewrite Z.rem_mod_nonneg by lia.
  destruct (n mod 4 =? 0) eqn:E; lia.
Qed.

Lemma ensurePadding_inv d d' :
  ensurePadding d = Ok d' ->
  exists pre b b' pad, last_buffer_is d pre b /\
    d' = set_doc_Buffers (pre ++ [Some b']) d /\
    0 <= pad < 4 /\
    b' = set_buf_ByteLength (i64 (buf_ByteLength b + pad)) (set_buf_Data (buf_Data b ++ zeros (Z.to_nat pad)) b) /\
    zlen (buf_Data b') mod 4 = 0 /\ zlen (buf_Data b') <= max_alloc.
Proof.
  unfold ensurePadding. intros H.
  destruct (lastBuffer d) as [[d1 b]| |] eqn:E; cbn [bind] in H; try discriminate.
  apply lastBuffer_inv in E as (pre & Hl & ->).
  destruct (grow (buf_Data b) _) as [g| |] eqn:G; cbn [bind] in H; try discriminate.
  apply grow_inv in G as (G1 & G2 & ->). injection H as <-.
  pose proof (getPadding_spec (zlen (buf_Data b)) (zlen_nonneg _)) as [P1 P2].
  exists pre, b. eexists. exists (getPadding (zlen (buf_Data b))).
  split; [exact Hl|]. split; [apply set_lastBuffer_app|]. split; [exact P1|].
  split; [reflexivity|]. cbn [buf_Data set_buf_ByteLength set_buf_Data].
  rewrite zlen_app, zlen_zeros by lia. lia.
Qed.

Definition mk_view (buffer offset len stride target : Z) : BufferView :=
  mkBufferView [] VNull buffer offset len stride target "".

Lemma writeBufferViews_inv d target data d' r :
  writeBufferViews d target data = Ok (d', r) ->
  (exists e, r = Err e /\ d' = d /\ view_loop target (List.length data) 0 0 0 0 data = Ok (Err e)) \/
  (exists pre b stride size written b',
     r = Ok (zlen (doc_BufferViews d)) /\
     view_loop target (List.length data) 0 0 0 0 data = Ok (Ok (stride, size)) /\
     last_buffer_is d pre b /\ 0 <= size /\
     zlen (buf_Data b) + size <= max_alloc /\
     write_data_loop (buf_Data b ++ zeros (Z.to_nat size)) stride (zlen (buf_Data b)) data = Ok written /\
     zlen written = zlen (buf_Data b) + size /\
     firstn (List.length (buf_Data b)) written = buf_Data b /\
     b' = set_buf_Data written (set_buf_ByteLength (i64 (buf_ByteLength b + size)) b) /\
     d' = set_doc_BufferViews
            (doc_BufferViews d ++ [Some (mk_view (zlen pre) (zlen (buf_Data b)) size stride target)])
            (set_doc_Buffers (pre ++ [Some b']) d)).
Proof.
  unfold writeBufferViews. intros H.
  destruct (view_loop target (List.length data) 0 0 0 0 data) as [[[stride size]|e|]| |] eqn:EV;
    cbn [bind] in H; try discriminate.
  2:{ injection H as <- <-. left. eauto. }
  right.
  destruct (lastBuffer d) as [[d1 b]| |] eqn:E; cbn [bind] in H; try discriminate.
  apply lastBuffer_inv in E as (pre & Hl & ->).
  destruct (grow (buf_Data b) size) as [g| |] eqn:G; cbn [bind] in H; try discriminate.
  apply grow_inv in G as (G1 & G2 & ->).
  destruct (write_data_loop _ _ _ data) as [written| |] eqn:W; cbn [bind] in H; try discriminate.
  injection H as <- <-.
  destruct (write_data_loop_prefix _ _ _ _ _ (zlen_nonneg _) W) as [WL WF].
  rewrite app_length in WL. unfold zeros in WL. rewrite repeat_length in WL.
  exists pre, b, stride, size, written. eexists.
  rewrite set_lastBuffer_app. split.
  { f_equal. cbn [doc_BufferViews set_doc_BufferViews set_doc_Buffers]. rewrite zlen_app.
    unfold zlen at 2. cbn [List.length]. lia. }
  split; [reflexivity|]. split; [exact Hl|]. split; [exact G1|]. split; [exact G2|].
  split; [exact W|]. split; [unfold zlen; lia|]. split.
  { rewrite WF by (unfold zlen; lia). rewrite firstn_app_exact by reflexivity. reflexivity. }
  split; [reflexivity|].
  cbn [doc_BufferViews set_doc_Buffers doc_Buffers].
  rewrite app_length. cbn [List.length].
  replace (List.length pre + 1 - 1)%nat with (List.length pre) by lia.
  rewrite set_nth_last, zlen_snoc. reflexivity.
Qed.

(** ** extends *)
Lemma buffer_extends_refl b : buffer_extends b b.
Proof. split; [exists []; rewrite app_nil_r; reflexivity|]. auto. Qed.

Lemma buffer_extends_trans a b c : buffer_extends a b -> buffer_extends b c -> buffer_extends a c.
Proof.
  intros ([m1 H1] & A1 & A2 & A3 & A4) ([m2 H2] & B1 & B2 & B3 & B4). split.
  - exists (m1 ++ m2). rewrite H2, H1, app_assoc. reflexivity.
  - repeat split; congruence.
Qed.

Lemma opt_rel_refl {A} (R : A -> A -> Prop) : (forall a, R a a) -> forall x, opt_rel R x x.
Proof. intros H [x|]; cbn; auto. Qed.

Lemma opt_rel_trans {A} (R : A -> A -> Prop) : (forall a b c, R a b -> R b c -> R a c) ->
  forall x y z, opt_rel R x y -> opt_rel R y z -> opt_rel R x z.
Proof. intros H [x|] [y|] [z|]; cbn; eauto; contradiction. Qed.

Lemma extends_refl d : extends d d.
Proof.
  repeat split; try (exists []; rewrite app_nil_r; reflexivity).
  intros i x H. exists x. split; auto. apply opt_rel_refl. apply buffer_extends_refl.
Qed.

Lemma extends_trans a b c : extends a b -> extends b c -> extends a c.
Proof.
  intros ([l1 A1] & [l2 A2] & [l3 A3] & A4 & A5) ([m1 B1] & [m2 B2] & [m3 B3] & B4 & B5).
  repeat split.
  - exists (l1 ++ m1). rewrite B1, A1, app_assoc. reflexivity.
  - exists (l2 ++ m2). rewrite B2, A2, app_assoc. reflexivity.
  - exists (l3 ++ m3). rewrite B3, A3, app_assoc. reflexivity.
  - intros i x H. apply A4 in H as (y & H & R). apply B4 in H as (z & H & R').
    exists z. split; auto. eapply opt_rel_trans; eauto. apply buffer_extends_trans.
  - congruence.
Qed.

Lemma extends_set_last d pre b b' :
  last_buffer_is d pre b -> buffer_extends b b' -> extends d (set_doc_Buffers (pre ++ [Some b']) d).
Proof.
  intros Hl Hb. repeat split; try (exists []; rewrite app_nil_r; reflexivity).
  intros i x H. cbn [doc_Buffers set_doc_Buffers].
  destruct Hl as [Hl|(Hl & -> & ->)]; rewrite Hl in H; [|destruct i; discriminate].
  destruct (Nat.lt_ge_cases i (List.length pre)) as [Hi|Hi].
  - rewrite nth_error_app1 in H |- * by auto. exists x. split; auto.
    apply opt_rel_refl. apply buffer_extends_refl.
  - rewrite nth_error_app2 in H |- * by auto.
    destruct (i - List.length pre)%nat as [|k]; cbn in *; [|destruct k; discriminate].
    injection H as <-. exists (Some b'). split; auto.
Qed.

Lemma extends_views d d1 l :
  extends d d1 -> extends d (set_doc_BufferViews (doc_BufferViews d1 ++ l) d1).
Proof.
  intros (A1 & [m A2] & A3 & A4 & A5). repeat split; auto.
  exists (m ++ l). cbn. rewrite A2, app_assoc. reflexivity.
Qed.

Lemma extends_accessors d d1 l :
  extends d d1 -> extends d (set_doc_Accessors (doc_Accessors d1 ++ l) d1).
Proof.
  intros ([m A1] & A2 & A3 & A4 & A5). repeat split; auto.
  exists (m ++ l). cbn. rewrite A1, app_assoc. reflexivity.
Qed.

Lemma extends_images d d1 l :
  extends d d1 -> extends d (set_doc_Images (doc_Images d1 ++ l) d1).
Proof.
  intros (A1 & A2 & [m A3] & A4 & A5). repeat split; auto.
  exists (m ++ l). cbn. rewrite A3, app_assoc. reflexivity.
Qed.

Lemma set_nth_app2 {A} (l m : list A) n x :
  (List.length l <= n)%nat -> set_nth n x (l ++ m) = l ++ set_nth (n - List.length l) x m.
Proof.
  revert n; induction l as [|y l IH]; intros n H; cbn in *.
  - rewrite Nat.sub_0_r. reflexivity.
  - destruct n; [lia|]. cbn. rewrite IH by lia. reflexivity.
Qed.

Lemma index_inv {A} (l : list A) i a :
  index l i = Ok a -> 0 <= i < zlen l /\ nth_error l (Z.to_nat i) = Some a.
Proof.
  unfold index. destruct ((0 <=? i) && (i <? zlen l)) eqn:E; [|discriminate].
  destruct (nth_error l (Z.to_nat i)); [|discriminate]. intros [= <-]. split; [lia|reflexivity].
Qed.

Lemma index_ok {A} (l : list A) n a : nth_error l n = Some a -> index l (Z.of_nat n) = Ok a.
Proof.
  intros H. unfold index. assert (n < List.length l)%nat by (apply nth_error_Some; congruence).
  unfold zlen. destruct ((0 <=? Z.of_nat n) && _) eqn:E; [|lia]. rewrite Nat2Z.id, H. reflexivity.
Qed.

Lemma update_accessor_inv d i f d' :
  update_accessor d i f = Ok d' ->
  exists n a, i = Z.of_nat n /\ nth_error (doc_Accessors d) n = Some (Some a) /\
    d' = set_doc_Accessors (set_nth n (Some (f a)) (doc_Accessors d)) d.
Proof.
  unfold update_accessor. intros H.
  destruct (index (doc_Accessors d) i) as [a| |] eqn:E; cbn [bind] in H; try discriminate.
  apply index_inv in E as [H1 H2]. destruct a as [a|]; cbn [deref bind] in H; try discriminate.
  unfold set_index in H. destruct ((0 <=? i) && (i <? zlen (doc_Accessors d))) eqn:E2; [|lia].
  cbn [bind] in H. injection H as <-.
  exists (Z.to_nat i), a. split; [lia|]. split; auto.
Qed.

Lemma update_accessor_ok d n a f :
  nth_error (doc_Accessors d) n = Some (Some a) ->
  update_accessor d (Z.of_nat n) f = Ok (set_doc_Accessors (set_nth n (Some (f a)) (doc_Accessors d)) d).
Proof.
  intros H. unfold update_accessor. rewrite (index_ok _ _ _ H). cbn [bind deref].
  unfold set_index. assert (n < List.length (doc_Accessors d))%nat by (apply nth_error_Some; congruence).
  unfold zlen. destruct ((0 <=? Z.of_nat n) && _) eqn:E; [|lia]. cbn [bind]. rewrite Nat2Z.id. reflexivity.
Qed.

Lemma extends_update d d1 i f d2 :
  extends d d1 -> zlen (doc_Accessors d) <= i -> update_accessor d1 i f = Ok d2 -> extends d d2.
Proof.
  intros ([m A1] & A2 & A3 & A4 & A5) Hi H.
  apply update_accessor_inv in H as (n & a & -> & H & ->). unfold zlen in Hi.
  repeat split; auto. cbn [doc_Accessors set_doc_Accessors].
  rewrite A1, set_nth_app2 by lia. eauto.
Qed.

(** ** Every writer extends the document *)
Lemma ensurePadding_extends d d' : ensurePadding d = Ok d' -> extends d d'.
Proof.
  intros H. apply ensurePadding_inv in H as (pre & b & b' & pad & H1 & -> & H2 & -> & _).
  apply extends_set_last with (b := b); auto.
  split; [exists (zeros (Z.to_nat pad)); reflexivity|]. auto.
Qed.

Lemma writeBufferViews_extends d t data d' r : writeBufferViews d t data = Ok (d', r) -> extends d d'.
Proof.
  intros H. apply writeBufferViews_inv in H as [(e & -> & -> & _)|H]; [apply extends_refl|].
  destruct H as (pre & b & stride & size & written & b' & -> & _ & Hl & H0 & _ & _ & HL & HF & Hb' & ->).
  assert (E : extends d (set_doc_Buffers (pre ++ [Some b']) d)).
  { apply extends_set_last with (b := b); auto. subst b'. split; [|auto].
    exists (skipn (List.length (buf_Data b)) written). cbn.
    pose proof (firstn_skipn (List.length (buf_Data b)) written) as HS. rewrite HF in HS. auto. }
  apply extends_views with (l := [Some (mk_view (zlen pre) (zlen (buf_Data b)) size stride t)]) in E.
  exact E.
Qed.

Lemma WriteBufferView_extends d t data d' i : WriteBufferView d t data = Ok (d', i) -> extends d d'.
Proof.
  unfold WriteBufferView. intros H.
  destruct (writeBufferViews d t [data]) as [[d1 r]| |] eqn:E; cbn [bind] in H; try discriminate.
  apply writeBufferViews_extends in E. destruct r; try discriminate; injection H as <- <-; exact E.
Qed.

Lemma WriteAccessor_extends d t data d' i :
  WriteAccessor d t data = Ok (d', i) -> extends d d' /\ i = zlen (doc_Accessors d) /\
    zlen (doc_Accessors d') = i + 1.
Proof.
  unfold WriteAccessor. intros H.
  destruct (ensurePadding d) as [d1| |] eqn:E1; cbn [bind] in H; try discriminate.
  destruct (WriteBufferView d1 t data) as [[d2 j]| |] eqn:E2; cbn [bind] in H; try discriminate.
  destruct (TypeOf data) as [[[c a] l]| |]; cbn [bind] in H; try discriminate.
  injection H as <- <-.
  assert (HA : doc_Accessors d2 = doc_Accessors d).
  { unfold WriteBufferView in E2.
    destruct (writeBufferViews d1 t [data]) as [[d3 r]| |] eqn:E; cbn [bind] in E2; try discriminate.
    assert (d3 = d2) as -> by (destruct r; congruence).
    apply ensurePadding_inv in E1 as (pre & b & b' & pad & _ & -> & _).
    apply writeBufferViews_inv in E as [(e & -> & -> & _)|H]; [reflexivity|].
    destruct H as (pre' & b2 & stride & size & written & b2' & _ & _ & _ & _ & _ & _ & _ & _ & _ & ->).
    reflexivity. }
  apply ensurePadding_extends in E1. apply WriteBufferView_extends in E2.
  split; [|cbn [doc_Accessors set_doc_Accessors add_accessor]; rewrite HA, !zlen_app; unfold zlen; cbn [List.length]; lia].
  apply extends_accessors. eapply extends_trans; eauto.
Qed.

Lemma accessors_loop_extends d0 d bv off data d' l :
  extends d0 d -> accessors_loop d bv off data = Ok (d', l) ->
  extends d0 d' /\ l = map (fun k => zlen (doc_Accessors d) + Z.of_nat k) (seq 0 (List.length data)).
Proof.
  revert d off l. induction data as [|x data IH]; cbn [accessors_loop]; intros d off l E H.
  - injection H as <- <-. auto.
  - destruct (TypeOf x) as [[[c t] n]| |]; cbn [bind] in H; try discriminate.
    destruct (accessors_loop (add_accessor d (new_accessor bv off c t n)) bv (off + SizeOfElement c t) data) as [[d1 rest]| |] eqn:E1;
      cbn [bind] in H; try discriminate.
    injection H as <- <-. apply IH in E1; [|apply extends_accessors; auto].
    destruct E1 as [E1 ->]. split; auto.
    cbn [add_accessor doc_Accessors set_doc_Accessors].
    cbn [List.length seq map]. rewrite <- seq_shift, map_map, !zlen_app. f_equal.
    + unfold zlen; cbn [List.length]; lia.
    + apply map_ext. intros k. unfold zlen; cbn [List.length]; lia.
Qed.

Lemma writeBufferViews_accessors d t data d' r :
  writeBufferViews d t data = Ok (d', r) -> doc_Accessors d' = doc_Accessors d.
Proof.
  intros H. apply writeBufferViews_inv in H as [(e & -> & -> & _)|H]; [reflexivity|].
  destruct H as (pre' & b2 & stride & size & written & b2' & _ & _ & _ & _ & _ & _ & _ & _ & _ & ->).
  reflexivity.
Qed.

Lemma ensurePadding_accessors d d' : ensurePadding d = Ok d' -> doc_Accessors d' = doc_Accessors d.
Proof.
  intros H. apply ensurePadding_inv in H as (pre & b & b' & pad & _ & -> & _). reflexivity.
Qed.

Lemma WriteAccessorsInterleaved_extends d data d' r :
  WriteAccessorsInterleaved d data = Ok (d', r) -> extends d d' /\
  (forall l, r = Ok l -> l = map (fun k => zlen (doc_Accessors d) + Z.of_nat k) (seq 0 (List.length data))).
Proof.
  unfold WriteAccessorsInterleaved, WriteBufferViewInterleaved. intros H.
  destruct (ensurePadding d) as [d1| |] eqn:E1; cbn [bind] in H; try discriminate.
  destruct (writeBufferViews d1 TargetArrayBuffer data) as [[d2 j]| |] eqn:E2; cbn [bind] in H; try discriminate.
  pose proof (writeBufferViews_accessors _ _ _ _ _ E2) as A2.
  pose proof (ensurePadding_accessors _ _ E1) as A1.
  apply ensurePadding_extends in E1. apply writeBufferViews_extends in E2.
  pose proof (extends_trans _ _ _ E1 E2) as E.
  destruct j as [idx| |]; try discriminate.
  - destruct (accessors_loop d2 idx 0 data) as [[d3 l]| |] eqn:E3; cbn [bind] in H; try discriminate.
    injection H as <- <-. eapply accessors_loop_extends in E3; [|exact E]. destruct E3 as [E3 ->].
    split; auto. intros l [= <-]. rewrite A2, A1. reflexivity.
  - injection H as <- <-. split; auto. discriminate.
Qed.

Lemma set_props_loop_extends d0 d idx props attrs d' attrs' :
  extends d0 d -> Forall (fun i => zlen (doc_Accessors d0) <= i) idx ->
  set_props_loop d idx props attrs = Ok (d', attrs') -> extends d0 d'.
Proof.
  revert d props attrs. induction idx as [|i idx IH]; cbn [set_props_loop]; intros d props attrs E F H.
  - injection H as <- <-. exact E.
  - destruct props as [|[name nm] props]; [discriminate|].
    destruct (update_accessor d i (set_acr_Normalized nm)) as [d1| |] eqn:E1; cbn [bind] in H; try discriminate.
    inversion F as [|? ? F1 F2]; subst. eapply IH; [| |exact H]; auto.
    eapply extends_update; eauto.
Qed.

Lemma map_get_map_set {A} k name (i : A) m :
  map_get k (map_set name i m) = if String.eqb k name then Some i else map_get k m.
Proof.
  induction m as [|[k' v'] m IH]; cbn [map_set map_get]; [reflexivity|].
  destruct (String.eqb name k') eqn:E1.
  - apply String.eqb_eq in E1. subst k'. cbn [map_get]. destruct (String.eqb k name); reflexivity.
  - destruct (string_ltb name k'); cbn [map_get]; [reflexivity|].
    destruct (String.eqb k k') eqn:E2; [|exact IH].
    destruct (String.eqb k name) eqn:E3; [|reflexivity].
    apply String.eqb_eq in E2, E3. subst. rewrite String.eqb_refl in E1. discriminate.
Qed.

Lemma set_props_loop_attrs d idx props attrs d' attrs' (P : Z -> Prop) :
  Forall P idx -> (forall k v, map_get k attrs = Some v -> P v) ->
  set_props_loop d idx props attrs = Ok (d', attrs') ->
  forall k v, map_get k attrs' = Some v -> P v.
Proof.
  revert d props attrs. induction idx as [|i idx IH]; cbn [set_props_loop]; intros d props attrs F HP H.
  - injection H as <- <-. exact HP.
  - destruct props as [|[name nm] props]; [discriminate|].
    destruct (update_accessor d i (set_acr_Normalized nm)) as [d1| |] eqn:E1; cbn [bind] in H; try discriminate.
    inversion F as [|? ? F1 F2]; subst. eapply IH; [| |exact H]; auto.
    intros k v. rewrite map_get_map_set. destruct (String.eqb k name); [intros [= <-]; auto|apply HP].
Qed.

Lemma WritePrimitiveAttributes_extends d attr d' r :
  WritePrimitiveAttributes d attr = Ok (d', r) -> extends d d'.
Proof.
  unfold WritePrimitiveAttributes. intros H.
  destruct (attrs_loop attr [] [] (repeat 0 3, repeat 0 3)) as [[[data props] [mn mx]]|e|]; try discriminate.
  2:{ injection H as <- <-. apply extends_refl. }
  destruct (WriteAccessorsInterleaved d data) as [[d1 r1]| |] eqn:E1; cbn [bind] in H; try discriminate.
  apply WriteAccessorsInterleaved_extends in E1 as [E1 HL].
  destruct r1 as [idx|e|]; try discriminate.
  2:{ injection H as <- <-. exact E1. }
  specialize (HL _ eq_refl).
  assert (F : Forall (fun i => zlen (doc_Accessors d) <= i) idx).
  { subst idx. apply Forall_forall. intros x Hx. apply in_map_iff in Hx as (k & <- & _). lia. }
  destruct (set_props_loop d1 idx props []) as [[d2 attrs]| |] eqn:E2; cbn [bind] in H; try discriminate.
  pose proof (set_props_loop_extends d d1 _ _ _ _ _ E1 F E2) as X2.
  destruct (map_get "POSITION" attrs) as [pos|] eqn:EP.
  2:{ injection H as <- <-. exact X2. }
  assert (Hp : zlen (doc_Accessors d) <= pos).
  { eapply (set_props_loop_attrs d1 idx props [] d2 attrs (fun i => zlen (doc_Accessors d) <= i) F);
      [intros k v Hk; discriminate Hk|exact E2|exact EP]. }
  destruct (update_accessor d2 pos (set_acr_Min mn)) as [d3| |] eqn:E3; cbn [bind] in H; try discriminate.
  destruct (update_accessor d3 pos (set_acr_Max mx)) as [d4| |] eqn:E4; cbn [bind] in H; try discriminate.
  injection H as <- <-.
  eapply extends_update; [eapply extends_update|auto|exact E4]; eauto.
Qed.

Lemma write_normalized_extends ck d data d' i :
  write_normalized ck d data = Ok (d', i) -> extends d d'.
Proof.
  unfold write_normalized. intros H.
  destruct (check_or_panic (ck data)) as [nm| |]; cbn [bind] in H; try discriminate.
  destruct (WriteAccessor d TargetArrayBuffer data) as [[d1 j]| |] eqn:E1; cbn [bind] in H; try discriminate.
  apply WriteAccessor_extends in E1 as (E1 & -> & _).
  destruct (update_accessor d1 _ _) as [d2| |] eqn:E2; cbn [bind] in H; try discriminate.
  injection H as <- <-. eapply extends_update; [exact E1| |exact E2]. lia.
Qed.

Lemma fst_res_inv {A B} (r : res (A * B)) a : fst_res r = Ok a -> exists b, r = Ok (a, b).
Proof. destruct r as [[x y]| |]; cbn; try discriminate. intros [= <-]. eauto. Qed.

Lemma WritePosition_extends d data d' i : WritePosition d data = Ok (d', i) -> extends d d'.
Proof.
  unfold WritePosition. intros H.
  destruct (WriteAccessor d _ _) as [[d1 j]| |] eqn:E1; cbn [bind] in H; try discriminate.
  apply WriteAccessor_extends in E1 as (E1 & -> & _).
  destruct (minMaxFloat32 data) as [mn mx].
  destruct (update_accessor d1 _ _) as [d2| |] eqn:E2; cbn [bind] in H; try discriminate.
  destruct (update_accessor d2 _ _) as [d3| |] eqn:E3; cbn [bind] in H; try discriminate.
  injection H as <- <-.
  eapply extends_update; [eapply extends_update; [exact E1| |exact E2]| |exact E3]; lia.
Qed.

Theorem run_op_extends d op d' : run_op d op = Ok d' -> extends d d'.
Proof.
  destruct op; cbn [run_op]; intros H; apply fst_res_inv in H as [b H].
  - unfold WriteIndices in H. destruct (sk d0) as [[] []| | | |]; try discriminate;
      apply WriteAccessor_extends in H as [H _]; exact H.
  - apply WriteAccessor_extends in H as [H _]; exact H.
  - apply WriteAccessor_extends in H as [H _]; exact H.
  - eapply write_normalized_extends; exact H.
  - eapply write_normalized_extends; exact H.
  - unfold WriteJoints in H. destruct (check_or_panic _); cbn [bind] in H; try discriminate.
    apply WriteAccessor_extends in H as [H _]; exact H.
  - apply WriteAccessor_extends in H as [H _]; exact H.
  - eapply WritePosition_extends; exact H.
  - eapply write_normalized_extends; exact H.
  - unfold WriteImage in H. destruct r as [data|e|]; try discriminate.
    2:{ injection H as <- <-. apply extends_refl. }
    destruct (WriteBufferView d _ _) as [[d1 j]| |] eqn:E1; cbn [bind] in H; try discriminate.
    apply WriteBufferView_extends in E1. injection H as <- <-. apply extends_images. exact E1.
  - apply WriteAccessor_extends in H as [H _]; exact H.
  - apply WriteAccessorsInterleaved_extends in H as [H _]; exact H.
  - eapply WritePrimitiveAttributes_extends; exact H.
  - eapply WriteBufferView_extends; exact H.
  - eapply writeBufferViews_extends; exact H.
Qed.

Theorem run_ops_extends ops d d' : run_ops d ops = Ok d' -> extends d d'.
Proof.
  revert d. induction ops as [|op ops IH]; cbn [run_ops]; intros d H.
  - injection H as <-. apply extends_refl.
  - destruct (run_op d op) as [d1| |] eqn:E; cbn [bind] in H; try discriminate.
    eapply extends_trans; [eapply run_op_extends; exact E|]. auto.
Qed.
