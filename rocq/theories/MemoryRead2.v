(** The memory programs of binary.Read and modeler.ReadAccessor do what the
    functions on values say. *)
From Verif Require Import Base BaseFacts Types Binary SpecLayout BinaryProofs SliceProofs Doc ModelerRead ModelerReadSpecProofs Memory MemoryProofs MemoryReads.

Section Specs.
Context (D : arrays).

(** *** encode.go *)
Lemma load_spec o w src off b : shared D src b -> 0 <= w -> wp D o (load_m w src off) (fun r o' => o' = o /\ r = load w b off).
Proof.
  intros S Hw. pose proof S as (S1 & _ & _). unfold load_m, load, zlen. rewrite <- S1.
  destruct ((0 <=? off) && (off + w <=? Z.of_nat (List.length b)))%bool eqn:E; [|cbn [wp]; auto].
  apply (wp_load_shared D o src _ _ _ _ b S); [lia|]. cbn [wp]. auto.
Qed.
Lemma mapM_spec {A B} (f : A -> prog (res B)) (g : A -> res B) o l : (forall a, wp D o (f a) (fun r o' => o' = o /\ r = g a)) ->
  wp D o (mapM_m f l) (fun r o' => o' = o /\ r = mapM g l).
Proof.
  intros H. induction l as [|a l IH]; cbn [mapM_m mapM wp]; [auto|]. apply wp_bindr. eapply wp_mono; [|apply H]. intros r o' [-> ->]. destruct (g a) as [b|e|]; cbn [bind]; [|auto..].
  apply wp_bindr. eapply wp_mono; [|exact IH]. intros r o' [-> ->]. destruct (mapM g l); cbn [bind wp]; auto.
Qed.
Lemma get_elem_spec o c t src base b : shared D src b -> wp D o (get_elem_m c t src base) (fun r o' => o' = o /\ r = get_elem c t b base).
Proof.
  intros S. pose proof S as (S1 & _ & _). unfold get_elem_m, get_elem, zlen. rewrite <- S1.
  destruct ((0 <=? base) && (base <=? Z.of_nat (List.length b)))%bool; [|cbn [wp]; auto]. apply mapM_spec. intros a. apply load_spec; [exact S|destruct c; cbn; lia].
Qed.

Definition read_post (c : ComponentType) (t : AccessorType) (dst : mslice) (o : arrays) (v : res (list elem)) (r : res unit) (o' : arrays) : Prop :=
  frame (touch dst) o o' /\
  match v with
  | Ok vs => r = Ok tt /\ owns o' dst (mem_image c vs) /\ Forall (wf_elem c t) vs
  | Err e => r = Err e
  | Panic => r = Panic
  end.
Lemma imgs_set_mid c t vs x v ws : Forall (wf_elem c t) (vs ++ x :: ws) -> wf_elem c t v ->
  overwrite (mem_image c (vs ++ x :: ws)) (List.length vs * esize c t) (image (Z.to_nat (ByteSize c)) v) = mem_image c (vs ++ v :: ws).
Proof.
  intros H Hv. rewrite !mem_image_imgs. rewrite (imgs_set (image (Z.to_nat (ByteSize c))) (esize c t) (wf_elem c t) (wf_image c t)); [|exact H|exact Hv|rewrite app_length; cbn; lia].
  f_equal. clear H Hv. induction vs as [|y vs IH]; [reflexivity|]. cbn. f_equal. exact IH.
Qed.
Lemma mem_image_length c t vs : Forall (wf_elem c t) vs -> List.length (mem_image c vs) = (List.length vs * esize c t)%nat.
Proof. intros H. rewrite mem_image_imgs. apply (imgs_length _ _ _ (wf_image c t)). exact H. Qed.

Lemma read_loop_spec c t src dst b e : ct_valid c = true -> at_valid t = true -> shared D src b -> forall rest done o,
  owns o dst (mem_image c (done ++ rest)) -> Forall (wf_elem c t) (done ++ rest) ->
  wp D o (read_loop_m c t src e dst (List.length done) (List.length rest))
    (read_post c t dst o (match read_loop c t b e (Z.of_nat (List.length done)) (List.length rest) with Ok vs => Ok (done ++ vs) | Err e => Err e | Panic => Panic end)).
Proof.
  intros Hc Ht S. induction rest as [|x rest IH]; intros done o O W; cbn [List.length read_loop_m read_loop].
  - cbn [wp]. split; [apply frame_refl|]. auto.
  - apply wp_bindr. eapply wp_mono; [|apply (get_elem_spec o c t src _ b S)]. intros r o1 [-> ->].
    destruct (get_elem c t b (i64 (e * Z.of_nat (List.length done)))) as [v|er|] eqn:G; cbn [bind]; [|split; [apply frame_refl|reflexivity]..].
    assert (Wv : wf_elem c t v) by (eapply get_elem_wf; eassumption).
    pose proof O as (O1 & _). rewrite (mem_image_length c t _ W), app_length in O1. cbn [List.length] in O1.
    eapply wp_store; [exact O|rewrite (wf_image c t v Wv); nia|]. intros o2 O2 F2. rewrite (imgs_set_mid c t done x v rest W Wv) in O2.
    specialize (IH (done ++ [v]) o2). rewrite <- app_assoc in IH. cbn [app] in IH. rewrite app_length in IH. cbn [List.length] in IH. rewrite Nat.add_1_r in IH.
    eapply wp_mono; [|apply IH; [exact O2|]].
    + intros r o3 [F3 R3]. split; [eapply frame_trans; [exact F2|exact F3]|]. replace (Z.of_nat (List.length done) + 1) with (Z.of_nat (Datatypes.S (List.length done))) by lia.
      destruct (read_loop c t b e (Z.of_nat (Datatypes.S (List.length done))) (List.length rest)) as [vs|er|]; cbn [bind]; [|exact R3..]. rewrite <- app_assoc in R3. exact R3.
    + apply Forall_app in W. destruct W as [W1 W2]. inversion W2; subst. apply Forall_app. split; [exact W1|]. constructor; assumption.
Qed.

Lemma bytes_image c l : ByteSize c = 1 -> mem_image c (map (fun x => [b2z x]) l) = l.
Proof.
  intros E. unfold mem_image. rewrite E. change (Z.to_nat 1) with 1%nat. induction l as [|x l IH]; [reflexivity|]. cbn [map List.concat]. rewrite IH. cbn [le_bytes app]. f_equal. apply z2b_b2z.
Qed.
Lemma single_image c v : ByteSize c = 1 -> wf_elem c AScalar v -> exists x, v = [b2z x].
Proof.
  intros E [L R]. cbn in L. destruct v as [|z [|? ?]]; cbn in L; try lia. inversion R; subst. rewrite ByteSize_nat in E. rewrite E in *. exists (z2b z). rewrite b2z_z2b. f_equal. symmetry. apply Z.mod_small. lia.
Qed.
Lemma all_single c vs : ByteSize c = 1 -> Forall (wf_elem c AScalar) vs -> vs = map (fun x => [b2z x]) (mem_image c vs).
Proof.
  intros E H. induction H as [|v vs Hv _ IH]; [reflexivity|]. destruct (single_image c v E Hv) as [x ->].
  change (mem_image c ([b2z x] :: vs)) with (image (Z.to_nat (ByteSize c)) [b2z x] ++ mem_image c vs).
  replace (image (Z.to_nat (ByteSize c)) [b2z x]) with [x]; [cbn [app map]; f_equal; exact IH|]. rewrite <- (bytes_image c [x] E) at 1. unfold mem_image. cbn [map List.concat]. rewrite app_nil_r. reflexivity.
Qed.
Lemma copy_map {A B} (f : A -> B) dst src : copy (map f dst) (map f src) = map f (copy dst src).
Proof. unfold copy. rewrite !map_length, map_app, firstn_map, skipn_map. reflexivity. Qed.
Lemma copy_overwrite {A} (dst src : list A) : copy dst src = overwrite dst 0 (firstn (Nat.min (List.length dst) (List.length src)) src).
Proof. unfold copy, overwrite. cbn [firstn app Nat.add]. rewrite firstn_length. f_equal. f_equal. lia. Qed.

Lemma overwrite_prefix {A} (v b : list A) i : (i < List.length b)%nat -> (i < List.length v)%nat ->
  overwrite (overwrite v 0 (firstn i b)) i (sub b i 1) = overwrite v 0 (firstn (S i) b).
Proof.
  intros H1 H2. assert (L1 : List.length (sub b i 1) = 1%nat) by (apply sub_length; lia). apply nth_error_ext. intros k.
  rewrite nth_error_overwrite by (rewrite overwrite_length; rewrite ?firstn_length; lia). rewrite !nth_error_overwrite by (rewrite firstn_length; lia). rewrite L1, nth_error_sub, !firstn_length, !Nat.sub_0_r.
  destruct (i <=? k)%nat eqn:E1; cbn [andb Nat.leb Nat.add].
  - destruct (k <? i + 1)%nat eqn:E2; cbn [andb].
    + replace (k - i)%nat with 0%nat by lia. replace (k <? Nat.min (S i) (List.length b))%nat with true by (symmetry; apply Nat.ltb_lt; lia).
      rewrite nth_error_firstn'. replace (k <? Datatypes.S i)%nat with true by (symmetry; apply Nat.ltb_lt; lia). change (0 <? 1)%nat with true. cbv iota. f_equal. lia.
    + replace (k <? Nat.min (S i) (List.length b))%nat with false by (symmetry; apply Nat.ltb_ge; lia). replace (k <? Nat.min i (List.length b))%nat with false by (symmetry; apply Nat.ltb_ge; lia). reflexivity.
  - replace (k <? Nat.min (S i) (List.length b))%nat with true by (symmetry; apply Nat.ltb_lt; lia). replace (k <? Nat.min i (List.length b))%nat with true by (symmetry; apply Nat.ltb_lt; lia).
    rewrite !nth_error_firstn'. replace (k <? Datatypes.S i)%nat with true by (symmetry; apply Nat.ltb_lt; lia). replace (k <? i)%nat with true by (symmetry; apply Nat.ltb_lt; lia). reflexivity.
Qed.
Lemma byte_loop_spec src dst b v : shared D src b -> List.length v = ms_len dst -> forall n i o, owns o dst (overwrite v 0 (firstn i b)) -> (i + n = List.length b)%nat -> (i <= ms_len dst)%nat ->
  wp D o (byte_loop_m src dst i n) (fun r o' => frame (touch dst) o o' /\
    if (ms_len dst <? List.length b)%nat then r = Panic else r = Ok tt /\ owns o' dst (copy v b)).
Proof.
  intros S Lv. pose proof S as (S1 & _). induction n as [|n IH]; intros i o O Hi Li; cbn [byte_loop_m].
  - cbn [wp]. split; [apply frame_refl|]. replace (ms_len dst <? List.length b)%nat with false by (symmetry; apply Nat.ltb_ge; lia). split; [reflexivity|].
    rewrite copy_overwrite. replace (Nat.min (List.length v) (List.length b)) with i by lia. exact O.
  - apply (wp_load_shared D o src i 1 _ _ b S); [lia|]. destruct (i <? ms_len dst)%nat eqn:E.
    + apply Nat.ltb_lt in E. assert (L1 : List.length (sub b i 1) = 1%nat) by (apply sub_length; lia).
      eapply wp_store; [exact O|lia|]. intros o1 O1' F1. rewrite overwrite_prefix in O1' by lia. eapply wp_mono; [|apply (IH (Datatypes.S i) o1 O1'); lia].
      intros r o2 [F2 R2]. split; [eapply frame_trans; eassumption|exact R2].
    + apply Nat.ltb_ge in E. cbn [wp]. split; [apply frame_refl|]. replace (ms_len dst <? List.length b)%nat with true by (symmetry; apply Nat.ltb_lt; lia). reflexivity.
Qed.
Lemma copy_spec o src dst b v : shared D src b -> owns o dst v ->
  wp D o (copy_m dst src) (fun r o' => frame (touch dst) o o' /\ r = Ok tt /\ owns o' dst (copy v b)).
Proof.
  intros S O. pose proof S as (S1 & _). pose proof O as (O1 & _). unfold copy_m. apply (wp_load_shared D o src 0 _ _ _ b S); [lia|].
  eapply wp_store; [exact O|rewrite sub_length; lia|]. intros o1 O' F. cbn [wp]. split; [exact F|]. split; [reflexivity|]. rewrite copy_overwrite. unfold sub in O'. cbn [skipn] in O'. rewrite O1, S1. exact O'.
Qed.
(** copy between owned slices in different arrays *)
Lemma copy_spec_owned o src dst b v : owns o src b -> owns o dst v ->
  wp D o (copy_m dst src) (fun r o' => frame (touch dst) o o' /\ r = Ok tt /\ owns o' dst (copy v b)).
Proof.
  intros S O. pose proof S as (S1 & _). pose proof O as (O1 & _). unfold copy_m. apply (wp_load D o src 0 _ _ _ b S); [lia|].
  eapply wp_store; [exact O|rewrite sub_length; lia|]. intros o1 O' F. cbn [wp]. split; [exact F|]. split; [reflexivity|]. rewrite copy_overwrite. unfold sub in O'. cbn [skipn] in O'. rewrite O1, S1. exact O'.
Qed.

Lemma Read_spec o src stride c t dst b vs : ct_valid c = true -> at_valid t = true -> shared D src b -> Forall (wf_elem c t) vs -> owns o dst (mem_image c vs) ->
  wp D o (Read_m src stride c t dst) (read_post c t dst o (s <- Read b stride (mkSlice (SK c t) vs) ;; Ok (els s))).
Proof.
  intros Hc Ht S W O. pose proof S as (S1 & _). pose proof O as (O1 & _). rewrite (mem_image_length c t _ W) in O1.
  pose proof (mem_size_pos c t Hc Ht) as Ep. rewrite <- (esize_nat c t) in Ep.
  unfold Read_m, Read. rewrite <- O1, Nat.div_mul by lia. unfold TypeOf. cbn [sk els]. rewrite Hc, Ht. cbn [andb bind]. fold (zlen vs).
  change (Z.of_nat (List.length vs)) with (zlen vs). rewrite <- S1. fold (zlen b).
  set (st := if stride =? 0 then SizeOfElement c t else stride). set (hi := if st =? SizeOfElement c t then i64 (zlen vs * st) else i64 (i64 (zlen vs * st) - i64 (st - SizeOfElement c t))).
  destruct (zlen b <? hi); [cbn [bind wp]; split; [apply frame_refl|reflexivity]|].
  assert (L : wp D o (read_loop_m c t src st dst 0 (List.length vs)) (read_post c t dst o (s <- (vs <- read_loop c t b st 0 (List.length vs) ;; Ok (mkSlice (SK c t) vs)) ;; Ok (els s)))).
  { eapply wp_mono; [|apply (read_loop_spec c t src dst b st Hc Ht S vs [] o O W)]. intros r o' [F R]. split; [exact F|]. cbn [List.length Z.of_nat] in R. destruct (read_loop c t b st 0 (List.length vs)); exact R. }
  assert (Pb : c = CByte \/ c = CUbyte -> t = AScalar -> vs = map (fun x => [b2z x]) (mem_image c vs)).
  { intros E ->. apply all_single; [|exact W]. destruct E as [->| ->]; reflexivity. }
  assert (Cp : c = CByte \/ c = CUbyte -> t = AScalar -> mem_image c (copy vs (map (fun x => [b2z x]) b)) = copy (mem_image c vs) b /\ Forall (wf_elem c t) (copy vs (map (fun x => [b2z x]) b))).
  { intros E E'. split.
    - rewrite (Pb E E') at 1. rewrite copy_map. apply bytes_image. destruct E as [->| ->]; reflexivity.
    - apply copy_Forall; [exact W|]. subst t. apply byte_elems_wf. exact E. }
  destruct c; try exact L.
  - (* CByte *)
    destruct t; try exact L. destruct (Cp (or_introl eq_refl) eq_refl) as [C1 C2]. change (esize CByte AScalar) with 1%nat in O1.
    eapply wp_mono; [|apply (byte_loop_spec src dst b (mem_image CByte vs) S); [rewrite (mem_image_length CByte AScalar _ W); exact O1| |lia|lia]].
    + intros r o' [F R]. split; [exact F|]. unfold zlen. replace (ms_len dst) with (List.length vs) in R by lia.
      destruct (List.length vs <? List.length b)%nat eqn:Q.
      * apply Nat.ltb_lt in Q. replace (Z.of_nat (List.length vs) <? Z.of_nat (List.length b)) with true by lia. cbn [bind]. exact R.
      * apply Nat.ltb_ge in Q. replace (Z.of_nat (List.length vs) <? Z.of_nat (List.length b)) with false by lia. cbn [bind els]. destruct R as [-> R]. split; [reflexivity|]. split; [|exact C2]. rewrite C1. exact R.
    + cbn [firstn]. rewrite overwrite_nil. exact O.
  - (* CUbyte *)
    destruct t; try exact L. destruct (Cp (or_intror eq_refl) eq_refl) as [C1 C2]. destruct (negb (st =? 1)); [|exact L].
    eapply wp_mono; [|apply (copy_spec o src dst b _ S O)]. intros r o' (F & -> & R). split; [exact F|]. cbn [bind els]. split; [reflexivity|]. split; [|exact C2]. rewrite C1. exact R.
Qed.

(** *** Slices of slices *)
Lemma frame_within T o o1 o2 s : within T o s -> frame T o o1 -> frame (touch s) o1 o2 -> frame T o o2.
Proof.
  intros W F1 F2 a c E. destruct (F1 a c E) as (c1 & E1 & L1 & K1). destruct (F2 a c1 E1) as (c2 & E2 & L2 & K2). exists c2. split; [exact E2|]. split; [congruence|].
  destruct K1 as [K1|K1]; [left; exact K1|]. destruct K2 as [[K2 K3]|K2]; [|right; congruence]. subst a. destruct W as [W|[W|W]]; [congruence|left; exact W|congruence].
Qed.
Lemma owns_extended o s v : owns o s v -> exists w, owns o (extended s) w /\ firstn (ms_len s) w = v.
Proof.
  intros (L1 & L2 & [K|(c & E & L & V)]).
  - exists []. unfold extended, owns. cbn. split; [split; [lia|]; split; [lia|]; left; exact K|]. assert (List.length v = 0)%nat by lia. destruct v; [destruct (ms_len s); reflexivity|discriminate].
  - exists (sub c (ms_off s) (ms_cap s)). split.
    + split; [cbn; apply sub_length; lia|]. split; [cbn; lia|]. right. exists c. cbn. auto.
    + subst v. unfold sub. rewrite firstn_firstn. f_equal. lia.
Qed.
Lemma owns_shorter o s w m : owns o (extended s) w -> (m <= ms_cap s)%nat -> owns o (mkMs (ms_arr s) (ms_off s) m (ms_cap s)) (firstn m w).
Proof.
  intros (L1 & L2 & K) H. cbn [extended ms_arr ms_off ms_len ms_cap] in *. split; [cbn; rewrite firstn_length; lia|]. split; [cbn; lia|]. cbn [ms_arr ms_off ms_len ms_cap].
  destruct K as [K|(c & E & L & V)]; [left; exact K|]. right. exists c. split; [exact E|]. split; [exact L|]. subst w. unfold sub. rewrite firstn_firstn. f_equal. lia.
Qed.

(** *** The document's buffers *)
Definition doc_at (doc : Document) (ds : list mslice) : Prop :=
  Forall2 (fun b s => match b with Some b => shared D s (buf_Data b) | None => True end) (doc_Buffers doc) ds.
Definition shared_post (v : res bytes) (r : res mslice) : Prop :=
  match v with Ok b => exists s, r = Ok s /\ shared D s b | Err e => r = Err e | Panic => r = Panic end.
Lemma slice_m_shared s b lo hi : shared D s b -> hi <= zlen b -> shared_post (slice_range b lo hi) (slice_m s lo hi).
Proof.
  intros (S1 & S2 & S3) H. unfold slice_range, slice_m, zlen in *. destruct ((0 <=? lo) && (lo <=? hi))%bool eqn:E; cbn [andb]; [|reflexivity].
  replace (hi <=? Z.of_nat (List.length b)) with true by lia. replace (hi <=? Z.of_nat (ms_cap s)) with true by lia. eexists. split; [reflexivity|].
  split; [cbn; rewrite firstn_length, skipn_length; lia|]. split; [cbn; lia|]. cbn [ms_arr ms_off ms_len]. destruct S3 as [S3|(c & S3 & S4 & S5)]; [left; lia|]. right. exists c. split; [exact S3|]. split; [lia|].
  subst b. fold (sub (sub c (ms_off s) (ms_len s)) (Z.to_nat lo) (Z.to_nat (hi - lo))). apply sub_sub. lia.
Qed.
Lemma ReadBufferView_spec doc ds bv : doc_at doc ds -> shared_post (ReadBufferView doc bv) (ReadBufferView_m doc ds bv).
Proof.
  intros H. unfold ReadBufferView, ReadBufferView_m. destruct bv as [bv|]; cbn [deref bind]; [|reflexivity].
  destruct (zlen (doc_Buffers doc) <=? bvw_Buffer bv) eqn:E; [reflexivity|].
  assert (HL : List.length (doc_Buffers doc) = List.length ds) by (clear -H; induction H; cbn; congruence). unfold index, zlen in *. destruct ((0 <=? bvw_Buffer bv) && (bvw_Buffer bv <? Z.of_nat (List.length (doc_Buffers doc))))%bool eqn:B; cbn [bind]; [|reflexivity].
  rewrite HL in B. rewrite B. set (j := Z.to_nat (bvw_Buffer bv)).
  destruct (nth_error (doc_Buffers doc) j) as [ob|] eqn:Ej; cbn [bind]; [|reflexivity].
  assert (P : exists s, nth_error ds j = Some s /\ match ob with Some b => shared D s (buf_Data b) | None => True end).
  { clearbody j. clear -H Ej. revert j Ej. induction H as [|x y l l' Hx _ IH]; intros [|j] Ej; cbn in Ej; try discriminate; [injection Ej as <-; exists y; auto|exact (IH j Ej)]. }
  destruct P as (s & Es & Ps). rewrite Es. destruct ob as [b|]; cbn [deref bind]; [|reflexivity].
  pose proof Ps as (P1 & P2 & _). unfold zlen. rewrite P1.
  destruct (Z.of_nat (ms_len s) <? i64 (bvw_ByteOffset bv + bvw_ByteLength bv)) eqn:Q; [reflexivity|]. apply slice_m_shared; [exact Ps|unfold zlen; lia].
Qed.
Lemma readBufferView_spec doc ds i : doc_at doc ds -> shared_post (readBufferView doc i) (readBufferView_m doc ds i).
Proof.
  intros H. unfold readBufferView, readBufferView_m. destruct (_ <=? _); [reflexivity|]. destruct (index (doc_BufferViews doc) i); cbn [bind]; [apply ReadBufferView_spec; exact H|reflexivity..].
Qed.

(** *** read.go:32-46 *)
Lemma read_dense_spec doc ds o c t bv off count buf b : doc_at doc ds -> owns o (extended buf) b ->
  wp D o (read_dense_m doc ds c t bv off count buf) (slice_post c t (touch buf) o (read_dense doc c t bv off count b)).
Proof.
  intros HD O. unfold read_dense_m, read_dense. apply wp_bindr. eapply wp_mono; [|apply (MakeSliceBuffer_spec D o c t count buf b O)].
  intros r o1 [F1 R1]. destruct (MakeSliceBuffer c t count b) as [sl|e|]; [|subst r; split; [exact F1|reflexivity]..].
  destruct R1 as (s & -> & Sk & Hc & Ht & W & Os & Wi). cbn [bind].
  destruct bv as [i|]; [|cbn [wp]; split; [exact F1|]; exists s; auto 8].
  pose proof (readBufferView_spec doc ds i HD) as RB. unfold shared_post in RB. unfold pure. apply wp_bindr. cbn [wp].
  destruct (readBufferView doc i) as [sb|e|]; [|rewrite RB; cbn [bind]; split; [exact F1|reflexivity]..]. destruct RB as (buf' & -> & Sb). cbn [bind wp].
  apply wp_bindr. cbn [wp]. destruct (index (doc_BufferViews doc) i) as [obv|e|]; cbn [bind]; [|split; [exact F1|reflexivity]..].
  apply wp_bindr. cbn [wp]. destruct (deref obv) as [v|e|]; cbn [bind]; [|split; [exact F1|reflexivity]..].
  apply wp_bindr. cbn [wp]. pose proof Sb as (Sb1 & Sb2 & _). unfold slice_from, zlen. rewrite <- Sb1.
  destruct ((0 <=? off) && (off <=? Z.of_nat (List.length sb)))%bool eqn:E; cbn [bind]; [|split; [exact F1|reflexivity]].
  pose proof (slice_m_shared buf' sb off (zlen sb) Sb) as ST. unfold slice_range, zlen in ST.
  replace ((0 <=? off) && (off <=? Z.of_nat (List.length sb)) && (Z.of_nat (List.length sb) <=? Z.of_nat (List.length sb)))%bool with true in ST by lia.
  unfold shared_post in ST. destruct ST as (tl & -> & ST); [lia|].
  replace (firstn (Z.to_nat (Z.of_nat (List.length sb) - off)) (skipn (Z.to_nat off) sb)) with (skipn (Z.to_nat off) sb) in ST by (symmetry; apply firstn_all2; rewrite skipn_length; lia).
  apply wp_bindr. eapply wp_mono; [|apply (Read_spec o1 tl (bvw_ByteStride v) c t s _ (els sl) Hc Ht ST W Os)].
  intros r o2 [F2 R2]. assert (F : frame (touch buf) o o2) by (eapply frame_within; eassumption).
  replace (mkSlice (SK c t) (els sl)) with sl in R2 by (destruct sl; cbn in *; congruence).
  destruct (Read (skipn (Z.to_nat off) sb) (bvw_ByteStride v) sl) as [sl'|e|] eqn:ER; cbn [bind] in R2; [|subst r; split; [exact F|reflexivity]..].
  destruct R2 as (-> & O2 & W2). cbn [wp]. split; [exact F|]. exists s. split; [reflexivity|]. split.
  { unfold Read in ER. destruct (TypeOf sl) as [[[? ?] ?]|?|]; cbn [bind] in ER; try discriminate. destruct (_ <? _); [discriminate|]. rewrite Sk in ER.
    assert (X : forall vs, Ok (mkSlice (SK c t) vs) = Ok sl' -> sk sl' = SK c t) by (intros vs [= <-]; reflexivity).
    assert (Y : forall r : res (list elem), (vs <- r ;; Ok (mkSlice (SK c t) vs)) = Ok sl' -> sk sl' = SK c t) by (intros [vs|?|]; cbn [bind]; intros Q; [exact (X vs Q)|discriminate..]).
    destruct c; try exact (Y _ ER); destruct t; try exact (Y _ ER).
    - destruct (_ <? _); [discriminate|]. exact (X _ ER).
    - destruct (negb _); [exact (X _ ER)|exact (Y _ ER)]. }
  auto 8.
Qed.
End Specs.
