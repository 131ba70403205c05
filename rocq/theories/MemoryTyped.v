(** The readers of modeler/read.go on memory: conversion into the caller's
    buffer, pooled buffers, sparse accessors. *)
From Verif Require Import Base BaseFacts Types Binary SpecLayout BinaryProofs SliceProofs Doc ModelerRead ModelerReadSpecProofs Memory MemoryProofs MemoryReads MemoryRead2.

Section Specs.
Context (D : arrays).

(** Slices in different arrays. *)
Definition disjoint (s1 s2 : mslice) : Prop := forall a, touch s1 a -> touch s2 a -> False.
Lemma frame_disjoint o o' s1 s2 v : disjoint s1 s2 -> frame (touch s1) o o' -> owns o s2 v -> owns o' s2 v.
Proof. intros H F O. apply (frame_owns _ _ _ _ _ F O). intros Nz T. exact (H _ T (conj Nz eq_refl)). Qed.

(** *** Elements of the caller's type *)
Section Elements.
Context {A : Type} (img : A -> bytes) (d : nat) (P : A -> Prop) (HP : forall a, P a -> List.length (img a) = d) (Hd : (0 < d)%nat).
Context (zero : A) (Pz : P zero) (Iz : img zero = zeros d).

Definition list_post (T : nat -> Prop) (o : arrays) (v : res (list A)) (r : res mslice) (o' : arrays) : Prop :=
  frame T o o' /\
  match v with
  | Ok vs => exists s, r = Ok s /\ Forall P vs /\ owns o' s (imgs img vs) /\ within T o s
  | Err e => r = Err e
  | Panic => r = Panic
  end.
Definition unit_post (dst : mslice) (o : arrays) (v : res (list A)) (r : res unit) (o' : arrays) : Prop :=
  frame (touch dst) o o' /\
  match v with
  | Ok vs => r = Ok tt /\ Forall P vs /\ owns o' dst (imgs img vs)
  | Err e => r = Err e
  | Panic => r = Panic
  end.
Lemma imgs_zeros n : imgs img (repeat zero n) = zeros (n * d).
Proof. unfold imgs. induction n as [|n IH]; [reflexivity|]. cbn [repeat map List.concat Nat.mul]. rewrite IH, Iz. unfold zeros. rewrite <- repeat_app. reflexivity. Qed.
Lemma Forall_repeat n : Forall P (repeat zero n).
Proof. apply Forall_forall. intros x Hx. apply repeat_spec in Hx. subst x. exact Pz. Qed.

Lemma makeBufferOf_spec o count buf vs : owns o buf (imgs img vs) -> Forall P vs ->
  wp D o (makeBufferOf_m d count buf) (list_post (touch buf) o (makeBufferOf zero count vs)).
Proof.
  intros O W. pose proof O as (O1 & O2 & _). rewrite (imgs_length img d P HP vs W) in O1. unfold makeBufferOf_m, makeBufferOf, zlen.
  assert (Len : ms_len buf = (List.length vs * d)%nat) by lia. rewrite Len, Nat.div_mul by lia.
  destruct (Z.of_nat (List.length vs) <? count) eqn:E1.
  - set (n := Z.to_nat (count - Z.of_nat (List.length vs))). replace (Z.to_nat count) with (List.length vs + n)%nat by lia.
    assert (W' : Forall P (vs ++ repeat zero n)) by (apply Forall_app; split; [exact W|apply Forall_repeat]).
    destruct ((List.length vs + n) * d <=? ms_cap buf)%nat eqn:E2.
    + apply Nat.leb_le in E2. destruct (owns_extended o buf _ O) as (w & Ow & Fw). rewrite Len in Fw.
      match goal with |- wp _ _ (store_at buf ?p ?q ?k) _ => change (store_at buf p q k) with (store_at (extended buf) p q k) end.
      assert (Lz : List.length (zeros ((List.length vs + n) * d - List.length vs * d)) = (n * d)%nat) by (unfold zeros; rewrite repeat_length; lia).
      pose proof Ow as (Ow1 & _). cbn [extended ms_len] in Ow1.
      eapply wp_store; [exact Ow|cbn [extended ms_len]; rewrite Lz; lia|]. intros o1 O' F. cbn [wp]. split; [exact F|]. eexists. split; [reflexivity|]. split; [exact W'|]. split; [|right; left; split; [cbn; nia|reflexivity]].
      pose proof (owns_shorter o1 buf _ ((List.length vs + n) * d) O' E2) as S. 
      replace (imgs img (vs ++ repeat zero n)) with (firstn ((List.length vs + n) * d) (overwrite w (List.length vs * d) (zeros ((List.length vs + n) * d - List.length vs * d)))); [exact S|].
      unfold overwrite. rewrite Fw, Lz, imgs_app, imgs_zeros. replace ((List.length vs + n) * d - List.length vs * d)%nat with (n * d)%nat by lia. rewrite app_assoc.
      rewrite firstn_app. rewrite firstn_all2 by (rewrite app_length, (imgs_length img d P HP vs W); unfold zeros; rewrite repeat_length; lia).
      replace (_ - _)%nat with 0%nat by (rewrite app_length, (imgs_length img d P HP vs W); unfold zeros; rewrite repeat_length; lia). rewrite firstn_O, app_nil_r. reflexivity.
    + apply Nat.leb_gt in E2. apply wp_alloc. intros a o1 N F1 Oa. assert (O' : owns o1 buf (imgs img vs)) by (apply (frame_owns _ _ _ _ _ F1 O); intros _ []).
      apply (wp_load D o1 buf 0 _ _ _ _ O'); [lia|]. assert (Sv : sub (imgs img vs) 0 (List.length vs * d) = imgs img vs) by (unfold sub; cbn [skipn]; apply firstn_all2; rewrite (imgs_length img d P HP vs W); lia). rewrite Sv.
      eapply wp_store; [exact Oa|cbn [ms_len]; rewrite (imgs_length img d P HP vs W); nia|]. intros o2 O2' F2. cbn [wp]. split.
      * intros x cx Ex. destruct (F1 x cx Ex) as (c1 & X1 & L1 & [[]|K1]). subst c1. destruct (F2 x cx X1) as (c2 & X2 & L2 & K2). exists c2. split; [exact X2|]. split; [exact L2|]. destruct K2 as [[_ K2]|K2]; [|right; exact K2]. cbn in K2. subst x. congruence.
      * eexists. split; [reflexivity|]. split; [exact W'|]. split; [|right; right; exact N].
        replace (imgs img (vs ++ repeat zero n)) with (overwrite (zeros ((List.length vs + n) * d)) 0 (imgs img vs)); [exact O2'|].
        unfold overwrite. cbn [firstn app Nat.add]. rewrite imgs_app, imgs_zeros, (imgs_length img d P HP vs W). f_equal. rewrite Nat.mul_add_distr_r. unfold zeros. rewrite repeat_app. apply skipn_app_exact. apply repeat_length.
  - destruct (count =? 0) eqn:E3; cbn [negb].
    + cbn [wp]. split; [apply frame_refl|]. exists buf. split; [reflexivity|]. split; [exact W|]. split; [exact O|]. destruct (Nat.eq_dec (ms_cap buf) 0) as [Z|Z]; [left; exact Z|right; left; split; [exact Z|reflexivity]].
    + unfold slice_range, zlen. destruct (count <? 0) eqn:E4.
      * replace ((0 <=? 0) && (0 <=? count) && (count <=? Z.of_nat (List.length vs)))%bool with false by lia. cbn [wp]. split; [apply frame_refl|reflexivity].
      * replace ((0 <=? 0) && (0 <=? count) && (count <=? Z.of_nat (List.length vs)))%bool with true by lia. cbn [skipn Z.to_nat]. replace (count - 0) with count by lia. cbn [wp]. split; [apply frame_refl|].
        assert (Hn : (Z.to_nat count <= List.length vs)%nat) by lia. set (m := Z.to_nat count) in *. clearbody m.
        eexists. split; [reflexivity|]. split; [apply Forall_firstn'; exact W|]. split.
        -- destruct (owns_extended o buf _ O) as (w & Ow & Fw). rewrite <- (imgs_firstn img d P HP m vs W), <- Fw, firstn_firstn. replace (Nat.min (m * d) (ms_len buf)) with (m * d)%nat by nia. apply owns_shorter; [exact Ow|nia].
        -- destruct (Nat.eq_dec (ms_cap buf) 0) as [Z|Z]; [left; exact Z|right; left; split; [exact Z|reflexivity]].
Qed.

Lemma fill_loop_spec c t (f : elem -> A) data buf : ct_valid c = true -> at_valid t = true -> (forall e, wf_elem c t e -> P (f e)) -> disjoint buf data -> forall rest done o vs,
  Forall (wf_elem c t) (done ++ rest) -> owns o data (mem_image c (done ++ rest)) -> owns o buf (imgs img vs) -> Forall P vs ->
  wp D o (fill_loop_m c t d img f data buf (List.length done) (List.length rest)) (unit_post buf o (fill_loop f (List.length done) rest vs)).
Proof.
  intros Hc Ht Hf Dj. pose proof (mem_size_pos c t Hc Ht) as Ep. rewrite <- (esize_nat c t) in Ep.
  induction rest as [|x rest IH]; intros done o vs W Od Ob V; cbn [List.length fill_loop_m fill_loop].
  - cbn [wp]. split; [apply frame_refl|]. auto.
  - pose proof Od as (L1 & _). rewrite (mem_image_length c t _ W), app_length in L1. cbn [List.length] in L1. pose proof Ob as (L2 & _). rewrite (imgs_length img d P HP vs V) in L2.
    apply (wp_load D o data _ _ _ _ _ Od); [nia|]. rewrite mem_image_imgs, (imgs_nth _ (esize c t) (wf_elem c t) (wf_image c t) _ (List.length done) x W) by (rewrite nth_error_app2, Nat.sub_diag by lia; reflexivity).
    assert (Wx : wf_elem c t x) by (rewrite Forall_forall in W; apply W; apply in_or_app; right; left; reflexivity).
    rewrite (elem_of_image c t x Wx). rewrite <- L2, Nat.div_mul by lia. unfold set_index, zlen. destruct (List.length done <? List.length vs)%nat eqn:E.
    + apply Nat.ltb_lt in E. replace ((0 <=? Z.of_nat (List.length done)) && (Z.of_nat (List.length done) <? Z.of_nat (List.length vs)))%bool with true by lia. cbn [bind]. rewrite Nat2Z.id.
      pose proof (Hf x Wx) as Pf. eapply wp_store; [exact Ob|rewrite (HP _ Pf); nia|]. intros o1 O1 F1. rewrite (imgs_set img d P HP vs _ _ V Pf E) in O1.
      specialize (IH (done ++ [x]) o1 (set_nth (List.length done) (f x) vs)). rewrite <- app_assoc in IH. cbn [app] in IH. rewrite app_length in IH. cbn [List.length] in IH. rewrite Nat.add_1_r in IH.
      eapply wp_mono; [|apply IH; [exact W|exact (frame_disjoint _ _ _ _ _ Dj F1 Od)|exact O1|apply Forall_set_nth; [exact V|exact Pf]]].
      intros r o2 [F2 R2]. split; [eapply frame_trans; eassumption|exact R2].
    + apply Nat.ltb_ge in E. replace ((0 <=? Z.of_nat (List.length done)) && (Z.of_nat (List.length done) <? Z.of_nat (List.length vs)))%bool with false by lia. cbn [bind wp]. split; [apply frame_refl|reflexivity].
Qed.

Lemma imgs_copy vs ws : Forall P vs -> Forall P ws -> copy (imgs img vs) (imgs img ws) = imgs img (copy vs ws).
Proof.
  intros V W. unfold copy. rewrite (imgs_length img d P HP vs V), (imgs_length img d P HP ws W), Nat.mul_min_distr_r, (imgs_firstn img d P HP _ ws W), (imgs_skipn img d P HP _ vs V), imgs_app. reflexivity.
Qed.

(** What the caller gets, on values. *)
Definition convert_v (copies convert : option (elem -> A)) (ws : list elem) (vs : list A) : res (list A) :=
  match copies with
  | Some f => Ok (copy vs (map f ws))
  | None => match convert with Some f => fill_loop f 0 ws vs | None => Ok vs end
  end.
Lemma convert_spec c t copies convert o data buf ws vs : ct_valid c = true -> at_valid t = true -> disjoint buf data ->
  (forall f, copies = Some f -> forall e, wf_elem c t e -> P (f e) /\ img (f e) = image (Z.to_nat (ByteSize c)) e) ->
  (forall f, convert = Some f -> forall e, wf_elem c t e -> P (f e)) ->
  Forall (wf_elem c t) ws -> owns o data (mem_image c ws) -> owns o buf (imgs img vs) -> Forall P vs ->
  wp D o (convert_m c t d img (match copies with Some _ => true | None => false end) convert data buf) (unit_post buf o (convert_v copies convert ws vs)).
Proof.
  intros Hc Ht Dj H1 H2 W Od Ob V. unfold convert_m, convert_v. destruct copies as [f|].
  - specialize (H1 f eq_refl). eapply wp_mono; [|apply (copy_spec_owned D o data buf _ _ Od Ob)]. intros r o' (F & -> & O'). split; [exact F|]. split; [reflexivity|].
    assert (Wf : Forall P (map f ws)) by (apply Forall_forall; intros y Hy; apply in_map_iff in Hy; destruct Hy as (e & <- & He); rewrite Forall_forall in W; apply H1, W, He).
    assert (Q : mem_image c ws = imgs img (map f ws)).
    { rewrite mem_image_imgs. unfold imgs. f_equal. rewrite map_map. apply map_ext_in. intros e He. rewrite Forall_forall in W. symmetry. apply H1, W, He. }
    split; [apply copy_Forall; assumption|]. rewrite Q, imgs_copy in O' by assumption. exact O'.
  - destruct convert as [f|]; [|cbn [wp]; split; [apply frame_refl|auto]].
    pose proof (mem_size_pos c t Hc Ht) as Ep. rewrite <- (esize_nat c t) in Ep. pose proof Od as (L1 & _). rewrite (mem_image_length c t _ W) in L1. rewrite <- L1, Nat.div_mul by lia.
    apply (fill_loop_spec c t f data buf Hc Ht (H2 f eq_refl) Dj ws [] o vs W Od Ob V).
Qed.
End Elements.

(** *** Pools *)
Lemma wp_pool {A} o p (body : mslice -> prog (res A)) Q :
  (forall a c, o a = None -> D a = None -> List.length c = pool_bytes p ->
     wp D (upd o a c) (body (pool_slice p a)) (fun r o2 => (exists c2, o2 a = Some c2 /\ List.length c2 = pool_bytes p) /\ Q r (del o2 a))) ->
  wp D o (with_pool p body) Q.
Proof.
  intros H. unfold with_pool. cbn [wp]. intros a c N1 N2 L. apply wp_bind. eapply wp_mono; [|apply (H a c N1 N2 L)]. intros r o2 [(c2 & E2 & L2) R]. cbn [wp]. exists a, c2. auto.
Qed.
Lemma pool_owns o p a c : List.length c = pool_bytes p -> owns (upd o a c) (pool_slice p a) c.
Proof.
  intros L. split; [exact L|]. split; [cbn; lia|]. right. exists c. cbn. split; [apply upd_same|]. split; [lia|]. unfold sub. cbn [skipn]. symmetry. apply firstn_all2. lia.
Qed.
Lemma pool_some p : pool_bytes p <> 0%nat.
Proof. destruct p; cbn [pool_bytes]; lia. Qed.
(** What a body may have done, seen from outside. *)
Lemma frame_pool T o p a c o2 : o a = None -> frame (fun x => T x \/ touch (pool_slice p a) x) (upd o a c) o2 -> frame T o (del o2 a).
Proof.
  intros N F x cx E. assert (Nx : a <> x) by (intros ->; congruence). destruct (F x cx) as (c' & E' & L & K); [rewrite upd_other; assumption|]. exists c'. rewrite del_other by exact Nx. split; [exact E'|]. split; [exact L|].
  destruct K as [[K|[_ K]]|K]; [left; exact K|cbn in K; congruence|right; exact K].
Qed.
Lemma frame_kept T o p a (c : bytes) o2 : List.length c = pool_bytes p -> frame T (upd o a c) o2 -> exists c2, o2 a = Some c2 /\ List.length c2 = pool_bytes p.
Proof. intros L F. destruct (F a c (upd_same _ _ _)) as (c' & E & L' & _). exists c'. split; [exact E|congruence]. Qed.
Lemma owns_del o2 a s v : owns o2 s v -> (ms_cap s <> 0%nat -> ms_arr s <> a) -> owns (del o2 a) s v.
Proof.
  intros (L1 & L2 & K) N. split; [exact L1|]. split; [exact L2|]. destruct (Nat.eq_dec (ms_cap s) 0) as [Z|Z]; [left; exact Z|]. destruct K as [K|(c & E & R)]; [left; exact K|]. right. exists c. rewrite del_other by (intros ->; exact (N Z eq_refl)). auto.
Qed.
Lemma owned_arr o s v : owns o s v -> ms_cap s <> 0%nat -> exists c, o (ms_arr s) = Some c.
Proof. intros (_ & _ & [K|(c & E & _)]) N; [congruence|]. exists c. exact E. Qed.
Lemma touch_not_new o s v a : owns o s v -> o a = None -> ~ touch s a.
Proof. intros O N [Z ->]. destruct (owned_arr _ _ _ O Z) as (c & E). congruence. Qed.
(** A result in [T] or new is not in the pooled array. *)
Lemma within_not_pool T o a c s : o a = None -> ~ T a -> within T (upd o a c) s -> ms_cap s <> 0%nat -> ms_arr s <> a.
Proof. intros N NT [W|[W|W]] Z E; [congruence|subst a; auto|]. subst a. rewrite upd_same in W. discriminate. Qed.
Lemma within_pool T o a c s : within T (upd o a c) s -> within T o s.
Proof. intros [W|[W|W]]; [left; exact W|right; left; exact W|right; right]. unfold upd in W. destruct (Nat.eqb a (ms_arr s)); [discriminate|exact W]. Qed.

Lemma frame_or T1 T2 o1 o2 o3 : frame T1 o1 o2 -> frame T2 o2 o3 -> frame (fun x => T1 x \/ T2 x) o1 o3.
Proof. intros H1 H2. eapply frame_trans; [eapply frame_mono; [|exact H1]|eapply frame_mono; [|exact H2]]; cbv beta; auto. Qed.
Lemma within_none T o s v : within T o s -> owns o s v -> ms_cap s <> 0%nat -> T (ms_arr s).
Proof. intros [W|[W|W]] O Z; [congruence|exact W|]. destruct (owned_arr _ _ _ O Z) as (c & E). congruence. Qed.

(** *** read.go:132-161 and the like *)
Section Typed.
Context {A Pt : Type} (img : A -> bytes) (d : nat) (P : A -> Prop) (HP : forall a, P a -> List.length (img a) = d) (Hd : (0 < d)%nat).
Context (zero : A) (Pz : P zero) (Iz : img zero = zeros d).
Context (check : ComponentType -> AccessorType -> res unit) (copies convert : skind -> option (elem -> A)) (c : ComponentType) (t : AccessorType) (count : Z).
Context (Hcopies : check c t = Ok tt -> forall f, copies (SK c t) = Some f -> forall e, wf_elem c t e -> P (f e) /\ img (f e) = image (Z.to_nat (ByteSize c)) e).
Context (Hconvert : check c t = Ok tt -> forall f, convert (SK c t) = Some f -> forall e, wf_elem c t e -> P (f e)).
Context (reader : mslice -> prog (res mslice)) (readv : bytes -> Pt -> res slice) (G : Pt -> Prop) (p0 : Pt) (G0 : G p0).
Context (Hreader : forall o s b, owns o (extended s) b -> wp D o (reader s) (fun r o' => exists p, G p /\ slice_post c t (touch s) o (readv b p) r o')).

Definition typed_v (vs : list A) (b : bytes) (p : Pt) : res (list A) :=
  _ <- check c t ;;
  data <- readv b p ;;
  buf <- makeBufferOf zero count vs ;;
  convert_v (copies (sk data)) (convert (sk data)) (els data) buf.

Lemma typed_spec o buf vs : owns o buf (imgs img vs) -> Forall P vs ->
  wp D o (typed_m check d img copies convert reader c t count buf)
    (fun r o' => exists b p, List.length b = pool_bytes BufPool /\ G p /\ list_post img P (touch buf) o (typed_v vs b p) r o').
Proof.
  intros O V. unfold typed_m. destruct (check c t) as [u|e|] eqn:Ck.
  2,3: cbn [wp]; exists (zeros (pool_bytes BufPool)), p0; split; [apply repeat_length|]; split; [exact G0|]; unfold typed_v; rewrite Ck; cbn [bind]; split; [apply frame_refl|reflexivity].
  assert (u = tt) by (destruct u; reflexivity). subst u. specialize (Hcopies eq_refl). specialize (Hconvert eq_refl).
  apply wp_pool. intros a b N1 N2 L. set (o1 := upd o a b). set (ps := pool_slice BufPool a).
  assert (Fo : frame (fun _ => False) o o1) by (apply frame_new; exact N1).
  assert (O1 : owns o1 buf (imgs img vs)) by (apply (frame_owns _ _ _ _ _ Fo O); intros _ []).
  assert (Na : ~ touch buf a) by (apply (touch_not_new o buf _ a O N1)).
  assert (Done : forall o2 p r v, G p -> frame (fun x => touch buf x \/ touch ps x) o1 o2 ->
     match v with Ok ws => exists s, r = Ok s /\ Forall P ws /\ owns o2 s (imgs img ws) /\ within (touch buf) o1 s | Err e => r = Err e | Panic => r = Panic end ->
     typed_v vs b p = v ->
     (exists c2, o2 a = Some c2 /\ List.length c2 = pool_bytes BufPool) /\ exists b p, List.length b = pool_bytes BufPool /\ G p /\ list_post img P (touch buf) o (typed_v vs b p) r (del o2 a)).
  { intros o2 p r v Gp F R E. split; [exact (frame_kept _ o BufPool a b o2 L F)|]. exists b, p. split; [exact L|]. split; [exact Gp|]. split; [exact (frame_pool _ o BufPool a b o2 N1 F)|]. rewrite E.
    destruct v as [ws|e|]; [|exact R..]. destruct R as (s & Rs & Ws & Os & Is). exists s. split; [exact Rs|]. split; [exact Ws|]. split; [|exact (within_pool _ _ _ _ _ Is)].
    apply owns_del; [exact Os|]. exact (within_not_pool (touch buf) o a b s N1 Na Is). }
  apply wp_bindr. eapply wp_mono; [|apply (Hreader o1 ps b); exact (pool_owns o BufPool a b L)]. intros r o2 (p & Gp & F1 & R1).
  assert (Fl : forall x, touch ps x -> touch buf x \/ touch ps x) by auto.
  destruct (readv b p) as [data|e|] eqn:Ev.
  2: subst r; refine (Done _ p _ (Err e) Gp (frame_mono _ _ _ _ Fl F1) eq_refl _); unfold typed_v; rewrite Ck, Ev; reflexivity.
  2: subst r; refine (Done _ p _ Panic Gp (frame_mono _ _ _ _ Fl F1) eq_refl _); unfold typed_v; rewrite Ck, Ev; reflexivity.
  destruct R1 as (s & -> & Sk & Hc & Ht & W & Os & Is).
  assert (Nb : forall x, touch buf x -> touch ps x -> False) by (intros x T1 [_ T2]; cbn in T2; subst x; exact (Na T1)).
  assert (O2 : owns o2 buf (imgs img vs)) by (apply (frame_owns _ _ _ _ _ F1 O1); intros Z T; exact (Nb _ (conj Z eq_refl) T)).
  assert (Ds : disjoint buf s).
  { intros x T1 [T2 ->]. destruct Is as [Is|[Is|Is]]; [congruence|exact (Nb _ T1 Is)|]. destruct T1 as [Z E]. destruct (owned_arr _ _ _ O1 Z) as (cx & Ex). rewrite <- E in Ex. congruence. }
  apply wp_bindr. eapply wp_mono; [|apply (makeBufferOf_spec img d P HP Hd zero Pz Iz o2 count buf vs O2 V)]. intros r o3 [F2 R2].
  assert (F3 : frame (fun x => touch buf x \/ touch ps x) o1 o3) by (eapply frame_mono; [|eapply frame_or; [exact F1|exact F2]]; cbv beta; tauto).
  destruct (makeBufferOf zero count vs) as [vs'|e|] eqn:Em.
  2: subst r; refine (Done _ p _ (Err e) Gp F3 eq_refl _); unfold typed_v; rewrite Ck, Ev; cbn [bind]; rewrite Em; reflexivity.
  2: subst r; refine (Done _ p _ Panic Gp F3 eq_refl _); unfold typed_v; rewrite Ck, Ev; cbn [bind]; rewrite Em; reflexivity.
  destruct R2 as (s2 & -> & V' & Os2 & Is2).
  assert (Os3 : owns o3 s (mem_image c (els data))) by (exact (frame_disjoint _ _ _ _ _ Ds F2 Os)).
  assert (Ds2 : disjoint s2 s).
  { intros x [T1 ->] [T2 E]. destruct Is2 as [Is2|[Is2|Is2]]; [congruence|exact (Ds _ Is2 (conj T2 E))|]. destruct (owned_arr _ _ _ Os T2) as (cx & Ex). rewrite <- E in Ex. congruence. }
  apply wp_bindr. eapply wp_mono; [|apply (convert_spec img d P HP Hd zero Pz c t (copies (SK c t)) (convert (SK c t)) o3 s s2 (els data) vs' Hc Ht Ds2 Hcopies Hconvert W Os3 Os2 V')].
  intros r o4 [F4 R4]. assert (F5 : frame (touch buf) o2 o4) by (eapply frame_within; eassumption).
  assert (F6 : frame (fun x => touch buf x \/ touch ps x) o1 o4) by (eapply frame_mono; [|eapply frame_or; [exact F1|exact F5]]; cbv beta; tauto).
  assert (Ty : typed_v vs b p = convert_v (copies (SK c t)) (convert (SK c t)) (els data) vs') by (unfold typed_v; rewrite Ck, Ev; cbn [bind]; rewrite Em, Sk; reflexivity).
  destruct (convert_v (copies (SK c t)) (convert (SK c t)) (els data) vs') as [ws|e|].
  2,3: subst r; refine (Done _ p _ _ Gp F6 _ Ty); reflexivity.
  destruct R4 as (-> & V4 & O4). cbn [wp]. refine (Done _ p _ _ Gp F6 _ Ty). exists s2. split; [reflexivity|]. split; [exact V4|]. split; [exact O4|exact (within_frame _ _ _ _ _ F1 Is2)].
Qed.
End Typed.

(** *** Sparse accessors *)
Definition u32_ok (z : Z) : Prop := 0 <= z < 2 ^ 32.
Lemma le4_length z : u32_ok z -> List.length (le_bytes 4 z) = 4%nat.
Proof. intros _. reflexivity. Qed.
Lemma le4_val z : u32_ok z -> le_val (le_bytes 4 z) = z.
Proof. intros H. rewrite le_val_le_bytes. apply Z.mod_small. exact H. Qed.
Lemma bytes_u32 n : forall b, List.length b = (n * 4)%nat -> exists us, List.length us = n /\ Forall u32_ok us /\ imgs (le_bytes 4) us = b.
Proof.
  induction n as [|n IH]; intros b L.
  - exists []. destruct b; [|discriminate]. split; [reflexivity|]. split; [constructor|reflexivity].
  - destruct b as [|b0 [|b1 [|b2 [|b3 b]]]]; cbn in L; try lia. destruct (IH b) as (us & U1 & U2 & U3); [lia|]. exists (le_val [b0; b1; b2; b3] :: us). split; [cbn; lia|]. split.
    + constructor; [|exact U2]. pose proof (le_val_range [b0; b1; b2; b3]) as R. exact R.
    + unfold imgs in *. cbn [map List.concat]. rewrite U3. change 4%nat with (List.length [b0; b1; b2; b3]) at 1. rewrite le_bytes_le_val. reflexivity.
Qed.

Lemma sparse_loop_spec c t indices values data zs ws : ct_valid c = true -> at_valid t = true -> disjoint data indices -> disjoint data values ->
  Forall u32_ok zs -> Forall (wf_elem c t) ws -> forall n i o vs,
  owns o indices (imgs (le_bytes 4) zs) -> owns o values (mem_image c ws) -> owns o data (mem_image c vs) -> Forall (wf_elem c t) vs ->
  wp D o (sparse_loop_m c t indices values data i n) (read_post c t data o (sparse_loop i n zs ws vs)).
Proof.
  intros Hc Ht D1 D2 Z W. pose proof (mem_size_pos c t Hc Ht) as Ep. rewrite <- (esize_nat c t) in Ep.
  induction n as [|n IH]; intros i o vs Oi Ov Od V; cbn [sparse_loop_m sparse_loop].
  - cbn [wp]. split; [apply frame_refl|]. auto.
  - pose proof Oi as (L1 & _). rewrite (imgs_length _ 4 u32_ok le4_length zs Z) in L1. pose proof Ov as (L2 & _). rewrite (mem_image_length c t _ W) in L2. pose proof Od as (L3 & _). rewrite (mem_image_length c t _ V) in L3.
    rewrite <- L1, <- L2, <- L3, !Nat.div_mul by lia. unfold index, zlen.
    destruct (i <? List.length zs)%nat eqn:E1.
    2: { apply Nat.ltb_ge in E1. replace ((0 <=? Z.of_nat i) && (Z.of_nat i <? Z.of_nat (List.length zs)))%bool with false by lia. cbn [bind wp]. split; [apply frame_refl|reflexivity]. }
    apply Nat.ltb_lt in E1. replace ((0 <=? Z.of_nat i) && (Z.of_nat i <? Z.of_nat (List.length zs)))%bool with true by lia. rewrite Nat2Z.id.
    destruct (nth_error zs i) as [k|] eqn:Ek; [|apply nth_error_None in Ek; lia]. cbn [bind].
    apply (wp_load D o indices _ _ _ _ _ Oi); [lia|]. rewrite (imgs_nth _ 4 u32_ok le4_length zs i k Z Ek).
    destruct (i <? List.length ws)%nat eqn:E2.
    2: { apply Nat.ltb_ge in E2. replace ((0 <=? Z.of_nat i) && (Z.of_nat i <? Z.of_nat (List.length ws)))%bool with false by lia. cbn [bind wp]. split; [apply frame_refl|reflexivity]. }
    apply Nat.ltb_lt in E2. replace ((0 <=? Z.of_nat i) && (Z.of_nat i <? Z.of_nat (List.length ws)))%bool with true by lia.
    destruct (nth_error ws i) as [v|] eqn:Ev; [|apply nth_error_None in Ev; lia]. cbn [bind].
    apply (wp_load D o values _ _ _ _ _ Ov); [nia|]. rewrite mem_image_imgs, (imgs_nth _ (esize c t) (wf_elem c t) (wf_image c t) ws i v W Ev).
    assert (Kr : u32_ok k) by (rewrite Forall_forall in Z; apply Z; eapply nth_error_In; exact Ek). assert (Wv : wf_elem c t v) by (rewrite Forall_forall in W; apply W; eapply nth_error_In; exact Ev).
    cbv zeta. rewrite (le4_val k Kr). unfold set_index, zlen. destruct (k <? Z.of_nat (List.length vs)) eqn:E3.
    2: { replace ((0 <=? k) && false)%bool with false by (destruct (0 <=? k); reflexivity). cbn [bind wp]. split; [apply frame_refl|reflexivity]. }
    destruct Kr as [K1 _]. replace (0 <=? k) with true by lia. cbn [andb bind]. assert (Hk : (Z.to_nat k < List.length vs)%nat) by lia.
    eapply wp_store; [exact Od|rewrite (wf_image c t v Wv); nia|]. intros o1 O1 F1. rewrite mem_image_imgs, (imgs_set _ (esize c t) (wf_elem c t) (wf_image c t) vs _ v V Wv Hk), <- mem_image_imgs in O1.
    eapply wp_mono; [|apply (IH (S i) o1 _ (frame_disjoint _ _ _ _ _ D1 F1 Oi) (frame_disjoint _ _ _ _ _ D2 F1 Ov) O1); apply Forall_set_nth; assumption].
    intros r o2 [F2 R2]. split; [eapply frame_trans; eassumption|exact R2].
Qed.
End Specs.
