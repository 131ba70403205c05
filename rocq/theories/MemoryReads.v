(** What the programs of Memory.v do with the memory they own. *)
From Verif Require Import Base BaseFacts Types Binary SpecLayout BinaryProofs SliceProofs Doc ModelerRead Memory MemoryProofs.

(** ** Elements in memory *)
Definition imgs {A} (img : A -> bytes) (vs : list A) : bytes := List.concat (map img vs).
Section Images.
Context {A : Type} (img : A -> bytes) (d : nat) (P : A -> Prop) (HP : forall a, P a -> List.length (img a) = d).

Lemma imgs_length vs : Forall P vs -> List.length (imgs img vs) = (List.length vs * d)%nat.
Proof. unfold imgs. induction 1 as [|a vs Ha _ IH]; [reflexivity|]. cbn. rewrite app_length, IH, (HP a Ha). reflexivity. Qed.
Lemma imgs_app vs ws : imgs img (vs ++ ws) = imgs img vs ++ imgs img ws.
Proof. unfold imgs. rewrite map_app. apply concat_app. Qed.
Lemma imgs_firstn n : forall vs, Forall P vs -> firstn (n * d) (imgs img vs) = imgs img (firstn n vs).
Proof.
  induction n as [|n IH]; intros vs H; [reflexivity|]. destruct H as [|a vs Ha H]; [cbn [firstn imgs map List.concat]; apply firstn_nil|].
  cbn [firstn]. unfold imgs in *. cbn [map List.concat]. rewrite firstn_app, (HP a Ha), firstn_all2 by (rewrite (HP a Ha); lia).
  replace (S n * d - d)%nat with (n * d)%nat by lia. rewrite IH by exact H. reflexivity.
Qed.
Lemma imgs_skipn n : forall vs, Forall P vs -> skipn (n * d) (imgs img vs) = imgs img (skipn n vs).
Proof.
  induction n as [|n IH]; intros vs H; [reflexivity|]. destruct H as [|a vs Ha H]; [cbn [skipn imgs map List.concat]; apply skipn_nil|].
  cbn [skipn]. unfold imgs in *. cbn [map List.concat]. rewrite skipn_app, (HP a Ha), skipn_all2 by (rewrite (HP a Ha); lia).
  replace (S n * d - d)%nat with (n * d)%nat by lia. rewrite IH by exact H. reflexivity.
Qed.
Lemma imgs_nth vs i a : Forall P vs -> nth_error vs i = Some a -> sub (imgs img vs) (i * d) d = img a.
Proof.
  intros H E. destruct (nth_error_split vs i E) as (l1 & l2 & -> & L). apply Forall_app in H. destruct H as [H1 H2].
  unfold sub. rewrite imgs_app, skipn_app_exact by (rewrite (imgs_length l1 H1), L; reflexivity).
  unfold imgs. cbn [map List.concat]. apply firstn_app_exact. apply HP. inversion H2. assumption.
Qed.
Lemma imgs_set vs i a : Forall P vs -> P a -> (i < List.length vs)%nat -> overwrite (imgs img vs) (i * d) (img a) = imgs img (set_nth i a vs).
Proof.
  intros H Pa L. assert (exists b, nth_error vs i = Some b) as [b E]. { destruct (nth_error vs i) eqn:E; [eauto|]. apply nth_error_None in E. lia. }
  destruct (nth_error_split vs i E) as (l1 & l2 & -> & L1). subst i. apply Forall_app in H. destruct H as [H1 H2]. inversion H2; subst.
  assert (S : set_nth (List.length l1) a (l1 ++ b :: l2) = l1 ++ a :: l2). { clear. induction l1; [reflexivity|]. cbn. f_equal. assumption. }
  rewrite S. unfold overwrite. rewrite !imgs_app, firstn_app_exact by (apply imgs_length; exact H1). f_equal.
  change (imgs img (b :: l2)) with (img b ++ imgs img l2). change (imgs img (a :: l2)) with (img a ++ imgs img l2). f_equal. rewrite (HP a Pa), app_assoc. apply skipn_app_exact.
  rewrite app_length, (imgs_length l1 H1), (HP b) by assumption. lia.
Qed.
End Images.

Lemma set_nth_length {A} n (a : A) l : List.length (set_nth n a l) = List.length l.
Proof. revert n. induction l; intros [|n]; cbn; auto. Qed.
Lemma Forall_set_nth {A} (P : A -> Prop) n a l : Forall P l -> P a -> Forall P (set_nth n a l).
Proof. intros H Pa. revert n. induction H; intros [|n]; cbn; constructor; auto. Qed.

(** Bytes as elements of the memory. *)
Lemma image_length w v : List.length (image w v) = (List.length v * w)%nat.
Proof. unfold image. induction v as [|x v IH]; [reflexivity|]. cbn. rewrite app_length, le_bytes_length, IH. reflexivity. Qed.
Lemma esize_nat c t : esize c t = mem_size c t.
Proof. unfold esize. rewrite mem_size_Z. lia. Qed.
Lemma wf_image c t v : wf_elem c t v -> List.length (image (Z.to_nat (ByteSize c)) v) = esize c t.
Proof. intros [L _]. rewrite image_length, L, esize_nat. unfold mem_size. rewrite ByteSize_nat, Nat2Z.id. lia. Qed.

Lemma sub_sub {A} (l : list A) a n b m : (b + m <= n)%nat -> sub (sub l a n) b m = sub l (a + b) m.
Proof.
  intros H. apply nth_error_ext. intros i. rewrite !nth_error_sub. destruct (i <? m)%nat eqn:E; [|reflexivity].
  replace (b + i <? n)%nat with true by (symmetry; apply Nat.ltb_lt; apply Nat.ltb_lt in E; lia). f_equal. lia.
Qed.
Lemma sub_split {A} (l : list A) p a b : sub l p (a + b) = sub l p a ++ sub l (p + a) b.
Proof.
  unfold sub. assert (E : skipn (p + a) l = skipn a (skipn p l)). { clear. revert l. induction p as [|p IH]; intros l; [reflexivity|]. destruct l; cbn [Nat.add skipn]; [rewrite skipn_nil; reflexivity|apply IH]. }
  rewrite E. generalize (skipn p l). clear. induction a as [|a IH]; intros l; [reflexivity|].
  destruct l as [|x l]; [cbn; rewrite firstn_nil; reflexivity|]. cbn [Nat.add firstn skipn app]. f_equal. apply IH.
Qed.
(** The components of consecutive bytes, written again, are the bytes. *)
Lemma image_mem_elem w n v pos : (pos + n * w <= List.length v)%nat ->
  image w (map (fun k => le_val (sub v (pos + k * w) w)) (seq 0 n)) = sub v pos (n * w).
Proof.
  revert pos. induction n as [|n IH]; intros pos H; [reflexivity|].
  cbn [seq map]. rewrite <- seq_shift, map_map. unfold image in *. cbn [map List.concat].
  rewrite (map_ext _ (fun k => le_val (sub v ((pos + w) + k * w) w))) by (intros k; do 2 f_equal; lia).
  rewrite IH by lia. replace (pos + 0 * w)%nat with pos by lia.
  assert (E : le_bytes w (le_val (sub v pos w)) = sub v pos w).
  { rewrite <- (sub_length v pos w) at 1 by lia. apply le_bytes_le_val. }
  rewrite E. cbn [Nat.mul]. rewrite sub_split. reflexivity.
Qed.
Lemma image_elem_of c t b : List.length b = esize c t -> image (Z.to_nat (ByteSize c)) (elem_of c t b) = b.
Proof.
  intros H. unfold elem_of, mem_elem. rewrite image_mem_elem.
  - unfold sub. cbn [skipn]. apply firstn_all2. rewrite H. unfold esize. pose proof (Components_nat t). rewrite ByteSize_nat. rewrite H0. nia.
  - rewrite H. unfold esize. rewrite ByteSize_nat, Components_nat. nia.
Qed.
Lemma elem_of_image c t v : wf_elem c t v -> elem_of c t (image (Z.to_nat (ByteSize c)) v) = v.
Proof.
  intros [L R]. unfold elem_of, mem_elem. rewrite ByteSize_nat, Nat2Z.id, Components_nat, Nat2Z.id, <- L.
  set (w := comp_bytes c) in *. clear L t. 
  assert (G : forall pre, map (fun k => le_val (sub (pre ++ image w v) (List.length pre + k * w) w)) (seq 0 (List.length v)) = v).
  { induction R as [|x v Rx R IH]; intros pre; [reflexivity|]. cbn [List.length seq map]. rewrite <- seq_shift, map_map. unfold image in *. cbn [map List.concat]. f_equal.
    - unfold sub. rewrite skipn_app_exact by lia. rewrite firstn_app_exact by apply le_bytes_length. rewrite le_val_le_bytes. apply Z.mod_small. exact Rx.
    - rewrite <- (IH (pre ++ le_bytes w x)) at 2. apply map_ext. intros k. rewrite app_length, le_bytes_length, <- app_assoc. do 2 f_equal. lia. }
  exact (G []).
Qed.
Lemma image_mem_elems c t v l : (l * esize c t <= List.length v)%nat ->
  imgs (image (Z.to_nat (ByteSize c))) (mem_elems c t v l) = firstn (l * esize c t) v.
Proof.
  unfold mem_elems. fold (esize c t). set (sz := esize c t). intros H.
  assert (G : forall k p, (p * sz + k * sz <= List.length v)%nat ->
    imgs (image (Z.to_nat (ByteSize c))) (map (fun j => mem_elem (ByteSize c) (Z.to_nat (Components t)) v (j * sz)) (seq p k)) = sub v (p * sz) (k * sz)).
  { induction k as [|k IH]; intros p Hp; [reflexivity|]. cbn [seq map]. unfold imgs in *. cbn [map List.concat]. rewrite IH by lia.
    unfold mem_elem. assert (Es : (Z.to_nat (Components t) * Z.to_nat (ByteSize c) = sz)%nat) by (unfold sz, esize; rewrite ByteSize_nat, Components_nat; nia).
    rewrite image_mem_elem by lia. rewrite Es.
    cbn [Nat.mul]. rewrite sub_split. f_equal. f_equal. lia. }
  rewrite (G l 0%nat) by lia. unfold sub. reflexivity.
Qed.
Lemma mem_elems_length c t v l : List.length (mem_elems c t v l) = l.
Proof. unfold mem_elems. rewrite map_length, seq_length. reflexivity. Qed.
Lemma mem_elems_wf c t v l : (l * esize c t <= List.length v)%nat -> Forall (wf_elem c t) (mem_elems c t v l).
Proof.
  intros H. unfold mem_elems. fold (esize c t). apply Forall_forall. intros x Hx. apply in_map_iff in Hx. destruct Hx as (j & <- & Hj). apply in_seq in Hj.
  unfold mem_elem. split; [rewrite map_length, seq_length, Components_nat; lia|]. apply Forall_forall. intros y Hy. apply in_map_iff in Hy. destruct Hy as (k & <- & Hk). apply in_seq in Hk.
  pose proof (le_val_range (sub v (j * esize c t + k * Z.to_nat (ByteSize c)) (Z.to_nat (ByteSize c)))) as R. unfold zlen in R. rewrite sub_length in R; [rewrite ByteSize_nat, Nat2Z.id in R; rewrite ByteSize_nat, Nat2Z.id; exact R|].
  assert (Es : (esize c t = Z.to_nat (Components t) * Z.to_nat (ByteSize c))%nat) by (unfold esize; rewrite ByteSize_nat, Components_nat; nia). nia.
Qed.
Lemma image_zero c t : ct_valid c = true -> at_valid t = true -> image (Z.to_nat (ByteSize c)) (zero_elem t) = zeros (esize c t).
Proof. intros Hc Ht. destruct c; try discriminate; destruct t; try discriminate; reflexivity. Qed.

(** ** Owned slices *)
(** The slice [s] lies in owned memory up to its capacity and holds [v]. *)
Definition owns (o : arrays) (s : mslice) (v : bytes) : Prop :=
  List.length v = ms_len s /\ (ms_len s <= ms_cap s)%nat /\
  (ms_cap s = 0%nat \/ exists c, o (ms_arr s) = Some c /\ (ms_off s + ms_cap s <= List.length c)%nat /\ v = sub c (ms_off s) (ms_len s)).
(** The slice lies in shared memory. *)
Definition shared (D : arrays) (s : mslice) (v : bytes) : Prop :=
  List.length v = ms_len s /\ (ms_len s <= ms_cap s)%nat /\
  (ms_len s = 0%nat \/ exists c, D (ms_arr s) = Some c /\ (ms_off s + ms_len s <= List.length c)%nat /\ v = sub c (ms_off s) (ms_len s)).
(** The arrays that may be written through a slice. *)
Definition touch (s : mslice) (a : nat) : Prop := ms_cap s <> 0%nat /\ a = ms_arr s.
(** All that was owned is still owned, and unchanged outside of [T]. *)
Definition frame (T : nat -> Prop) (o o' : arrays) : Prop :=
  forall a c, o a = Some c -> exists c', o' a = Some c' /\ List.length c' = List.length c /\ (T a \/ c' = c).
(** The slice [s] is new, or in one of the arrays [T]. *)
Definition within (T : nat -> Prop) (o : arrays) (s : mslice) : Prop := ms_cap s = 0%nat \/ T (ms_arr s) \/ o (ms_arr s) = None.

Lemma frame_refl T o : frame T o o.
Proof. intros a c E. exists c. auto. Qed.
Lemma frame_trans T o1 o2 o3 : frame T o1 o2 -> frame T o2 o3 -> frame T o1 o3.
Proof.
  intros H1 H2 a c E. destruct (H1 a c E) as (c1 & E1 & L1 & K1). destruct (H2 a c1 E1) as (c2 & E2 & L2 & K2). exists c2. split; [exact E2|]. split; [congruence|].
  destruct K1 as [K1|K1]; [left; exact K1|]. destruct K2 as [K2|K2]; [left; exact K2|right; congruence].
Qed.
Lemma frame_mono (T T' : nat -> Prop) o o' : (forall a, T a -> T' a) -> frame T o o' -> frame T' o o'.
Proof. intros M H a c E. destruct (H a c E) as (c' & E' & L & K). exists c'. split; [exact E'|]. split; [exact L|]. destruct K; auto. Qed.
Lemma frame_new T o a c : o a = None -> frame T o (upd o a c).
Proof. intros N b x E. exists x. split; [|auto]. rewrite upd_other; [exact E|]. intros ->. congruence. Qed.
Lemma frame_owns T o o' s v : frame T o o' -> owns o s v -> (ms_cap s <> 0%nat -> ~ T (ms_arr s)) -> owns o' s v.
Proof.
  intros H (L1 & L2 & K) N. split; [exact L1|]. split; [exact L2|]. destruct K as [K|(c & E & L & V)]; [left; exact K|].
  destruct (Nat.eq_dec (ms_cap s) 0) as [Z|Z]; [left; exact Z|]. right.
  destruct (H (ms_arr s) c E) as (c' & E' & _ & [K|K]); [destruct (N Z K)|]. subst c'. exists c. auto.
Qed.
Lemma frame_none T o o' a : frame T o o' -> o' a = None -> o a = None.
Proof. intros H E. destruct (o a) as [c|] eqn:Q; [|reflexivity]. destruct (H a c Q) as (c' & E' & _). congruence. Qed.
Lemma within_frame T T' o o' s : frame T' o o' -> within T o' s -> within T o s.
Proof. intros H [W|[W|W]]; [left; exact W|right; left; exact W|]. right. right. exact (frame_none _ _ _ _ H W). Qed.

Lemma sub_overwrite_in {A} (c d : list A) p n off : (p + n <= List.length c)%nat -> (off + List.length d <= n)%nat ->
  sub (overwrite c (p + off) d) p n = overwrite (sub c p n) off d.
Proof.
  intros H1 H2. apply nth_error_ext. intros i. rewrite nth_error_sub, nth_error_overwrite by lia. rewrite nth_error_overwrite by (rewrite sub_length; lia). rewrite nth_error_sub.
  destruct (i <? n)%nat eqn:E; replace (p + off <=? p + i)%nat with (off <=? i)%nat by (destruct (off <=? i)%nat eqn:Q; symmetry; lia);
    replace (p + i <? p + off + List.length d)%nat with (i <? off + List.length d)%nat by (destruct (i <? off + List.length d)%nat eqn:Q; symmetry; lia).
  - replace (p + i - (p + off))%nat with (i - off)%nat by lia. reflexivity.
  - destruct ((off <=? i)%nat && (i <? off + List.length d)%nat)%bool eqn:Q; [lia|reflexivity].
Qed.
Lemma overwrite_nil {A} (l : list A) off : overwrite l off [] = l.
Proof. unfold overwrite. cbn [List.length app]. rewrite Nat.add_0_r. apply firstn_skipn. Qed.

Section Specs.
Context (D : arrays).

Lemma wp_store {A} o dst off d (k : prog A) Q v : owns o dst v -> (off + List.length d <= ms_len dst)%nat ->
  (forall o', owns o' dst (overwrite v off d) -> frame (touch dst) o o' -> wp D o' k Q) -> wp D o (store_at dst off d k) Q.
Proof.
  intros (L1 & L2 & K) Hd H. unfold store_at. destruct d as [|x d'].
  - apply H; [|apply frame_refl]. rewrite overwrite_nil. split; [exact L1|]. auto.
  - set (d := x :: d') in *. assert (Pd : (1 <= List.length d)%nat) by (subst d; cbn; lia). destruct K as [K|(c & E & L & V)]; [lia|].
    cbn [wp]. exists c. split; [exact E|]. split; [lia|]. apply H.
    + split; [rewrite overwrite_length; lia|]. split; [exact L2|]. right. eexists. split; [apply upd_same|]. split; [rewrite overwrite_length; lia|].
      rewrite V. symmetry. apply sub_overwrite_in; lia.
    + intros a c0 E0. unfold upd. destruct (Nat.eqb (ms_arr dst) a) eqn:Q0.
      * apply Nat.eqb_eq in Q0. subst a. eexists. split; [reflexivity|]. assert (c0 = c) by congruence. subst c0. split; [apply overwrite_length; lia|]. left. split; [lia|reflexivity].
      * exists c0. auto.
Qed.
Lemma wp_load {A} o s off n (k : bytes -> prog A) Q v : owns o s v -> (off + n <= ms_len s)%nat ->
  wp D o (k (sub v off n)) Q -> wp D o (bindp (load_at s off n) k) Q.
Proof.
  intros (L1 & L2 & K) Hn H. apply wp_bind. unfold load_at. destruct n as [|n']; [exact H|]. set (n := S n') in *. destruct K as [K|(c & E & L & V)]; [lia|].
  cbn [wp]. exists c. split; [left; exact E|]. split; [lia|]. rewrite V, sub_sub in H by lia. exact H.
Qed.
Lemma wp_load_shared {A} o s off n (k : bytes -> prog A) Q v : shared D s v -> (off + n <= ms_len s)%nat ->
  wp D o (k (sub v off n)) Q -> wp D o (bindp (load_at s off n) k) Q.
Proof.
  intros (L1 & L2 & K) Hn H. apply wp_bind. unfold load_at. destruct n as [|n']; [exact H|]. set (n := S n') in *. destruct K as [K|(c & E & L & V)]; [lia|].
  cbn [wp]. exists c. split; [right; exact E|]. split; [lia|]. rewrite V, sub_sub in H by lia. exact H.
Qed.
Lemma wp_alloc {A} o n (k : nat -> prog A) Q : (forall a o', o a = None -> frame (fun _ => False) o o' -> owns o' (mkMs a 0 n n) (zeros n) -> wp D o' (k a) Q) -> wp D o (Alloc n k) Q.
Proof.
  intros H. cbn [wp]. intros a H1 H2. apply H; [exact H1|apply frame_new; exact H1|].
  split; [apply repeat_length|]. split; [cbn; lia|]. right. exists (zeros n). cbn [ms_arr ms_off ms_len ms_cap]. split; [apply upd_same|]. unfold zeros. rewrite repeat_length. split; [lia|].
  unfold sub. cbn [skipn]. rewrite firstn_all2 by (rewrite repeat_length; lia). reflexivity.
Qed.

(** *** slice.go *)
Definition slice_post (c : ComponentType) (t : AccessorType) (T : nat -> Prop) (o : arrays) (v : res slice) (r : res mslice) (o' : arrays) : Prop :=
  frame T o o' /\
  match v with
  | Ok sl => exists s, r = Ok s /\ sk sl = SK c t /\ ct_valid c = true /\ at_valid t = true /\ Forall (wf_elem c t) (els sl) /\
      owns o' s (mem_image c (els sl)) /\ within T o s
  | Err e => r = Err e
  | Panic => r = Panic
  end.
Lemma mem_image_imgs c vs : mem_image c vs = imgs (image (Z.to_nat (ByteSize c))) vs.
Proof. reflexivity. Qed.
Lemma imgs_zero c t n : ct_valid c = true -> at_valid t = true -> imgs (image (Z.to_nat (ByteSize c))) (repeat (zero_elem t) n) = zeros (n * esize c t).
Proof.
  intros Hc Ht. unfold imgs. induction n as [|n IH]; [reflexivity|]. cbn [repeat map List.concat]. rewrite IH, (image_zero c t Hc Ht). cbn [Nat.mul]. unfold zeros. rewrite <- repeat_app. reflexivity.
Qed.
Lemma zeros_wf c t n : ct_valid c = true -> at_valid t = true -> Forall (wf_elem c t) (repeat (zero_elem t) n).
Proof. intros Hc Ht. apply Forall_forall. intros x Hx. apply repeat_spec in Hx. subst x. apply zero_elem_wf; assumption. Qed.

Lemma MakeSlice_spec o c t count T : wp D o (MakeSlice_m c t count) (slice_post c t T o (MakeSlice c t count)).
Proof.
  unfold MakeSlice_m, MakeSlice. destruct (checkAccessorType c t) as [u|e|] eqn:E; cbn [bind wp]; [|split; [apply frame_refl|reflexivity]..].
  destruct ((count <? 0) || (max_alloc <? count * (ByteSize c * Components t)))%bool; [split; [apply frame_refl|reflexivity]|].
  assert (V : ct_valid c = true /\ at_valid t = true). { unfold checkAccessorType in E. destruct (ct_valid c); [|discriminate]. destruct (at_valid t); [auto|discriminate]. }
  destruct V as [Hc Ht]. apply wp_alloc. intros a o' N F O. cbn [wp]. split; [eapply frame_mono; [|exact F]; intros ? []|].
  eexists. split; [reflexivity|]. cbn [sk els]. split; [reflexivity|]. split; [exact Hc|]. split; [exact Ht|]. split; [apply zeros_wf; assumption|].
  rewrite mem_image_imgs, (imgs_zero c t _ Hc Ht). split; [exact O|]. right. right. exact N.
Qed.

(** The memory of a slice up to its capacity. *)
Definition extended (s : mslice) : mslice := mkMs (ms_arr s) (ms_off s) (ms_cap s) (ms_cap s).
Lemma reslice_spec o c t v l rem b : ct_valid c = true -> at_valid t = true -> owns o v b -> ms_len v = ms_cap v -> ms_cap v <> 0%nat ->
  l * (ByteSize c * Components t) <= zlen b -> 0 <= rem ->
  wp D o (reslice_m c t v l rem) (slice_post c t (touch v) o (reslice c t b l rem)).
Proof.
  intros Hc Ht O Lc Nz Hl Hr. unfold reslice_m, reslice. destruct (l <? 0) eqn:El; [cbn [wp]; split; [apply frame_refl|reflexivity]|].
  pose proof (esize_nat c t) as Es. pose proof (mem_size_Z c t) as Ez. pose proof (mem_size_pos c t Hc Ht) as Ep. rewrite <- Es in Ez, Ep.
  destruct O as (O1 & O2 & O3). assert (Hln : (Z.to_nat l * esize c t <= List.length b)%nat) by (unfold zlen in Hl; nia).
  assert (Im : imgs (image (Z.to_nat (ByteSize c))) (mem_elems c t b (Z.to_nat l)) = firstn (Z.to_nat l * esize c t) b) by (apply image_mem_elems; exact Hln).
  destruct (0 <? rem) eqn:Er.
  - destruct (max_alloc <? rem * (ByteSize c * Components t)); [cbn [wp]; split; [apply frame_refl|reflexivity]|].
    set (n := (Z.to_nat l * esize c t)%nat) in *. set (m := (Z.to_nat rem * esize c t)%nat).
    apply wp_alloc. intros a o1 N F O. assert (Ov : owns o1 v b). { apply (frame_owns _ _ _ _ _ F); [split; [exact O1|auto]|intros _ []]. }
    apply (wp_load o1 v 0 n _ _ b Ov); [lia|].
    assert (Oa : owns o1 (mkMs a 0 n n) (zeros n)).
    { destruct O as (P1 & P2 & P3). split; [apply repeat_length|]. split; [cbn; lia|]. cbn [ms_arr ms_off ms_len ms_cap] in *. destruct P3 as [P3|(c0 & P3 & P4 & P5)]; [left; lia|]. right. exists c0. split; [exact P3|]. split; [lia|].
      unfold sub in *. cbn [skipn] in *. apply (f_equal (firstn n)) in P5. rewrite firstn_firstn in P5. replace (Nat.min n (n + m)) with n in P5 by lia. rewrite <- P5.
      unfold zeros. rewrite repeat_app, firstn_app, repeat_length, Nat.sub_diag, firstn_O, app_nil_r, firstn_all2 by (rewrite repeat_length; lia). reflexivity. }
    assert (Ls : List.length (sub b 0 n) = n) by (apply sub_length; lia).
    (* the store goes to the whole new array *)
    replace (store_at (mkMs a 0 n n) 0 (sub b 0 n)) with (@store_at (res mslice) (mkMs a 0 (n + m) (n + m)) 0 (sub b 0 n)) by reflexivity.
    eapply wp_store; [exact O|cbn [ms_len]; rewrite Ls; lia|]. intros o2 O' F2. cbn [wp]. split.
    + intros x cx Ex. destruct (F x cx Ex) as (c1 & E1 & L1 & [[]|K1]). subst c1. destruct (F2 x cx E1) as (c2 & E2 & L2 & K2). exists c2. split; [exact E2|]. split; [exact L2|].
      destruct K2 as [[_ K2]|K2]; [|right; exact K2]. cbn in K2. subst x. congruence.
    + eexists. split; [reflexivity|]. cbn [sk els]. split; [reflexivity|]. split; [exact Hc|]. split; [exact Ht|].
      split; [apply Forall_app; split; [apply mem_elems_wf; exact Hln|apply zeros_wf; assumption]|].
      split; [|right; right; exact N]. rewrite mem_image_imgs, imgs_app, Im, (imgs_zero c t _ Hc Ht). fold m.
      replace (firstn n b ++ zeros m) with (overwrite (zeros (n + m)) 0 (sub b 0 n)); [exact O'|].
      unfold overwrite. cbn [firstn app Nat.add]. rewrite Ls. unfold sub. cbn [skipn]. f_equal. unfold zeros. rewrite repeat_app. apply skipn_app_exact. apply repeat_length.
  - assert (rem = 0) as -> by lia. destruct (max_alloc <? 0 * (ByteSize c * Components t)) eqn:Q; [unfold max_alloc in Q; lia|].
    cbn [wp]. split; [apply frame_refl|]. eexists. split; [reflexivity|]. cbn [sk els repeat Z.to_nat]. rewrite app_nil_r. split; [reflexivity|]. split; [exact Hc|]. split; [exact Ht|].
    split; [apply mem_elems_wf; exact Hln|]. rewrite mem_image_imgs, Im. split.
    + split; [cbn [ms_len]; rewrite firstn_length; lia|]. split; [cbn; lia|]. cbn [ms_arr ms_off ms_len ms_cap]. destruct O3 as [O3|(c0 & O3 & O4 & O5)]; [congruence|]. right. exists c0. split; [exact O3|]. split; [lia|].
      rewrite O5. unfold sub. rewrite firstn_firstn. f_equal. lia.
    + right. left. split; [exact Nz|reflexivity].
Qed.

Lemma MakeSliceBuffer_spec o c t count buf b : owns o (extended buf) b ->
  wp D o (MakeSliceBuffer_m c t count buf) (slice_post c t (touch buf) o (MakeSliceBuffer c t count b)).
Proof.
  intros O. unfold MakeSliceBuffer_m, MakeSliceBuffer. destruct (checkAccessorType c t) as [u|e|] eqn:E; cbn [bind wp]; [|split; [apply frame_refl|reflexivity]..].
  assert (V : ct_valid c = true /\ at_valid t = true). { unfold checkAccessorType in E. destruct (ct_valid c); [|discriminate]. destruct (at_valid t); [auto|discriminate]. }
  destruct V as [Hc Ht]. fold (extended buf). pose proof O as (O1 & O2 & O3). cbn [extended ms_len ms_cap] in O1.
  assert (Zb : zlen b = Z.of_nat (ms_cap buf)) by (unfold zlen; lia).
  destruct (ms_len (extended buf)) as [|k] eqn:Ek; cbn [extended ms_len] in Ek.
  - replace (zlen b =? 0) with true by lia. apply MakeSlice_spec.
  - replace (zlen b =? 0) with false by lia. unfold castSlice_m, castSlice.
    pose proof (esize_nat c t) as Es. pose proof (mem_size_Z c t) as Ez. pose proof (mem_size_pos c t Hc Ht) as Ep. rewrite <- Es in Ez, Ep.
    destruct (ByteSize c * Components t =? 0) eqn:Q; [lia|].
    assert (EqL : Z.of_nat (ms_len (extended buf)) = zlen b) by (cbn [extended ms_len]; lia). rewrite EqL.
    set (l := zlen b / (ByteSize c * Components t)).
    set (rem := if l <? count then count - l else 0). set (l' := if count <? l then count else l).
    assert (Hr : 0 <= rem) by (unfold rem; destruct (l <? count) eqn:?; lia).
    assert (Hl : l' * (ByteSize c * Components t) <= zlen b). { unfold l'. assert (l * (ByteSize c * Components t) <= zlen b) by (unfold l; rewrite Z.mul_comm; apply Z.mul_div_le; lia). destruct (count <? l) eqn:?; nia. }
    assert (R : wp D o (reslice_m c t (extended buf) l' rem) (slice_post c t (touch buf) o (reslice c t b l' rem))).
    { apply (reslice_spec o c t (extended buf)); [exact Hc|exact Ht|exact O|reflexivity|cbn; lia|exact Hl|exact Hr]. }
    rewrite Hc, Ht. cbn [andb]. destruct c, t; try exact R; cbn [wp]; split; try apply frame_refl; reflexivity.
Qed.
End Specs.
