(** Facts about F64: min and max of finite floats, widening. *)
From Verif Require Import BaseFacts F64.

Lemma f64_finite_not_nan x : f64_finite x = true -> f64_is_nan x = false.
Proof. unfold f64_finite, f64_is_nan. lia. Qed.

Lemma f64_finite_not_inf x : 0 <= x < 2 ^ 64 -> f64_finite x = true -> x <> f64_inf /\ x <> f64_ninf.
Proof. unfold f64_finite, f64_mag. intros _ H. split; intros ->; vm_compute in H; discriminate. Qed.

Lemma f64_key_bound x : f64_finite x = true -> - f64_inf < f64_key x < f64_inf.
Proof.
  unfold f64_finite, f64_key, f64_mag. intros H. pose proof (Z.mod_pos_bound x (2 ^ 63)).
  unfold f64_inf in *. destruct (f64_sign x); lia.
Qed.

Lemma f64_min_cases x y :
  f64_finite x = true -> f64_finite y = true ->
  (f64_min x y = x \/ f64_min x y = y) /\ f64_key (f64_min x y) = Z.min (f64_key x) (f64_key y).
Proof.
  intros Hx Hy. unfold f64_min.
  assert (x =? f64_ninf = false) as -> by (apply Z.eqb_neq; intros ->; discriminate).
  assert (y =? f64_ninf = false) as -> by (apply Z.eqb_neq; intros ->; discriminate).
  cbn [orb]. rewrite (f64_finite_not_nan _ Hx), (f64_finite_not_nan _ Hy). cbn [orb].
  destruct ((f64_key x =? 0) && (f64_key y =? 0)) eqn:E0.
  - destruct (f64_sign x); split; auto; lia.
  - unfold f64_lt. rewrite (f64_finite_not_nan _ Hx), (f64_finite_not_nan _ Hy). cbn [negb andb].
    destruct (f64_key x <? f64_key y) eqn:E; split; auto; lia.
Qed.

Lemma f64_max2_cases x y :
  f64_finite x = true -> f64_finite y = true ->
  (f64_max2 x y = x \/ f64_max2 x y = y) /\ f64_key (f64_max2 x y) = Z.max (f64_key x) (f64_key y).
Proof.
  intros Hx Hy. unfold f64_max2.
  assert (x =? f64_inf = false) as -> by (apply Z.eqb_neq; intros ->; discriminate).
  assert (y =? f64_inf = false) as -> by (apply Z.eqb_neq; intros ->; discriminate).
  cbn [orb]. rewrite (f64_finite_not_nan _ Hx), (f64_finite_not_nan _ Hy). cbn [orb].
  destruct ((f64_key x =? 0) && (f64_key y =? 0)) eqn:E0.
  - destruct (f64_sign x); split; auto; lia.
  - unfold f64_lt. rewrite (f64_finite_not_nan _ Hx), (f64_finite_not_nan _ Hy). cbn [negb andb].
    destruct (f64_key y <? f64_key x) eqn:E; split; auto; lia.
Qed.

Lemma f64_min_top x : f64_finite x = true -> f64_min f64_max x = x.
Proof.
  intros Hx. pose proof (f64_key_bound x Hx) as HB. unfold f64_min.
  change (f64_max =? f64_ninf) with false.
  assert (x =? f64_ninf = false) as -> by (apply Z.eqb_neq; intros ->; discriminate).
  cbn [orb]. change (f64_is_nan f64_max) with false. rewrite (f64_finite_not_nan _ Hx). cbn [orb].
  change (f64_key f64_max =? 0) with false. cbn [andb].
  unfold f64_lt. change (f64_key f64_max) with (f64_inf - 1).
  destruct (f64_inf - 1 <? f64_key x) eqn:E; [lia|]. rewrite andb_false_r. reflexivity.
Qed.

Lemma f64_max_bottom x : f64_finite x = true -> f64_max2 f64_nmax x = x.
Proof.
  intros Hx. pose proof (f64_key_bound x Hx) as HB. unfold f64_max2.
  change (f64_nmax =? f64_inf) with false.
  assert (x =? f64_inf = false) as -> by (apply Z.eqb_neq; intros ->; discriminate).
  cbn [orb]. change (f64_is_nan f64_nmax) with false. rewrite (f64_finite_not_nan _ Hx). cbn [orb].
  change (f64_key f64_nmax =? 0) with false. cbn [andb].
  unfold f64_lt. change (f64_key f64_nmax) with (- (f64_inf - 1)).
  destruct (f64_key x <? - (f64_inf - 1)) eqn:E; [lia|]. rewrite andb_false_r. reflexivity.
Qed.

(** Folding min over a non-empty list of finite floats. *)
Lemma fold_min_spec xs : forall a, f64_finite a = true -> Forall (fun x => f64_finite x = true) xs ->
  In (fold_left f64_min xs a) (a :: xs) /\
  (forall x, In x (a :: xs) -> f64_key (fold_left f64_min xs a) <= f64_key x).
Proof.
  induction xs as [|y xs IH]; intros a Ha HF; cbn [fold_left].
  - split; [left; auto|]. intros x [<-|[]]. lia.
  - inversion HF as [|? ? Hy HF']; subst. destruct (f64_min_cases a y Ha Hy) as [HC HK].
    assert (Hm : f64_finite (f64_min a y) = true) by (destruct HC as [->| ->]; auto).
    destruct (IH _ Hm HF') as [H1 H2]. split.
    + destruct H1 as [H1|H1]; [|right; right; exact H1]. rewrite <- H1. destruct HC as [->| ->]; cbn; auto.
    + intros x [<-|[<-|Hx]].
      * specialize (H2 _ (or_introl eq_refl)). lia.
      * specialize (H2 _ (or_introl eq_refl)). lia.
      * apply H2. right. exact Hx.
Qed.

Lemma fold_max_spec xs : forall a, f64_finite a = true -> Forall (fun x => f64_finite x = true) xs ->
  In (fold_left f64_max2 xs a) (a :: xs) /\
  (forall x, In x (a :: xs) -> f64_key x <= f64_key (fold_left f64_max2 xs a)).
Proof.
  induction xs as [|y xs IH]; intros a Ha HF; cbn [fold_left].
  - split; [left; auto|]. intros x [<-|[]]. lia.
  - inversion HF as [|? ? Hy HF']; subst. destruct (f64_max2_cases a y Ha Hy) as [HC HK].
    assert (Hm : f64_finite (f64_max2 a y) = true) by (destruct HC as [->| ->]; auto).
    destruct (IH _ Hm HF') as [H1 H2]. split.
    + destruct H1 as [H1|H1]; [|right; right; exact H1]. rewrite <- H1. destruct HC as [->| ->]; cbn; auto.
    + intros x [<-|[<-|Hx]].
      * specialize (H2 _ (or_introl eq_refl)). lia.
      * specialize (H2 _ (or_introl eq_refl)). lia.
      * apply H2. right. exact Hx.
Qed.

(** ** Widening float32 to float64 is exact and order preserving *)
Definition f32_mag (x : Z) : Z := x mod 2 ^ 31.
Definition f32_key (x : Z) : Z := if 2 ^ 31 <=? x then - f32_mag x else f32_mag x.

Lemma f32_fields x : 0 <= x < 2 ^ 32 ->
  x = f32_sign x * 2 ^ 31 + f32_exp x * 2 ^ 23 + f32_man x /\
  0 <= f32_sign x <= 1 /\ 0 <= f32_exp x < 256 /\ 0 <= f32_man x < 2 ^ 23 /\
  f32_mag x = f32_exp x * 2 ^ 23 + f32_man x.
Proof. unfold f32_sign, f32_exp, f32_man, f32_mag. lia. Qed.

(** Magnitude bits of the widened value. *)
Definition widen_mag (e m : Z) : Z :=
  if e =? 0 then
    if m =? 0 then 0
    else (Z.log2 m + 874) * 2 ^ 52 + (m - 2 ^ Z.log2 m) * 2 ^ (52 - Z.log2 m)
  else (e + 896) * 2 ^ 52 + m * 2 ^ 29.

Lemma subnormal_bounds m : 0 < m < 2 ^ 23 ->
  let k := Z.log2 m in 0 <= k < 23 /\ 0 <= (m - 2 ^ k) * 2 ^ (52 - k) < 2 ^ 52.
Proof.
  intros H k. pose proof (Z.log2_spec m ltac:(lia)) as [H1 H2]. fold k in H1, H2.
  assert (0 <= k) by apply Z.log2_nonneg.
  assert (k < 23) by (apply Z.log2_lt_pow2; lia).
  split; [lia|]. replace (2 ^ 52) with (2 ^ k * 2 ^ (52 - k)) by (rewrite <- Z.pow_add_r by lia; f_equal; lia).
  rewrite Z.pow_succ_r in H2 by lia. pose proof (Z.pow_pos_nonneg 2 (52 - k) ltac:(lia) ltac:(lia)).
  nia.
Qed.

Lemma widen_mag_bound e m : 0 <= e < 255 -> 0 <= m < 2 ^ 23 -> 0 <= widen_mag e m < f64_inf.
Proof.
  intros He Hm. unfold widen_mag. change f64_inf with (2047 * 2 ^ 52). destruct (e =? 0) eqn:E.
  - destruct (m =? 0) eqn:E2; [lia|].
    pose proof (subnormal_bounds m ltac:(lia)) as [Hk HB]. cbv zeta in HB. nia.
  - lia.
Qed.

Lemma f64_of_f32_mag x : 0 <= x < 2 ^ 32 -> f32_finite x = true ->
  f64_of_f32 x = f32_sign x * 2 ^ 63 + widen_mag (f32_exp x) (f32_man x).
Proof.
  intros Hx HF. unfold f32_finite in HF. unfold f64_of_f32, widen_mag. cbv zeta.
  destruct (f32_exp x =? 255) eqn:E; [lia|].
  destruct (f32_exp x =? 0); [destruct (f32_man x =? 0)|]; lia.
Qed.

Lemma f64_of_f32_finite x : 0 <= x < 2 ^ 32 -> f32_finite x = true ->
  0 <= f64_of_f32 x < 2 ^ 64 /\ f64_finite (f64_of_f32 x) = true /\
  f64_key (f64_of_f32 x) = if 2 ^ 31 <=? x then - widen_mag (f32_exp x) (f32_man x) else widen_mag (f32_exp x) (f32_man x).
Proof.
  intros Hx HF. rewrite (f64_of_f32_mag x Hx HF).
  destruct (f32_fields x Hx) as (Hxe & Hs & He & Hm & _). unfold f32_finite in HF.
  pose proof (widen_mag_bound (f32_exp x) (f32_man x) ltac:(lia) Hm) as HB.
  set (w := widen_mag (f32_exp x) (f32_man x)) in *.
  assert (HI : f64_inf < 2 ^ 63) by (vm_compute; reflexivity).
  assert (HM : f64_mag (f32_sign x * 2 ^ 63 + w) = w).
  { unfold f64_mag. rewrite Z.add_comm, Z_mod_plus_full. apply Z.mod_small. lia. }
  split; [lia|]. split; [unfold f64_finite; rewrite HM; lia|].
  unfold f64_key. rewrite HM. unfold f64_sign.
  destruct (2 ^ 63 <=? f32_sign x * 2 ^ 63 + w) eqn:E1; destruct (2 ^ 31 <=? x) eqn:E2; auto; lia.
Qed.

(** Same order as the float32 values. *)
Lemma widen_mag_mono e m e' m' : 0 <= e < 255 -> 0 <= m < 2 ^ 23 -> 0 <= e' < 255 -> 0 <= m' < 2 ^ 23 ->
  e * 2 ^ 23 + m < e' * 2 ^ 23 + m' -> widen_mag e m < widen_mag e' m'.
Proof.
  intros He Hm He' Hm' H. unfold widen_mag.
  destruct (e =? 0) eqn:E0; destruct (e' =? 0) eqn:E0'; try lia.
  - destruct (m =? 0) eqn:Em; destruct (m' =? 0) eqn:Em'; try lia.
    + pose proof (subnormal_bounds m' ltac:(lia)) as [Hk HB]. cbv zeta in HB. nia.
    + pose proof (subnormal_bounds m ltac:(lia)) as [Hk HB]. pose proof (subnormal_bounds m' ltac:(lia)) as [Hk' HB'].
      cbv zeta in HB, HB'.
      pose proof (Z.log2_le_mono m m' ltac:(lia)) as HL.
      destruct (Z.eq_dec (Z.log2 m) (Z.log2 m')) as [E|E].
      * rewrite E in *. pose proof (Z.pow_pos_nonneg 2 (52 - Z.log2 m') ltac:(lia) ltac:(lia)). nia.
      * nia.
  - destruct (m =? 0) eqn:Em; [lia|].
    pose proof (subnormal_bounds m ltac:(lia)) as [Hk HB]. cbv zeta in HB. nia.
Qed.

Theorem f64_of_f32_order x y :
  0 <= x < 2 ^ 32 -> f32_finite x = true -> 0 <= y < 2 ^ 32 -> f32_finite y = true ->
  f64_key (f64_of_f32 x) <= f64_key (f64_of_f32 y) <-> f32_key x <= f32_key y.
Proof.
  intros Hx HFx Hy HFy.
  destruct (f64_of_f32_finite x Hx HFx) as (_ & _ & ->). destruct (f64_of_f32_finite y Hy HFy) as (_ & _ & ->).
  destruct (f32_fields x Hx) as (Hxe & Hs & He & Hm & HMx). destruct (f32_fields y Hy) as (Hye & Hs' & He' & Hm' & HMy).
  unfold f32_finite in *. unfold f32_key. rewrite HMx, HMy.
  set (ex := f32_exp x) in *. set (mx := f32_man x) in *. set (ey := f32_exp y) in *. set (my := f32_man y) in *.
  pose proof (widen_mag_bound ex mx ltac:(lia) Hm) as B1. pose proof (widen_mag_bound ey my ltac:(lia) Hm') as B2.
  assert (HZ : forall e m, 0 <= e < 255 -> 0 <= m < 2 ^ 23 -> 0 < e * 2 ^ 23 + m -> 0 < widen_mag e m).
  { intros e m H1 H2 H3. pose proof (widen_mag_mono 0 0 e m ltac:(lia) ltac:(lia) H1 H2 ltac:(lia)). exact H. }
  pose proof (HZ ex mx ltac:(lia) Hm) as Z1. pose proof (HZ ey my ltac:(lia) Hm') as Z2.
  assert (Z0 : widen_mag 0 0 = 0) by reflexivity.
  destruct (Z.lt_trichotomy (ex * 2 ^ 23 + mx) (ey * 2 ^ 23 + my)) as [L|[L|L]].
  - pose proof (widen_mag_mono ex mx ey my ltac:(lia) Hm ltac:(lia) Hm' L).
    destruct (2 ^ 31 <=? x), (2 ^ 31 <=? y); lia.
  - assert (ex = ey /\ mx = my) as [E1 E2] by lia. rewrite E1, E2 in *.
    assert (ey * 2 ^ 23 + my = 0 -> widen_mag ey my = 0).
    { intros Hz. assert (ey = 0 /\ my = 0) as [-> ->] by lia. reflexivity. }
    destruct (2 ^ 31 <=? x), (2 ^ 31 <=? y); lia.
  - pose proof (widen_mag_mono ey my ex mx ltac:(lia) Hm' ltac:(lia) Hm L).
    destruct (2 ^ 31 <=? x), (2 ^ 31 <=? y); lia.
Qed.
