(** Real analysis for the sRGB conversions: powers of numbers close to one,
    comparison of fractional powers by integer powers, and how far the two
    transfer functions are from being inverse to each other. *)
From Coq Require Import ZArith Reals Lia Lra.
From Flocq Require Import Core.
From Verif Require Import SpecSrgb.
Open Scope R_scope.

Lemma ln_le x : 0 < x -> ln x <= x - 1.
Proof.
  intros P. destruct (Rle_lt_dec (ln x) (x - 1)) as [H|H]; [exact H|]. apply exp_increasing in H. rewrite exp_ln in H by lra.
  pose proof (exp_ineq1_le (x - 1)). lra.
Qed.
Lemma ln_ge x : 0 < x -> 1 - / x <= ln x.
Proof. intros P. pose proof (ln_le (/ x) ltac:(apply Rinv_0_lt_compat; lra)) as H. rewrite ln_Rinv in H by lra. lra. Qed.

(** (1+e)^b for small e. *)
Lemma power_near a b e : 0 <= e <= / 1000 -> Rabs (a - 1) <= e -> 0 <= b <= 3 -> Rabs (Rpower a b - 1) <= 101 / 100 * (b * e).
Proof.
  intros E A B. apply Rabs_le_inv in A. unfold Rpower.
  assert (P : 0 < a) by lra. pose proof (ln_le a P) as U. pose proof (ln_ge a P) as L.
  assert (IA : 1 - / a >= - (1002 / 1000) * e).
  { assert (/ a <= 1 + 1002 / 1000 * e); [|lra]. apply (Rmult_le_reg_r a); [lra|]. rewrite Rinv_l by lra. nra. }
  set (x := b * ln a) in *. assert (X : - (1002 / 1000) * (b * e) <= x <= b * e) by (unfold x; nra).
  assert (BE : 0 <= b * e <= 3 / 1000) by nra.
  pose proof (exp_ineq1_le x) as L1. pose proof (exp_ineq1_le (- x)) as L2. rewrite exp_Ropp in L2.
  pose proof (exp_pos x) as EP.
  assert (U1 : exp x * (1 - x) <= 1).
  { apply (Rmult_le_compat_r (exp x)) in L2; [|lra]. rewrite Rinv_l in L2 by lra. lra. }
  apply Rabs_le. split; [nra|].
  assert (exp x <= 1 + 101 / 100 * (b * e)); [|lra].
  apply (Rmult_le_reg_r (1 - x)); [lra|]. nra.
Qed.
(** a^h for tiny h. *)
Lemma power_tiny a h : / 1024 <= a <= 2 -> Rabs h <= / 1125899906842624 -> Rabs (Rpower a h - 1) <= / 1000000000000.
Proof.
  intros A H. apply Rabs_le_inv in H. unfold Rpower. assert (P : 0 < a) by lra.
  pose proof (ln_le a P) as U. pose proof (ln_ge a P) as L.
  assert (IA : / a <= 1024). { apply (Rmult_le_reg_r a); [lra|]. rewrite Rinv_l by lra. lra. }
  set (x := h * ln a) in *. assert (X : - / 1100000000000 <= x <= / 1100000000000).
  { unfold x. assert (LB : -1024 <= ln a <= 1024) by lra. split; nra. }
  pose proof (exp_ineq1_le x) as L1. pose proof (exp_ineq1_le (- x)) as L2. rewrite exp_Ropp in L2. pose proof (exp_pos x) as EP.
  assert (U1 : exp x * (1 - x) <= 1). { apply (Rmult_le_compat_r (exp x)) in L2; [|lra]. rewrite Rinv_l in L2 by lra. lra. }
  apply Rabs_le. split; [lra|]. assert (exp x <= 1 + / 1000000000000); [|lra]. apply (Rmult_le_reg_r (1 - x)); [lra|]. nra.
Qed.

(** Comparisons with rationals. *)
Lemma power_512 a : 0 < a -> Rpower a (10 / 24) ^ 12 = a ^ 5.
Proof. intros A. rewrite <- !Rpower_pow by (try exact A; apply exp_pos). rewrite Rpower_mult. f_equal. cbn. lra. Qed.
Lemma power_125 a : 0 < a -> Rpower a (24 / 10) ^ 5 = a ^ 12.
Proof. intros A. rewrite <- !Rpower_pow by (try exact A; apply exp_pos). rewrite Rpower_mult. f_equal. cbn. lra. Qed.
Lemma pow_le_inv n a b : 0 <= a -> 0 <= b -> (0 < n)%nat -> a ^ n <= b ^ n -> a <= b.
Proof.
  intros A B N H. destruct (Rle_lt_dec a b) as [L|L]; [exact L|]. exfalso.
  assert (S : forall k, 0 <= b ^ k) by (intros; apply pow_le; lra).
  assert (M : forall k, b ^ k <= a ^ k) by (intros; apply pow_incr; lra).
  destruct n as [|n]; [lia|]. cbn [pow] in H. pose proof (S n). pose proof (M n). pose proof (pow_lt a n ltac:(lra)). nra.
Qed.
Lemma power_512_le a b : 0 < a -> 0 <= b -> a ^ 5 <= b ^ 12 -> Rpower a (10 / 24) <= b.
Proof. intros A B H. apply (pow_le_inv 12); [left; apply exp_pos|exact B|lia|]. rewrite power_512 by exact A. exact H. Qed.
Lemma power_512_ge a b : 0 < a -> 0 <= b -> b ^ 12 <= a ^ 5 -> b <= Rpower a (10 / 24).
Proof. intros A B H. apply (pow_le_inv 12); [exact B|left; apply exp_pos|lia|]. rewrite power_512 by exact A. exact H. Qed.
Lemma power_125_le a b : 0 < a -> 0 <= b -> a ^ 12 <= b ^ 5 -> Rpower a (24 / 10) <= b.
Proof. intros A B H. apply (pow_le_inv 5); [left; apply exp_pos|exact B|lia|]. rewrite power_125 by exact A. exact H. Qed.
Lemma power_125_ge a b : 0 < a -> 0 <= b -> b ^ 5 <= a ^ 12 -> b <= Rpower a (24 / 10).
Proof. intros A B H. apply (pow_le_inv 5); [exact B|left; apply exp_pos|lia|]. rewrite power_125 by exact A. exact H. Qed.
Lemma Rpower_mono a b c : 0 < a <= b -> 0 <= c -> Rpower a c <= Rpower b c.
Proof. intros A C. apply Rle_Rpower_l; lra. Qed.

(** The two functions undo each other, up to the discontinuity at the
    threshold and a relative error of the linear value. *)
Lemma srgb_inverse t c : 0 <= t <= 1 -> Rabs (c - srgb_decode t) <= / 2097152 * srgb_decode t -> Rabs (srgb_encode c - t) <= / 2000000.
Proof.
  intros T E. unfold srgb_decode in E. apply Rabs_le_inv in E. apply Rabs_le.
  destruct (Rle_dec t (4045 / 100000)) as [L|L].
  - unfold srgb_encode. destruct (Rle_dec c (31308 / 10000000)) as [M|M]; [lra|].
    assert (C : 31308 / 10000000 <= c <= 3130807 / 1000000000) by lra.
    assert (LO : 90473845 / 1000000000 <= Rpower c (10 / 24)).
    { apply Rle_trans with (Rpower (31308 / 10000000) (10 / 24)); [|apply Rpower_mono; lra]. apply power_512_ge; lra. }
    assert (HI : Rpower c (10 / 24) <= 904739310 / 10000000000).
    { apply Rle_trans with (Rpower (3130807 / 1000000000) (10 / 24)); [apply Rpower_mono; lra|]. apply power_512_le; lra. }
    lra.
  - set (D := (t + 55 / 1000) / (1055 / 1000)) in *. assert (DT : t = 1055 / 1000 * D - 55 / 1000) by (unfold D; lra).
    assert (DB : 90473933 / 1000000000 <= D <= 1) by lra.
    pose proof (exp_pos (24 / 10 * ln D)) as PP. change (0 < Rpower D (24 / 10)) in PP.
    assert (LO : 31308071 / 10000000000 <= Rpower D (24 / 10)).
    { apply Rle_trans with (Rpower (90473933 / 1000000000) (24 / 10)); [|apply Rpower_mono; lra]. apply power_125_ge; lra. }
    unfold srgb_encode. destruct (Rle_dec c (31308 / 10000000)) as [M|M].
    + assert (HD : Rpower D (24 / 10) <= 31308016 / 10000000000) by lra. lra.
    + set (P := Rpower D (24 / 10)) in *. set (k := c / P).
      assert (CK : c = P * k) by (unfold k; field; lra).
      assert (K : Rabs (k - 1) <= / 2097152). { apply Rabs_le. split; apply (Rmult_le_reg_l P); try exact PP; nra. }
      assert (KP : 0 < k). { apply Rabs_le_inv in K. lra. }
      assert (PW : Rpower c (10 / 24) = D * Rpower k (10 / 24)).
      { rewrite CK, <- Rpower_mult_distr by assumption. f_equal. unfold P. rewrite Rpower_mult. replace (24 / 10 * (10 / 24)) with 1 by lra. apply Rpower_1. lra. }
      pose proof (power_near k (10 / 24) (/ 2097152) ltac:(lra) K ltac:(lra)) as N. apply Rabs_le_inv in N.
      rewrite PW, DT. set (z := Rpower k (10 / 24)) in *. nra.
Qed.
