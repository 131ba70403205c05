(** Which 8-bit channels come back through the sRGB conversions: every power
    that math.Pow is asked for is enclosed between two computed floats. *)
From Coq Require Import ZArith Reals Lia Lra List Bool.
From Flocq Require Import Core IEEE754.Binary IEEE754.Bits IEEE754.BinarySingleNaN.
From Verif Require Import Norm NormProofs NormAlpha NormWhite SrgbProofs.
Import ListNotations.
Open Scope Z_scope.

(** The float n / 2^50. *)
Definition d50 (n : Z) : binary64 := Binary.binary_normalize 53 1024 hp64 hl64 mode_NE n (-50) false.
Lemma d50_val n : Z.abs n < 2 ^ 53 -> R64 (d50 n) = (IZR n / 1125899906842624)%R /\ fin64 (d50 n) = true.
Proof.
  intros N. destruct (norm64_exact n (-50) false) as [A B]; [exact N|lia|lia|]. split; [|exact B]. unfold d50. rewrite A. unfold F2R; cbn [Fnum Fexp].
  change (bpow radix2 (-50)) with (/ 1125899906842624)%R. reflexivity.
Qed.

(** [l / 2^50 <= x^(k/n) <= (l + 1) / 2^50], for [x] between 1/512 and 1. *)
Definition encloses (n k : Z) (x : binary64) (l : Z) : bool :=
  match Binary.B2FF 53 1024 x with
  | F754_finite false m e =>
      let a := 2 ^ (50 * n) * Z.pos m ^ k in let d := 2 ^ (- e * k) in
      (e <=? 0) && (0 <? l) && (d * l ^ n <=? a) && (a <=? d * (l + 1) ^ n) &&
      (2 ^ (- e) <=? 512 * Z.pos m) && (Z.pos m <=? 2 ^ (- e)) && (1100 <? l) && (l + 1100 <=? 2 ^ 50)
  | _ => false
  end.

Lemma power_root a L n k : (0 < a)%R -> (0 < L)%R -> (0 < n)%nat ->
  ((L ^ n <= a ^ k)%R -> (L <= Rpower a (INR k / INR n))%R) /\ ((a ^ k <= L ^ n)%R -> (Rpower a (INR k / INR n) <= L)%R).
Proof.
  intros A HL N. assert (NP : (0 < INR n)%R) by (apply lt_0_INR; lia). assert (IP : (0 <= / INR n)%R) by (left; apply Rinv_0_lt_compat; exact NP).
  assert (E1 : Rpower (L ^ n) (/ INR n) = L).
  { rewrite <- Rpower_pow by exact HL. rewrite Rpower_mult, Rinv_r by lra. apply Rpower_1. exact HL. }
  assert (E2 : Rpower (a ^ k) (/ INR n) = Rpower a (INR k / INR n)) by (rewrite <- Rpower_pow by exact A; rewrite Rpower_mult; reflexivity).
  assert (P1 : (0 < L ^ n)%R) by (apply pow_lt; exact HL). assert (P2 : (0 < a ^ k)%R) by (apply pow_lt; exact A).
  rewrite <- E2. split; intros H.
  - apply Rle_trans with (Rpower (L ^ n) (/ INR n)); [rewrite E1; lra|apply Rle_Rpower_l; auto].
  - apply Rle_trans with (Rpower (L ^ n) (/ INR n)); [apply Rle_Rpower_l; auto|rewrite E1; lra].
Qed.

Lemma encloses_ok n k x l : (0 < n)%nat -> encloses (Z.of_nat n) (Z.of_nat k) x l = true ->
  fin64 x = true /\ (/ 512 <= R64 x <= 1)%R /\ (IZR l / 1125899906842624 <= Rpower (R64 x) (INR k / INR n) <= (IZR l + 1) / 1125899906842624)%R /\
  1100 < l /\ l + 1100 <= 2 ^ 50.
Proof.
  intros N H. unfold encloses in H. destruct (Binary.B2FF 53 1024 x) as [|? | |s m e] eqn:E; try discriminate. destruct s; [discriminate|].
  cbv zeta in H. rewrite !andb_true_iff in H. destruct H as (((((((H1 & H2) & H3) & H4) & H5) & H6) & H7) & H8).
  apply Z.leb_le in H1, H3, H4, H5, H6, H8. apply Z.ltb_lt in H2, H7. destruct (R64_of x false m e E) as [V F]. split; [exact F|].
  cbn [cond_Zopp] in V. unfold F2R in V; cbn [Fnum Fexp] in V.
  set (D := IZR (2 ^ (- e))). assert (DP : (0 < D)%R) by (apply IZR_lt, Z.pow_pos_nonneg; lia).
  assert (VD : R64 x = (IZR (Z.pos m) / D)%R).
  { rewrite V. unfold Rdiv. f_equal. replace e with (- (- e)) at 1 by lia. rewrite bpow_opp. f_equal. unfold D. change 2 with (radix_val radix2). symmetry. apply IZR_Zpower. lia. }
  assert (MP : (0 < IZR (Z.pos m))%R) by (apply IZR_lt; lia).
  assert (XP : (0 < R64 x)%R) by (rewrite VD; apply Rdiv_lt_0_compat; assumption).
  assert (PK : forall z p, IZR (z ^ Z.of_nat p) = (IZR z ^ p)%R) by (intros; symmetry; apply pow_IZR).
  assert (QD : IZR (2 ^ (- e * Z.of_nat k)) = (D ^ k)%R) by (rewrite Z.pow_mul_r by lia; apply PK).
  assert (QH : IZR (2 ^ (50 * Z.of_nat n)) = (1125899906842624 ^ n)%R) by (rewrite Z.pow_mul_r by lia; apply PK).
  assert (DK : (0 < D ^ k)%R) by (apply pow_lt; exact DP). assert (HN : (0 < 1125899906842624 ^ n)%R) by (apply pow_lt; lra).
  apply IZR_le in H3, H4, H5, H6. rewrite !mult_IZR, !PK, QD, QH in H3, H4. rewrite mult_IZR in H5. fold D in H5, H6.
  split; [rewrite VD; split|split; [|split; assumption]].
  - apply (Rmult_le_reg_r D); [exact DP|]. unfold Rdiv. rewrite Rmult_assoc, Rinv_l by lra. lra.
  - apply (Rmult_le_reg_r D); [exact DP|]. unfold Rdiv. rewrite Rmult_assoc, Rinv_l by lra. lra.
  - apply IZR_lt in H2. split.
    + apply (power_root (R64 x) (IZR l / 1125899906842624) n k XP); [lra|exact N|]. rewrite VD. unfold Rdiv. rewrite !Rpow_mult_distr, !pow_inv.
      apply (Rmult_le_reg_r (D ^ k * 1125899906842624 ^ n)); [apply Rmult_lt_0_compat; assumption|].
      replace (IZR l ^ n * / 1125899906842624 ^ n * (D ^ k * 1125899906842624 ^ n))%R with (IZR l ^ n * D ^ k)%R by (field; lra).
      replace (IZR (Z.pos m) ^ k * / D ^ k * (D ^ k * 1125899906842624 ^ n))%R with (IZR (Z.pos m) ^ k * 1125899906842624 ^ n)%R by (field; lra). lra.
    + apply (power_root (R64 x) ((IZR l + 1) / 1125899906842624) n k XP); [lra|exact N|]. rewrite VD. unfold Rdiv. rewrite !Rpow_mult_distr, !pow_inv. rewrite plus_IZR in H4.
      apply (Rmult_le_reg_r (D ^ k * 1125899906842624 ^ n)); [apply Rmult_lt_0_compat; assumption|].
      replace ((IZR l + 1) ^ n * / 1125899906842624 ^ n * (D ^ k * 1125899906842624 ^ n))%R with ((IZR l + 1) ^ n * D ^ k)%R by (field; lra).
      replace (IZR (Z.pos m) ^ k * / D ^ k * (D ^ k * 1125899906842624 ^ n))%R with (IZR (Z.pos m) ^ k * 1125899906842624 ^ n)%R by (field; lra). lra.
Qed.

(** A small change of the exponent. *)
Lemma exponent_near a b t : (/ 512 <= a <= 1)%R -> (0 <= b)%R -> (0 <= t)%R ->
  (Rpower a b - 511 * t <= Rpower a (b + t) <= Rpower a b)%R.
Proof.
  intros A B T. rewrite Rpower_plus. pose proof (Rpower_bound a b ltac:(lra) B) as P1. pose proof (Rpower_bound a t ltac:(lra) T) as P2. pose proof (Rpower_lower a t ltac:(lra) T) as P3.
  assert (I : (/ a <= 512)%R) by (rewrite <- (Rinv_inv 512); apply Rinv_le_contravar; lra).
  assert (ONE : forall c, (0 <= c)%R -> (/ (1 + c * (1 - a)) <= 1)%R).
  { intros c C. apply Rle_trans with (/ 1)%R; [apply Rinv_le_contravar; [lra|nra]|lra]. }
  pose proof (ONE b B). pose proof (ONE t T). set (p := Rpower a b) in *. set (q := Rpower a t) in *. set (i := (/ a)%R) in *. clearbody p q i.
  assert (Q1 : (1 - 511 * t <= q)%R) by nra. split; nra.
Qed.

(** The two powers of math.go. *)
Definition around (l : Z) (p : binary64) : Prop := fin64 p = true /\ (R64 (d50 (l - 1100)) <= R64 p <= R64 (d50 (l + 1100)))%R.
Lemma linear_power pow x l : accurate pow -> encloses 5 12 x l = true -> around l (pow x (const64 24 10)).
Proof.
  intros P H. destruct (encloses_ok 5 12 x l ltac:(lia) H) as (F & X & B & L1 & L2). destruct c24_val as [C1 C2].
  destruct (P x (const64 24 10) F C2) as [PF PE]; [lra|rewrite C1; lra|]. split; [exact PF|].
  destruct (d50_val (l - 1100)) as [-> _]; [lia|]. destruct (d50_val (l + 1100)) as [-> _]; [lia|].
  pose proof (exponent_near (R64 x) (5404319552844595 / 2251799813685248) (/ 11258999068426240) X ltac:(lra) ltac:(lra)) as E.
  replace (INR 12 / INR 5)%R with (5404319552844595 / 2251799813685248 + / 11258999068426240)%R in B by (cbn [INR]; lra).
  rewrite C1 in PE. apply Rabs_le_inv in PE. rewrite minus_IZR, plus_IZR. lra.
Qed.
Lemma encoded_power pow x l : accurate pow -> encloses 12 5 x l = true -> around l (pow x (const64 10 24)).
Proof.
  intros P H. destruct (encloses_ok 12 5 x l ltac:(lia) H) as (F & X & B & L1 & L2). destruct c1024_val as [C1 C2].
  destruct (P x (const64 10 24) F C2) as [PF PE]; [lra|rewrite C1; lra|]. split; [exact PF|].
  destruct (d50_val (l - 1100)) as [-> _]; [lia|]. destruct (d50_val (l + 1100)) as [-> _]; [lia|].
  pose proof (exponent_near (R64 x) (5 / 12) (/ 54043195528445952) X ltac:(lra) ltac:(lra)) as E.
  replace (INR 5 / INR 12)%R with (5 / 12)%R in B by (cbn [INR]; lra).
  replace (5 / 12 + / 54043195528445952)%R with (7505999378950827 / 18014398509481984)%R in E by lra.
  rewrite C1 in PE. apply Rabs_le_inv in PE. rewrite minus_IZR, plus_IZR. lra.
Qed.

(** Rounding keeps the enclosure. *)
Lemma f32_mono x y : fin64 x = true -> fin64 y = true -> (-1 <= R64 x)%R -> (R64 x <= R64 y <= 1)%R -> (R32 (f32_of_f64 x) <= R32 (f32_of_f64 y))%R.
Proof.
  intros X Y L H. destruct (f32_of_f64_ok x X) as [-> _]; [apply Rabs_le; lra|]. destruct (f32_of_f64_ok y Y) as [-> _]; [apply Rabs_le; lra|].
  apply round_le; [apply ve32|apply valid_rnd_N|lra].
Qed.

Lemma strict32 x : (0 < R32 x)%R -> Binary.is_finite_strict 24 128 x = true.
Proof. destruct x; cbn; intros H; try lra; reflexivity. Qed.

(** The encoded channel before the conversion, as a function of the power. *)
Definition encoded (max : Z) (p : binary64) : binary32 := mul32 (f32_of_f64 (sub64 (mul64 (const64 1055 1000) p) (const64 55 1000))) (f32_of_Z max).
Lemma ve64 : Valid_exp (FLT_exp (-1074) 53). Proof. apply FLT_exp_valid. reflexivity. Qed.
Lemma encoded_val max p : max = 255 \/ max = 65535 -> fin64 p = true -> (/ 18 <= R64 p <= 1)%R ->
  fin32 (encoded max p) = true /\
  R32 (encoded max p) = rnd32 (rnd32 (rnd64 (rnd64 (R64 (const64 1055 1000) * R64 p) - R64 (const64 55 1000))) * IZR max).
Proof.
  intros MX F B. destruct c1055_val as [A1 A2]. destruct c55_val as [S1 S2].
  destruct (mul64_bounds (const64 1055 1000) p (IZR 4751297606875873 * bpow radix2 (-57))%R (IZR 4751297606875873 * bpow radix2 (-52))%R A2 F) as [MB MF];
    [apply dyadic64; lia|apply dyadic64; lia| | | |].
  1-3: rewrite ?A1; change (bpow radix2 (-52)) with (/ 4503599627370496)%R; change (bpow radix2 (-57)) with (/ 144115188075855872)%R; nra.
  change (bpow radix2 (-52)) with (/ 4503599627370496)%R in MB. change (bpow radix2 (-57)) with (/ 144115188075855872)%R in MB.
  destruct (mul64_gen (const64 1055 1000) p A2 F) as [M1 _]; [rewrite A1; apply Rabs_le; nra|].
  destruct (sub64_gen _ (const64 55 1000) MF S2) as [T1 T2]; [rewrite S1; apply Rabs_le; nra|].
  assert (TB : (-1 <= R64 (sub64 (mul64 (const64 1055 1000) p) (const64 55 1000)) <= 1)%R).
  { rewrite T1. split; [apply round_ge_generic|apply round_le_generic]; try apply ve64; try apply valid_rnd_N; rewrite ?S1; try lra.
    - change (-1)%R with (- (1))%R. apply generic_format_opp. change 1%R with (bpow radix2 0). apply generic_format_bpow. unfold FLT_exp. lia.
    - change 1%R with (bpow radix2 0). apply generic_format_bpow. unfold FLT_exp. lia. }
  destruct (f32_of_f64_ok _ T2) as [R1 R2]; [apply Rabs_le; lra|].
  assert (RB : (-1 <= R32 (f32_of_f64 (sub64 (mul64 (const64 1055 1000) p) (const64 55 1000))) <= 1)%R).
  { rewrite R1. split; [apply round_ge_generic|apply round_le_generic]; try apply ve32; try apply valid_rnd_N; try lra.
    - change (-1)%R with (- (1))%R. apply generic_format_opp. change 1%R with (bpow radix2 0). apply generic_format_bpow. unfold FLT_exp. lia.
    - change 1%R with (bpow radix2 0). apply generic_format_bpow. unfold FLT_exp. lia. }
  destruct (f32_of_Z_ok max ltac:(destruct MX; subst; lia)) as [K1 K2].
  assert (MM : (0 <= IZR max <= 65535)%R) by (destruct MX; subst; lra).
  destruct (mul32_gen _ (f32_of_Z max) R2 K2) as [E1 E2]; [rewrite K1; apply Rabs_le; nra|].
  split; [exact E2|]. unfold encoded. rewrite E1, K1, R1, T1, M1. reflexivity.
Qed.
Lemma encoded_mono max p q : max = 255 \/ max = 65535 -> fin64 p = true -> fin64 q = true -> (/ 18 <= R64 p)%R -> (R64 p <= R64 q <= 1)%R ->
  (R32 (encoded max p) <= R32 (encoded max q))%R.
Proof.
  intros MX P Q L H. destruct (encoded_val max p MX P ltac:(lra)) as [_ ->]. destruct (encoded_val max q MX Q ltac:(lra)) as [_ ->].
  destruct c1055_val as [A1 _]. assert (MM : (0 <= IZR max)%R) by (destruct MX; subst; lra).
  apply round_le; [apply ve32|apply valid_rnd_N|]. apply Rmult_le_compat_r; [exact MM|].
  apply round_le; [apply ve32|apply valid_rnd_N|]. apply round_le; [apply ve64|apply valid_rnd_N|].
  apply Rplus_le_compat_r. apply round_le; [apply ve64|apply valid_rnd_N|]. rewrite A1. nra.
Qed.

(** The check of one linear float, with the enclosure [k] of its power: the
    cut-off is the same integer for all powers that are accurate. *)
Definition settles (max : Z) (y : binary32) (k r : Z) : bool :=
  negb (lt32 y (const32 31308 10000000)) &&
  let x := f64_of_f32 y in encloses 12 5 x k && (2 ^ 50 <=? 18 * (k - 1100)) &&
  (Binary.Btrunc 24 128 (encoded max (d50 (k - 1100))) =? r) && (Binary.Btrunc 24 128 (encoded max (d50 (k + 1100))) =? r) && (0 <=? r) && (r <=? max).
Lemma settles_ok pow max y k r : accurate pow -> max = 255 \/ max = 65535 -> settles max y k r = true -> srgb_channel pow max y = Some r.
Proof.
  intros P MX H. unfold settles in H. apply andb_true_iff in H as [H4 H5]. apply negb_true_iff in H4. cbv zeta in H5.
  set (x := f64_of_f32 y) in *. rewrite !andb_true_iff in H5. destruct H5 as (((((H5 & H6) & H7) & H8) & H9) & H10).
  apply Z.eqb_eq in H7, H8. apply Z.leb_le in H6, H9, H10.
  destruct (encloses_ok 12 5 x k ltac:(lia) H5) as (_ & _ & _ & K1 & K2).
  unfold srgb_channel, deliniarize. rewrite H4. fold x.
  pose proof (encoded_power pow x k P H5) as [QF QB]. set (p := pow x (const64 10 24)) in *. fold (encoded max p).
  destruct (d50_val (k - 1100)) as [W1 G1]; [lia|]. destruct (d50_val (k + 1100)) as [W2 G2]; [lia|].
  apply IZR_le in K2, H6. rewrite plus_IZR in K2. rewrite mult_IZR, minus_IZR in H6. change (IZR (2 ^ 50)) with 1125899906842624%R in K2, H6. rewrite minus_IZR in W1. rewrite plus_IZR in W2.
  pose proof (encoded_mono max _ _ MX G1 QF ltac:(lra) ltac:(lra)) as B1. pose proof (encoded_mono max _ _ MX QF G2 ltac:(lra) ltac:(lra)) as B2.
  destruct (encoded_val max p MX QF ltac:(lra)) as [EF _]. unfold conv32. rewrite EF. cbv zeta.
  rewrite trunc32 in H7, H8 |- *. apply Ztrunc_le in B1, B2. assert (T : Ztrunc (R32 (encoded max p)) = r) by lia. rewrite T.
  destruct (Z.leb_spec 0 r); [|lia]. destruct (Z.leb_spec r max); [|lia]. reflexivity.
Qed.

(** The check of one channel value, with the enclosures [l] and [k] of its two
    powers: the linear value, too, is then the same float. *)
Definition linear_arg (max v : Z) : binary64 := div64 (f64_of_f32 (add32 (div32 (f32_of_Z v) (f32_of_Z max)) (const32 55 1000))) (const64 1055 1000).
Definition settled (max v l k r : Z) : bool :=
  negb (le32 (div32 (f32_of_Z v) (f32_of_Z max)) (const32 4045 100000)) &&
  encloses 5 12 (linear_arg max v) l &&
  match Binary.B2FF 24 128 (f32_of_f64 (d50 (l - 1100))), Binary.B2FF 24 128 (f32_of_f64 (d50 (l + 1100))) with
  | F754_finite false m e, F754_finite false m' e' => Pos.eqb m m' && (e =? e')
  | _, _ => false
  end && settles max (f32_of_f64 (d50 (l - 1100))) k r.

Lemma settled_ok pow max v l k r : accurate pow -> max = 255 \/ max = 65535 -> settled max v l k r = true -> srgb_channel pow max (linear_channel pow max v) = Some r.
Proof.
  intros P MX H. unfold settled in H. apply andb_true_iff in H as [H H4]. apply andb_true_iff in H as [H H3]. apply andb_true_iff in H as [H1 H2]. apply negb_true_iff in H1.
  set (q := linear_arg max v) in *. set (y := f32_of_f64 (d50 (l - 1100))) in *.
  destruct (encloses_ok 5 12 q l ltac:(lia) H2) as (_ & _ & _ & L1 & L2).
  pose proof (linear_power pow q l P H2) as [PF PB].
  destruct (d50_val (l - 1100)) as [V1 F1]; [lia|]. destruct (d50_val (l + 1100)) as [V2 F2]; [lia|].
  apply IZR_lt in L1. apply IZR_le in L2. rewrite plus_IZR in L2. change (IZR (2 ^ 50)) with 1125899906842624%R in L2. rewrite minus_IZR in V1. rewrite plus_IZR in V2.
  assert (LY : linear_channel pow max v = y).
  { unfold linear_channel, linearize. rewrite H1. fold (linear_arg max v). fold q. set (p := pow q (const64 24 10)) in *.
    pose proof (f32_mono _ _ F1 PF ltac:(lra) ltac:(lra)) as B1. pose proof (f32_mono _ _ PF F2 ltac:(lra) ltac:(lra)) as B2. fold y in B1.
    destruct (Binary.B2FF 24 128 y) as [| | |s m e] eqn:E1; try discriminate H3. destruct s; [discriminate H3|].
    destruct (Binary.B2FF 24 128 (f32_of_f64 (d50 (l + 1100)))) as [| | |s m' e'] eqn:E2; try discriminate H3. destruct s; [discriminate H3|].
    apply andb_true_iff in H3 as [M3 N3]. apply Pos.eqb_eq in M3. apply Z.eqb_eq in N3. subst m' e'.
    assert (Y1 : R32 y = F2R (Float radix2 (Z.pos m) e)) by (rewrite <- Binary.FF2R_B2FF, E1; reflexivity).
    assert (Y2 : R32 (f32_of_f64 (d50 (l + 1100))) = F2R (Float radix2 (Z.pos m) e)) by (rewrite <- Binary.FF2R_B2FF, E2; reflexivity).
    assert (POS : (0 < R32 y)%R) by (rewrite Y1; apply F2R_gt_0; reflexivity).
    assert (EQ : R32 (f32_of_f64 p) = R32 y) by lra.
    apply (Binary.B2R_inj 24 128); [apply strict32; rewrite EQ; exact POS|apply strict32; exact POS|exact EQ]. }
  rewrite LY. apply (settles_ok pow max y k r P MX H4).
Qed.

(** A power function that differs from the exact one at one place, and is
    still accurate. *)
Definition pow_at (q : binary64) (n : Z) (x y : binary64) : binary64 :=
  if (bits_of_b64 x =? bits_of_b64 q) && (bits_of_b64 y =? bits_of_b64 (const64 24 10)) then d50 n else exact_pow x y.
Lemma bits64_inj x y : bits_of_b64 x = bits_of_b64 y -> x = y.
Proof.
  intros H. unfold bits_of_b64 in H. rewrite <- (binary_float_of_bits_of_binary_float 52 11 eq_refl eq_refl eq_refl x), <- (binary_float_of_bits_of_binary_float 52 11 eq_refl eq_refl eq_refl y), H. reflexivity.
Qed.
Lemma pow_at_accurate q l n : encloses 5 12 q l = true -> Z.abs (n - l) <= 900 -> accurate (pow_at q n).
Proof.
  intros H N x y FX FY RX RY. unfold pow_at. destruct (bits_of_b64 x =? bits_of_b64 q) eqn:E1; [|apply exact_pow_accurate; assumption].
  destruct (bits_of_b64 y =? bits_of_b64 (const64 24 10)) eqn:E2; [|apply exact_pow_accurate; assumption]. cbn [andb].
  apply Z.eqb_eq, bits64_inj in E1, E2. subst x y.
  destruct (encloses_ok 5 12 q l ltac:(lia) H) as (F & X & B & L1 & L2). destruct c24_val as [C1 C2].
  destruct (d50_val n) as [-> FN]; [lia|]. split; [exact FN|]. rewrite C1.
  pose proof (exponent_near (R64 q) (5404319552844595 / 2251799813685248) (/ 11258999068426240) X ltac:(lra) ltac:(lra)) as E.
  replace (INR 12 / INR 5)%R with (5404319552844595 / 2251799813685248 + / 11258999068426240)%R in B by (cbn [INR]; lra).
  assert (N' : (IZR l - 900 <= IZR n <= IZR l + 900)%R) by (rewrite <- minus_IZR, <- plus_IZR; split; apply IZR_le; lia). apply Rabs_le. lra.
Qed.

(** The 8-bit channel values that come back one lower. *)
Definition lowered8 : list Z :=
  [35; 36; 39; 40; 41; 42; 45; 46; 47; 48; 52; 55; 56; 58; 61; 114; 115; 116; 117; 118; 119; 120; 121; 122; 123; 124; 125; 126; 127;
   241; 243; 245; 247; 249; 251; 253; 255].
Definition back8 (v : Z) : Z := if in_dec Z.eq_dec v lowered8 then v - 1 else v.
(** The enclosures for the values from 11 on. *)
Definition enclosures8 : list (Z * Z) :=
  [
   (3767864726971, 104732445915956); (4139379676854, 108917558089525); (4531428938349, 113102672507073); (4944324599773, 117287784890280);
   (5378371892422, 121472894626771); (5833869578271, 125658007527117); (6311110303259, 129843122371147); (6810380920246, 134028234053334);
   (7331962785138, 138213344436180); (7876132029172, 142398458899317); (8443159809925, 146583568645403); (9033312543309, 150768680970868);
   (9646852118466, 154953793784685); (10284036097271, 159138906153283); (10945117899928, 163324020207805); (11630346977967, 167509130136974);
   (12339968975794, 171694240828793); (13074225881817, 175879353513733); (13833356170064, 180064465573781); (14617594933085, 184249581464062);
   (15427174006887, 188434694979951); (16262322088526, 192619805803812); (17123264846957, 196804918117625); (18010225027655, 200990034588319);
   (18923422551489, 205175141915250); (19863074608271, 209360254084380); (20829395745374, 213545367977176); (21822597951768, 217730482720874);
   (22842890737799, 221915590587617); (23890481211001, 226100702391585); (24965574148210, 230285812635391); (26068372064226, 234470924842287);
   (27199075277248, 238656042555968); (28357881971287, 242841154143758); (29544988255746, 247026263600920); (30760588222342, 251211374286620);
   (32004873999540, 255396488809514); (33278035804629, 259581602121852); (34580261993602, 263766715535250); (35911739108942, 267951829366149);
   (37272651925454, 272136942901425); (38663183494243, 276322048130783); (40083515184938, 280507167074396); (41533826726263, 284692276721380);
   (43014296245039, 288877383868650); (44525100303704, 293062499067868); (46066413936424, 297247613598214); (47638410683866, 301432723347303);
   (49241262626711, 305617839140010); (50875140417950, 309802953325671); (52540213314051, 313988062296953); (54236649205015, 318173176304821);
   (55964614643413, 322358287936950); (57724288365977, 326543432940104); (59515807589221, 330728540677736); (61339348269981, 334913653246634);
   (63195071882276, 339098765724311); (65083138693886, 343283876172072); (67003707790084, 347468994399694); (68956937096621, 351654105292807);
   (70942983401997, 355839223400801); (72962002379037, 360024321507820); (75014148605817, 364209435752412); (77099575585958, 368394560374926);
   (79218435768309, 372579659159561); (81370880566062, 376764781050927); (83557060375301, 380949894254757); (85777124593022, 385135002154231);
   (88031221634637, 389320109741497); (90319498950988, 393505223465062); (92642103044884, 397690336085737); (94999179487186, 401875457212037);
   (97390872932447, 406060568345141); (99817327134135, 410245682311711); (102278684959450, 414430784388914); (104775088403744, 418615904021533);
   (107306678604568, 422801015350771); (109873595855353, 426986122461718); (112475979618739, 431171243946382); (115113968539569, 435356345812223);
   (117787700457551, 439541462338363); (120497312419611, 443726575734595); (123242940691931, 447911683020866); (126024720771704, 452096795060424);
   (128842787398595, 456281910901050); (131697274565933, 460467030724856); (134588315531634, 464652131627642); (137516042828868, 468837252458906);
   (140480588276472, 473022360539180); (143482082989130, 477207483886125); (146520657387315, 481392592691193); (149596441207003, 485577704885210);
   (152709563509171, 489762804818608); (155860152689082, 493947922769597); (159048336485365, 498133044666071); (162274241988892, 502318157922625);
   (165537995651467, 506503251349072); (168839723294322, 510688378497008); (172179550116436, 514873486744538); (175557600702670, 519058588596046);
   (178973999031739, 523243717176468); (182428868484012, 527428824020951); (185922331849150, 531613943448803); (189454484343044, 535799010122487);
   (193025501281715, 539984118650756); (196635477031137, 544169244167072); (200284532091461, 548354344359415); (203972786408057, 552539455076654);
   (207700359378272, 556724573802668); (211467369858056, 560909680180601); (215273936168459, 565094791980394); (219120176102006, 569279908654367);
   (223006206928943, 573465030235817); (226932145403368, 577650139509104); (230898107769245, 581835255716259); (234904209766306, 586020362978409);
   (238950566635839, 590205481091082); (243037355548665, 594390646670527); (247164566537742, 598575759955922); (251332375190545, 602760876419211);
   (255540894810390, 606945983459304); (259790238229548, 611131102307866); (264080517814432, 615316204978396); (268411845470691, 619501329520081);
   (272784332648215, 623686433076385); (277198090346050, 627871553980303); (281653229117231, 632056651128662); (286149859073527, 636241763052085);
   (290688089890108, 640426881073990); (295268030810132, 644611997223720); (299889790649251, 648797104202684); (304553477800045, 652982225328319);
   (309259200236380, 657167324041001); (314007065517695, 661352453776014); (318797180793214, 665537549699173); (323629652806093, 669722665318170);
   (328504587897498, 673907795267731); (333422092010619, 678092906268788); (338382270694613, 682278022892896); (343385229108491, 686463113302066);
   (348431072024940, 690648230193833); (353519903834083, 694833342369048); (358651828547183, 699018447227041); (363826949800287, 703203569578913);
   (369045370857814, 707388680114584); (374307194616089, 711573803934723); (379612523606818, 715758912884527); (384961460000516, 719944032298388);
   (390354105609881, 724129135098793); (395790561893113, 728314246803534); (401270929957188, 732499366862241); (406795310561085, 736684469684785);
   (412363804118956, 740869580984589); (417976510703260, 745054701001211); (423633530047842, 749239805488492); (429334961550975, 753424920267697);
   (435080904278354, 757610021914585); (440871456966042, 761795136277476); (446706718023385, 765980264675803); (452586785535875, 770165361034362);
   (458511757267981, 774350475341954); (464481730665928, 778535586007205); (470496802860454, 782720695560386); (476557070669510, 786905806672037);
   (482662630600939, 791090922145548); (488813578855109, 795276044910075); (495010011327507, 799461155433848); (501252023611307, 803646257370849);
   (507539710999899, 807831376722125); (513873168489376, 812016494750282); (520252490781004, 816201593446588); (526677772283642, 820386720839294);
   (533149107116140, 824571837289004); (539666589109705, 828756947398567); (546230311810230, 832942055823664); (552840368480595, 837127167268856);
   (559496852102943, 841312286483816); (566199855380919, 845497376504462); (572949470741885, 849682484490583); (579745790339103, 853867594704375);
   (586588906053896, 858052732904176); (593478909497770, 862237843062565); (600415892014526, 866422951525491); (607399944682330, 870608044012210);
   (614431158315762, 874793186402288); (621509623467846, 878978284793057); (628635430432045, 883163405053797); (635808669244236, 887348494395532);
   (643029429684661, 891533617866321); (650297801279856, 895718723417203); (657613873304546, 899903837023183); (664977734783536, 904088946112863);
   (672389474493558, 908274076349517); (679849180965113, 912459177817444); (687356942484278, 916644313878999); (694912847094503, 920829398211304);
   (702516982598377, 925014530896451); (710169436559379, 929199626698068); (717870296303604, 933384748069848); (725619648921475, 937569847646245);
   (733417581269431, 941754987077972); (741264179971594, 945940083883293); (749159531421417, 950125199584432); (757103721783320, 954310323826216);
   (765096836994300, 958495411593776); (773138962765521, 962680523535267); (781230184583894, 966865649735273); (789370587713634, 971050746232394);
   (797560257197800, 975235872806295); (805799277859816, 979420985959840); (814087734304982, 983606110908585); (822425710921956, 987791205210821);
   (830813291884237, 991976327691554); (839250561151611, 996161436330618); (847737602471601, 1000346556185648); (856274499380885, 1004531646227158);
   (864861335206711, 1008716764318429); (873498193068288, 1012901869813571); (882185155878164, 1017086987576035); (890922306343598, 1021272109944810);
   (899709726967900, 1025457229529998); (908547500051774, 1029642339205189); (917435707694635, 1033827432100059); (926374431795919, 1038012564256697);
   (935363754056378, 1042197665928100); (944403755979354, 1046382792942946); (953494518872054, 1050567907550773); (962636123846797, 1054753003564674);
   (971828651822259, 1058938105491526); (981072183524697, 1063123237386226); (990366657829958, 1067308272189442); (999712580060735, 1071493445339055);
   (1009109462178676, 1075678510330047); (1018557955462519, 1079863670754515); (1028057565263935, 1084048713104825); (1037608948735490, 1088233897764945);
   (1047211604604098, 1092418954578498); (1056866195920077, 1096604141471720); (1066572214770801, 1100789162645482); (1076330330128096, 1104974360176663);
   (1086140027425006, 1109159412247055); (1096001981578440, 1113344571964741); (1105915671352329, 1117529635124502); (1115881777632063, 1121714795368075);
   (1125899772497680, 1125899850918568)].
Lemma all_settled : forallb (fun n => match nth_error enclosures8 n with
  | Some (l, k) => let v := 11 + Z.of_nat n in settled 255 v l k (back8 v) | None => false end) (seq 0 245) = true.
Proof. vm_compute. reflexivity. Qed.
Lemma channel_back pow v : accurate pow -> 0 <= v <= 255 -> srgb_channel pow 255 (linear_channel pow 255 v) = Some (back8 v).
Proof.
  intros P V. destruct (Z.le_gt_cases v 10) as [D|D].
  - assert (v = 0 \/ v = 1 \/ v = 2 \/ v = 3 \/ v = 4 \/ v = 5 \/ v = 6 \/ v = 7 \/ v = 8 \/ v = 9 \/ v = 10) as C by lia.
    repeat (destruct C as [->|C]; [vm_compute; reflexivity|]). subst. vm_compute. reflexivity.
  - pose proof (proj1 (forallb_forall _ _) all_settled (Z.to_nat (v - 11)) ltac:(apply in_seq; lia)) as K. cbv beta in K.
    destruct (nth_error enclosures8 (Z.to_nat (v - 11))) as [[l k]|]; [|discriminate K]. cbv zeta in K.
    rewrite Z2Nat.id in K by lia. replace (11 + (v - 11)) with v in K by lia. apply (settled_ok pow 255 v l k); [exact P|left; reflexivity|exact K].
Qed.
