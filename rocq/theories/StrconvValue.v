(** Values as fractions, for [Strconv] and [SpecDecimal]. *)
From Coq Require Import QArith Qabs Qpower.
From Verif Require Import Base BaseFacts F64 SpecText SpecJson JsonText Codec Strconv StrconvRound StrconvShort SpecDecimal.
Local Open Scope Z_scope.

(** ** Fractions with a common denominator *)
Definition over (a : Z) (P : positive) : Q := a # P.
Lemma over_le a c P : (over a P <= over c P)%Q <-> a <= c.
Proof. unfold Qle, over. cbn [Qnum Qden]. split; intros; nia. Qed.
Lemma over_eq a c P : (over a P == over c P)%Q <-> a = c.
Proof. unfold Qeq, over. cbn [Qnum Qden]. split; intros; nia. Qed.
Lemma over_diff a c P : (Qabs (over a P - over c P) == over (Z.abs (a - c)) P)%Q.
Proof.
  assert (E : (over a P - over c P == over (a - c) P)%Q) by (unfold Qeq, Qminus, Qplus, Qopp, over; cbn [Qnum Qden]; rewrite ?Pos2Z.inj_mul; ring).
  rewrite E. reflexivity.
Qed.
Lemma over_abs a P : (Qabs (over a P) == over (Z.abs a) P)%Q.
Proof. reflexivity. Qed.

Lemma inject_pow a n : 0 <= n -> ((a # 1) ^ n == inject_Z (a ^ n))%Q.
Proof. intros H. rewrite Zpower_Qpower by exact H. reflexivity. Qed.
Lemma pow_frac a z E : 0 < a -> (inject_Z z * (a # 1) ^ E == over (z * a ^ Z.max 0 E) (Z.to_pos (a ^ Z.max 0 (- E))))%Q.
Proof.
  intros Ha. assert (N : ~ (a # 1 == 0)%Q) by (unfold Qeq; cbn; lia).
  assert (P : 0 < a ^ Z.max 0 (- E)) by (apply Z.pow_pos_nonneg; lia).
  assert (X : ((a # 1) ^ E * inject_Z (a ^ Z.max 0 (- E)) == inject_Z (a ^ Z.max 0 E))%Q).
  { rewrite <- !inject_pow by lia. rewrite <- Qpower_plus by exact N. replace (E + Z.max 0 (- E)) with (Z.max 0 E) by lia. reflexivity. }
  apply (Qmult_inj_r _ _ (inject_Z (a ^ Z.max 0 (- E)))).
  { unfold Qeq, inject_Z. cbn. lia. }
  rewrite <- Qmult_assoc, X. unfold Qeq, over, inject_Z, Qmult. cbn [Qnum Qden]. rewrite !Pos.mul_1_r. rewrite !Z2Pos.id by exact P. ring.
Qed.

(** ** Decimals and float64 values over [dden E * 2^1074] *)
Definition common (E : Z) : positive := Z.to_pos (dden E * two1074).
Lemma common_pos E : 0 < dden E * two1074.
Proof. pose proof (dden_pos E). pose proof two1074_pos. nia. Qed.
Definition sgn (neg : bool) : Z := if neg then -1 else 1.

Lemma decimal_over D E neg : (signed neg (decimal D E) == over (sgn neg * dnum D E) (common E))%Q.
Proof.
  assert (X : (decimal D E == over (dnum D E) (common E))%Q).
  { unfold decimal. rewrite pow_frac by lia. fold (dden E). unfold common, over, Qeq. cbn [Qnum Qden].
    pose proof (dden_pos E). pose proof (common_pos E). rewrite !Z2Pos.id by assumption. unfold dnum. ring. }
  unfold signed. destruct neg; rewrite X; unfold sgn, over, Qeq, Qopp; cbn [Qnum Qden]; ring.
Qed.

Definition mag (x : Z) : Z := if 2 ^ 63 <=? x then x - 2 ^ 63 else x.
Definition is_neg (x : Z) : bool := 2 ^ 63 <=? x.
Lemma f63 : 2 ^ 63 = 9223372036854775808. Proof. reflexivity. Qed.
Lemma f64' : 2 ^ 64 = 18446744073709551616. Proof. reflexivity. Qed.
Lemma finf : f64_inf = 9218868437227405312. Proof. reflexivity. Qed.
Lemma mag_ok x : float_ok x -> 0 <= mag x < f64_inf.
Proof.
  intros [R F]. unfold f64_finite, f64_mag in F. apply Z.ltb_lt in F. unfold mag. rewrite f64', f63 in *.
  destruct (9223372036854775808 <=? x) eqn:E; lia.
Qed.
Lemma with_sign_ok neg b : 0 <= b < f64_inf -> float_ok (with_sign neg b) /\ mag (with_sign neg b) = b /\ is_neg (with_sign neg b) = neg.
Proof.
  intros H. unfold float_ok, with_sign, mag, is_neg, f64_finite, f64_mag. rewrite f64', f63 in *. rewrite finf in *.
  destruct neg.
  - replace (9223372036854775808 <=? 9223372036854775808 + b) with true by lia. repeat split; lia.
  - replace (9223372036854775808 <=? b) with false by lia. repeat split; lia.
Qed.
Lemma sign_mag x : with_sign (is_neg x) (mag x) = x.
Proof. unfold with_sign, is_neg, mag. destruct (2 ^ 63 <=? x); lia. Qed.

Lemma value_over x E : float_ok x -> (f64_value x == over (sgn (is_neg x) * sval (mag x) * dden E) (common E))%Q.
Proof.
  intros Hx. pose proof (mag_ok x Hx) as HM.
  assert (Ee : x / 2 ^ 52 mod 2 ^ 11 = mag x / 2 ^ 52 /\ x mod 2 ^ 52 = mag x mod 2 ^ 52).
  { unfold mag in *. rewrite finf, f63 in *. change (2 ^ 52) with 4503599627370496. change (2 ^ 11) with 2048.
    destruct Hx as [R _]. rewrite f64' in R. destruct (9223372036854775808 <=? x) eqn:C.
    - assert (X : x = (x - 9223372036854775808) + 2048 * 4503599627370496) by lia. split.
      + rewrite X at 1. rewrite Z.div_add by lia. replace ((x - 9223372036854775808) / 4503599627370496 + 2048) with ((x - 9223372036854775808) / 4503599627370496 + 1 * 2048) by lia.
        rewrite Z.mod_add by lia. apply Z.mod_small. lia.
      + rewrite X at 1. rewrite Z.mod_add by lia. reflexivity.
    - split; [|reflexivity]. apply Z.mod_small. lia. }
  destruct Ee as [E1 E2]. unfold f64_value. rewrite E1, E2. fold (is_neg x).
  replace (if is_neg x then -1 else 1) with (sgn (is_neg x)) by reflexivity. set (s := sgn (is_neg x)). clearbody s. set (b := mag x) in *. clearbody b.
  assert (D0 := dden_pos E). assert (C0 := common_pos E). assert (T0 := two1074_pos).
  assert (G : forall z, (inject_Z z * (2 # 1) ^ (-1074) == over (z * dden E) (common E))%Q).
  { intros z. rewrite pow_frac by lia. change (2 ^ Z.max 0 (- -1074)) with (2 ^ 1074). change (2 ^ Z.max 0 (-1074)) with 1.
    change (2 ^ 1074) with two1074. unfold common, over, Qeq. cbn [Qnum Qden]. rewrite !Z2Pos.id by assumption. ring. }
  unfold sval. destruct (b / 2 ^ 52 =? 0) eqn:Z0.
  - apply Z.eqb_eq in Z0. rewrite G. apply over_eq. replace (b mod 2 ^ 52) with b; [reflexivity|].
    symmetry. rewrite Z.mod_eq by (rewrite p52; lia). rewrite Z0. lia.
  - apply Z.eqb_neq in Z0. assert (1 <= b / 2 ^ 52) by (assert (0 <= b / 2 ^ 52) by (apply Z.div_pos; rewrite ?p52; lia); lia).
    set (e := b / 2 ^ 52) in *. replace (e - 1075) with (e - 1 + -1074) by lia.
    rewrite Qpower_plus by (unfold Qeq; cbn; lia). rewrite inject_pow by lia.
    rewrite Qmult_assoc. rewrite <- inject_Z_mult. rewrite G. apply over_eq. ring.
Qed.

Lemma even_sign neg b : Z.even (with_sign neg b) = Z.even b.
Proof. unfold with_sign. destruct neg; [|reflexivity]. rewrite Z.even_add. change (Z.even (2 ^ 63)) with true. destruct (Z.even b); reflexivity. Qed.

(** The cell of a decimal gives the nearest float64. *)
Lemma cell_is_nearest D E neg b : 0 <= D -> b < f64_inf -> cell (dnum D E) (dden E) b ->
  nearest (signed neg (decimal D E)) (with_sign neg b).
Proof.
  intros HD HB C. assert (B0 : 0 <= b) by apply C.
  destruct (with_sign_ok neg b (conj B0 HB)) as (OK & M & S). split; [exact OK|].
  intros y Hy. pose proof (mag_ok y Hy) as MY.
  pose proof (decimal_over D E neg) as V. pose proof (value_over _ E OK) as VX. pose proof (value_over _ E Hy) as VY.
  rewrite S, M in VX. rewrite V, VX, VY. rewrite !over_diff. rewrite over_le, !over_eq. rewrite even_sign.
  set (n := dnum D E) in *. set (d := dden E) in *. assert (Hd : 0 < d) by apply dden_pos.
  assert (Hn : 0 <= n) by (apply dnum_nonneg; exact HD).
  destruct (cell_nearest n d b (mag y) Hd C ltac:(lia)) as [N1 N2].
  destruct (cell_nearest n d b 0 Hd C ltac:(lia)) as [N3 N4]. rewrite sval_0 in N3, N4.
  pose proof (sval_nonneg (mag y) ltac:(lia)) as SY. set (p := sval b) in *. set (q := sval (mag y)) in *.
  assert (Q0 : 0 <= q * d) by nia.
  replace (Z.abs (sgn neg * n - sgn neg * p * d)) with (Z.abs (n - p * d)) by (destruct neg; unfold sgn; lia).
  destruct (Bool.eqb neg (is_neg y)) eqn:Eq.
  - apply Bool.eqb_prop in Eq. rewrite <- Eq.
    replace (Z.abs (sgn neg * n - sgn neg * q * d)) with (Z.abs (n - q * d)) by (destruct neg; unfold sgn; lia).
    split; [exact N1|]. intros T. destruct (N2 T) as [B|B]; [left|right; exact B]. unfold p, q. rewrite B. reflexivity.
  - replace (Z.abs (sgn neg * n - sgn (is_neg y) * q * d)) with (n + q * d).
    2:{ destruct neg, (is_neg y); try discriminate; unfold sgn; lia. }
    split; [lia|]. intros T. assert (Q1 : q * d = 0) by lia. destruct (N4 ltac:(lia)) as [B|B]; [left|right; exact B].
    unfold p. rewrite B, sval_0. destruct neg, (is_neg y); try discriminate; unfold sgn; lia.
Qed.

(** Values too large for a float64. *)
Lemma round_in_range D E b : 0 <= D -> cell (dnum D E) (dden E) b ->
  b < f64_inf <-> ~ out_of_range (decimal D E).
Proof.
  intros HD C. unfold out_of_range.
  assert (V : (Qabs (decimal D E) == over (dnum D E) (common E))%Q).
  { pose proof (decimal_over D E false) as V. cbn [signed sgn] in V. rewrite V, over_abs. apply over_eq.
    pose proof (dnum_nonneg D E HD). lia. }
  assert (K : (inject_Z (2 ^ 1024 - 2 ^ 970) == over ((2 ^ 1024 - 2 ^ 970) * two1074 * dden E) (common E))%Q).
  { unfold Qeq, over, inject_Z. cbn [Qnum Qden]. unfold common. rewrite Z2Pos.id by apply common_pos. ring. }
  rewrite V, K, over_le.
  assert (S2 : sval (f64_inf - 1) + sval f64_inf = 2 * ((2 ^ 1024 - 2 ^ 970) * two1074)) by (vm_compute; reflexivity).
  set (H := (2 ^ 1024 - 2 ^ 970) * two1074) in *. clearbody H. destruct C as (B0 & B1 & B2 & B3). pose proof (dden_pos E) as D0.
  split.
  - intros B L. pose proof (sval_le b (f64_inf - 1) ltac:(lia)) as X1. pose proof (sval_le (b + 1) f64_inf ltac:(lia)) as X2.
    destruct (Z.eq_dec b (f64_inf - 1)) as [->|NE].
    + assert (2 * dnum D E < (sval (f64_inf - 1) + sval (f64_inf - 1 + 1)) * dden E) by (apply B3; reflexivity).
      replace (f64_inf - 1 + 1) with f64_inf in * by lia. nia.
    + pose proof (sval_lt b (f64_inf - 1) ltac:(lia)). nia.
  - intros L. destruct (Z_lt_le_dec b f64_inf) as [|G]; [assumption|exfalso]. apply L.
    assert (0 < b) by (rewrite finf in G; lia). destruct (B1 ltac:(assumption)) as [X _].
    pose proof (sval_le (f64_inf - 1) (b - 1) ltac:(rewrite finf in *; lia)). pose proof (sval_le f64_inf b ltac:(rewrite finf in *; lia)). nia.
Qed.
