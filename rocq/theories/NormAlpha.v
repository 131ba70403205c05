(** The alpha channel of math.go: rounding v/65535*65535 in float32 gives a
    value in [v, v+1), for every 16-bit v. *)
From Coq Require Import ZArith Reals Lia Lra List.
From Flocq Require Import Core IEEE754.Binary IEEE754.Bits IEEE754.BinarySingleNaN.
From Verif Require Import Norm NormProofs.
Import ListNotations.
Open Scope Z_scope.

Notation e32 := (FLT_exp (-149) 24).
Lemma ve32 : Valid_exp e32. Proof. apply FLT_exp_valid. reflexivity. Qed.

Section Alpha.
Variables v L : Z.
Hypothesis Hv : 1 <= v < 65535.
Hypothesis HL : 2 ^ (L - 1) <= v < 2 ^ L.
Hypothesis HL' : 1 <= L <= 16.

Let V := v * 2 ^ (40 - L).
Let u := bpow radix2 (L - 40).
Let y := (IZR v / 65535)%R.

Lemma u_pos : (0 < u)%R. Proof. apply bpow_gt_0. Qed.
Lemma V_u : (IZR V * u)%R = IZR v.
Proof.
  unfold V, u. rewrite mult_IZR. change 2 with (radix_val radix2). rewrite IZR_Zpower by lia.
  rewrite Rmult_assoc, <- bpow_plus. replace (40 - L + (L - 40)) with 0 by lia. cbn. ring.
Qed.
Lemma bpow_u k : 0 <= k -> bpow radix2 (L - 40 + k) = (IZR (2 ^ k) * u)%R.
Proof. intros H. rewrite bpow_plus. fold u. change 2 with (radix_val radix2). rewrite IZR_Zpower by lia. ring. Qed.

Lemma y_mag : mag radix2 y = L - 16 :> Z.
Proof.
  apply mag_unique_pos. unfold y.
  assert (A : bpow radix2 (L - 16 - 1) = (IZR (2 ^ (L - 1)) * / 65536)%R).
  { replace (L - 16 - 1) with (L - 1 + -16) by lia. rewrite bpow_plus. change 2 with (radix_val radix2). rewrite IZR_Zpower by lia. reflexivity. }
  assert (B : bpow radix2 (L - 16) = (IZR (2 ^ L) * / 65536)%R).
  { replace (L - 16) with (L + -16) by lia. rewrite bpow_plus. change 2 with (radix_val radix2). rewrite IZR_Zpower by lia. reflexivity. }
  rewrite A, B. destruct HL as [L1 L2]. apply IZR_le in L1.
  assert (V0 : (1 <= IZR v)%R) by (apply IZR_le; lia).
  split; [lra|].
  assert (K : v * 65536 < 2 ^ L * 65535).
  { assert (X : 2 ^ L <= 2 ^ 16) by (apply Z.pow_le_mono_r; lia). change (2 ^ 16) with 65536 in X.
    destruct (Z.eq_dec (2 ^ L) 65536) as [Q|Q]; [rewrite Q; lia|]. lia. }
  apply IZR_lt in K. rewrite !mult_IZR in K. lra.
Qed.

Lemma quotient : exists m, rnd32 y = (IZR m * u)%R /\ Z.abs (m * 65535 - V) <= 32767.
Proof.
  unfold round, scaled_mantissa, cexp. rewrite y_mag. unfold FLT_exp. replace (Z.max (L - 16 - 24) (-149)) with (L - 40) by lia.
  set (sm := (y * bpow radix2 (- (L - 40)))%R). exists (ZnearestE sm). split; [reflexivity|].
  pose proof (Znearest_half (fun x => negb (Z.even x)) sm) as H. rewrite Rabs_minus_sym in H.
  assert (S : (sm * 65535 = IZR V)%R).
  { unfold sm, y, V. rewrite mult_IZR. change 2 with (radix_val radix2). rewrite IZR_Zpower by lia. replace (- (L - 40)) with (40 - L) by lia. field. }
  apply Rabs_le_inv in H.
  assert (X : (-32768 < IZR (ZnearestE sm * 65535 - V) < 32768)%R) by (rewrite minus_IZR, mult_IZR; lra).
  destruct X as [X1 X2]. apply (lt_IZR (-32768)) in X1. apply (lt_IZR _ 32768) in X2. lia.
Qed.

Lemma v_mag : mag radix2 (IZR v) = L :> Z.
Proof.
  apply mag_unique_pos. rewrite <- !IZR_Zpower by lia. change (radix_val radix2) with 2. split; [apply IZR_le|apply IZR_lt]; lia.
Qed.
Lemma v_format : generic_format radix2 e32 (IZR v).
Proof. rewrite <- F2R_int. apply format_FLT; [reflexivity|lia|lia]. Qed.
Lemma half_format : generic_format radix2 e32 (IZR v + / 2).
Proof.
  replace (IZR v + / 2)%R with (F2R (Float radix2 (2 * v + 1) (-1))).
  - apply format_FLT; [reflexivity|lia|lia].
  - unfold F2R; cbn [Fnum Fexp]. rewrite plus_IZR, mult_IZR. change (bpow radix2 (-1)) with (/ 2)%R. field.
Qed.

Lemma product_ge : (IZR v <= rnd32 (rnd32 y * 65535))%R.
Proof.
  destruct quotient as (m & E & M). rewrite E. pose proof u_pos as U. pose proof V_u as VU.
  assert (Z1 : (IZR m * u * 65535 = IZR (m * 65535) * u)%R) by (rewrite mult_IZR; ring). rewrite Z1.
  pose proof ve32 as VE. apply round_N_ge_midp; [exact VE|exact v_format|].
  rewrite pred_eq_pos by (apply IZR_le; lia). unfold pred_pos. rewrite v_mag. destruct (Req_bool_spec (IZR v) (bpow radix2 (L - 1))) as [Q|Q].
  - unfold FLT_exp. replace (Z.max (L - 1 - 24) (-149)) with (L - 40 + 15) by lia. rewrite bpow_u by lia. change (2 ^ 15) with 32768.
    assert (VP : v = 2 ^ (L - 1)).
    { apply eq_IZR. rewrite Q. change 2 with (radix_val radix2). rewrite IZR_Zpower by lia. reflexivity. }
    assert (V39 : V = 549755813888).
    { unfold V. rewrite VP, <- Z.pow_add_r by lia. replace (L - 1 + (40 - L)) with 39 by lia. reflexivity. }
    assert (K : V - 16384 < m * 65535) by lia. apply IZR_lt in K. rewrite minus_IZR in K. rewrite <- VU. nra.
  - rewrite ulp_neq_0 by (apply not_0_IZR; lia). unfold cexp. rewrite v_mag. unfold FLT_exp. replace (Z.max (L - 24) (-149)) with (L - 40 + 16) by lia.
    rewrite bpow_u by lia. change (2 ^ 16) with 65536.
    assert (K : V - 32768 < m * 65535) by lia. apply IZR_lt in K. rewrite minus_IZR in K. rewrite <- VU. nra.
Qed.
Lemma product_le : (rnd32 (rnd32 y * 65535) <= IZR v + / 2)%R.
Proof.
  destruct quotient as (m & E & M). rewrite E. pose proof u_pos as U. pose proof V_u as VU. pose proof ve32 as VE.
  apply round_le_generic; [exact VE|apply valid_rnd_N|exact half_format|].
  assert (Z1 : (IZR m * u * 65535 = IZR (m * 65535) * u)%R) by (rewrite mult_IZR; ring). rewrite Z1.
  assert (K : m * 65535 <= V + 32768) by lia. apply IZR_le in K. rewrite plus_IZR in K.
  assert (UB : (u <= / 16777216)%R) by (change (/ 16777216)%R with (bpow radix2 (-24)); apply bpow_le; lia). nra.
Qed.
End Alpha.

Lemma mul32_ok x y : fin32 x = true -> fin32 y = true -> (Rabs (rnd32 (R32 x * R32 y)) < bpow radix2 128)%R ->
  R32 (mul32 x y) = rnd32 (R32 x * R32 y) /\ fin32 (mul32 x y) = true.
Proof.
  intros X Y H. pose proof (Binary.Bmult_correct 24 128 hp32 hl32 binop_nan_pl32 mode_NE x y) as M.
  change (SpecFloat.fexp 24 128) with (FLT_exp (-149) 24) in M. cbn [round_mode] in M. rewrite Rlt_bool_true in M by exact H.
  destruct M as (M1 & M2 & _). split; [exact M1|]. unfold mul32, b32_mult. etransitivity; [exact M2|]. rewrite X, Y. reflexivity.
Qed.

Lemma alpha16 a : 0 <= a <= 65535 -> alpha_channel 65535 (linear_alpha 65535 a) = Some a.
Proof.
  intros H. assert (a = 0 \/ a = 65535 \/ 1 <= a < 65535) as [->|[->|Ha]] by lia; [vm_compute; reflexivity..|].
  set (L := Z.log2 a + 1).
  assert (HL : 2 ^ (L - 1) <= a < 2 ^ L) by (unfold L; replace (Z.log2 a + 1 - 1) with (Z.log2 a) by lia; apply Z.log2_spec; lia).
  assert (HL' : 1 <= L <= 16).
  { unfold L. assert (0 <= Z.log2 a) by apply Z.log2_nonneg. assert (Z.log2 a < 16) by (apply Z.log2_lt_pow2; [lia|]; change (2 ^ 16) with 65536; lia). lia. }
  destruct (div32_ok a 65535 ltac:(lia) ltac:(lia)) as [D1 D2]. destruct (f32_of_Z_ok 65535 ltac:(lia)) as [K1 K2].
  pose proof (product_ge a L Ha HL HL') as G1. pose proof (product_le a L Ha HL HL') as G2.
  assert (A : (IZR a <= 65535)%R) by (apply IZR_le; lia). assert (A0 : (1 <= IZR a)%R) by (apply IZR_le; lia).
  destruct (mul32_ok _ _ D2 K2) as [M1 M2].
  { rewrite D1, K1. apply Rle_lt_trans with 65536%R; [rewrite Rabs_pos_eq by lra; lra|]. change 65536%R with (bpow radix2 16). apply bpow_lt. lia. }
  rewrite D1, K1 in M1. unfold alpha_channel, linear_alpha, conv32. rewrite M2, trunc32, M1. cbv zeta.
  assert (T : Ztrunc (rnd32 (rnd32 (IZR a / 65535) * 65535)) = a).
  { rewrite Ztrunc_floor by lra. apply Zfloor_imp. rewrite plus_IZR. lra. }
  rewrite T. replace ((0 <=? a) && (a <=? 65535))%bool with true by lia. reflexivity.
Qed.

Lemma alpha8 a : 0 <= a <= 255 -> alpha_channel 255 (linear_alpha 255 a) = Some a.
Proof.
  intros H.
  assert (G : List.forallb (fun a => match alpha_channel 255 (linear_alpha 255 a) with Some k => k =? a | None => false end) (List.map Z.of_nat (List.seq 0 256)) = true)
    by (vm_compute; reflexivity).
  rewrite List.forallb_forall in G. specialize (G a). destruct (alpha_channel 255 _) as [k|]; [f_equal; apply Z.eqb_eq; apply G|exfalso; enough (false = true) by discriminate; apply G];
    apply List.in_map_iff; exists (Z.to_nat a); (split; [lia|apply List.in_seq; lia]).
Qed.
