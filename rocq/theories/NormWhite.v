(** White through the sRGB conversions of math.go, for any accurate math.Pow. *)
From Coq Require Import ZArith Reals Lia Lra List.
From Flocq Require Import Core IEEE754.Binary IEEE754.Bits IEEE754.BinarySingleNaN.
From Verif Require Import Norm NormProofs NormAlpha.
Open Scope Z_scope.

(** A power function with absolute error at most 2^-40 on (0,1] x [0,3]. *)
Definition accurate (pow : binary64 -> binary64 -> binary64) : Prop :=
  forall x y, fin64 x = true -> fin64 y = true -> (0 < R64 x <= 1)%R -> (0 <= R64 y <= 3)%R ->
  fin64 (pow x y) = true /\ (Rabs (R64 (pow x y) - Rpower (R64 x) (R64 y)) <= / 1099511627776)%R.

Lemma Rpower_bound a b : (0 < a <= 1)%R -> (0 <= b)%R -> (0 <= Rpower a b <= / (1 + b * (1 - a)))%R.
Proof.
  intros A B. unfold Rpower. split; [left; apply exp_pos|].
  assert (LN : (ln a <= - (1 - a))%R).
  { destruct (Rle_lt_dec (ln a) (- (1 - a))) as [H|H]; [exact H|]. apply exp_increasing in H. rewrite exp_ln in H by lra.
    pose proof (exp_ineq1_le (- (1 - a))). lra. }
  assert (E : (exp (b * ln a) <= exp (- (b * (1 - a))))%R).
  { destruct (Req_dec (b * ln a) (- (b * (1 - a)))) as [->|N]; [lra|]. left. apply exp_increasing. nra. }
  eapply Rle_trans; [exact E|]. rewrite exp_Ropp. apply Rinv_le_contravar; [nra|]. apply exp_ineq1_le.
Qed.

Lemma Rpower_lower a b : (0 < a <= 1)%R -> (0 <= b)%R -> (1 - b * (/ a - 1) <= Rpower a b)%R.
Proof.
  intros A B. unfold Rpower. assert (LN : (- (/ a - 1) <= ln a)%R).
  { assert (I : (0 < / a)%R) by (apply Rinv_0_lt_compat; lra). assert (H : (ln (/ a) <= / a - 1)%R).
    { destruct (Rle_lt_dec (ln (/ a)) (/ a - 1)) as [H|H]; [exact H|]. apply exp_increasing in H. rewrite exp_ln in H by lra. pose proof (exp_ineq1_le (/ a - 1)). lra. }
    rewrite ln_Rinv in H by lra. lra. }
  eapply Rle_trans; [|apply exp_ineq1_le]. nra.
Qed.

(** Reading off a computed constant. *)
Lemma R64_of x s m e : Binary.B2FF 53 1024 x = F754_finite s m e -> R64 x = F2R (Float radix2 (cond_Zopp s (Z.pos m)) e) /\ fin64 x = true.
Proof. intros H. rewrite <- Binary.FF2R_B2FF, <- Binary.is_finite_B2FF, H. split; reflexivity. Qed.

Lemma rnd32_le m e x : 2 ^ 23 <= m < 2 ^ 24 -> -149 <= e -> (x < (IZR m + / 2) * bpow radix2 e)%R -> (rnd32 x <= IZR m * bpow radix2 e)%R.
Proof.
  intros M E H. pose proof ve32 as VE.
  assert (F : generic_format radix2 e32 (IZR m * bpow radix2 e)) by (apply (format_FLT (-149) 24 m e); [reflexivity|lia|lia]).
  apply round_N_le_midp; [exact VE|exact F|].
  assert (P : (0 < bpow radix2 e)%R) by apply bpow_gt_0. assert (M0 : (8388608 <= IZR m)%R) by (apply IZR_le; lia).
  rewrite succ_eq_pos by nra. rewrite ulp_neq_0 by nra. unfold cexp.
  assert (G : mag radix2 (IZR m * bpow radix2 e) = 24 + e :> Z).
  { apply mag_unique_pos. rewrite !bpow_plus. change (bpow radix2 24) with 16777216%R. replace (24 + e - 1) with (23 + e) by lia. rewrite bpow_plus.
    change (bpow radix2 23) with 8388608%R. assert (M1 : (IZR m < 16777216)%R) by (apply IZR_lt; lia). split; [apply Rmult_le_compat_r; lra|apply Rmult_lt_compat_r; lra]. }
  rewrite G. unfold FLT_exp. replace (Z.max (24 + e - 24) (-149)) with e by lia. nra.
Qed.

Lemma mul64_bounds x y lo hi : fin64 x = true -> fin64 y = true ->
  generic_format radix2 (FLT_exp (-1074) 53) lo -> generic_format radix2 (FLT_exp (-1074) 53) hi ->
  (-4 <= lo)%R -> (hi <= 4)%R -> (lo <= R64 x * R64 y <= hi)%R ->
  (lo <= R64 (mul64 x y) <= hi)%R /\ fin64 (mul64 x y) = true.
Proof.
  intros X Y FL FH L4 H4 B. pose proof (Binary.Bmult_correct 53 1024 hp64 hl64 binop_nan_pl64 mode_NE x y) as M.
  change (SpecFloat.fexp 53 1024) with (FLT_exp (-1074) 53) in M. cbn [round_mode] in M.
  assert (VE : Valid_exp (FLT_exp (-1074) 53)) by (apply FLT_exp_valid; reflexivity).
  assert (Q1 : (lo <= rnd64 (R64 x * R64 y))%R) by (apply round_ge_generic; [exact VE|apply valid_rnd_N|exact FL|lra]).
  assert (Q2 : (rnd64 (R64 x * R64 y) <= hi)%R) by (apply round_le_generic; [exact VE|apply valid_rnd_N|exact FH|lra]).
  rewrite Rlt_bool_true in M by (apply Rle_lt_trans with 4%R; [apply Rabs_le; lra|apply (bpow_lt radix2 2 1024); lia]).
  destruct M as (M1 & M2 & _). split; [|unfold mul64, b64_mult; etransitivity; [exact M2|]; rewrite X, Y; reflexivity].
  unfold mul64, b64_mult. split; [eapply Rle_trans; [exact Q1|apply Req_le; symmetry; exact M1]|eapply Rle_trans; [apply Req_le; exact M1|exact Q2]].
Qed.
Lemma sub64_bounds x y lo hi : fin64 x = true -> fin64 y = true ->
  generic_format radix2 (FLT_exp (-1074) 53) lo -> generic_format radix2 (FLT_exp (-1074) 53) hi ->
  (-4 <= lo)%R -> (hi <= 4)%R -> (lo <= R64 x - R64 y <= hi)%R ->
  (lo <= R64 (sub64 x y) <= hi)%R /\ fin64 (sub64 x y) = true.
Proof.
  intros X Y FL FH L4 H4 B. pose proof (Binary.Bminus_correct 53 1024 hp64 hl64 binop_nan_pl64 mode_NE x y X Y) as M.
  change (SpecFloat.fexp 53 1024) with (FLT_exp (-1074) 53) in M. cbn [round_mode] in M.
  assert (VE : Valid_exp (FLT_exp (-1074) 53)) by (apply FLT_exp_valid; reflexivity).
  assert (Q1 : (lo <= rnd64 (R64 x - R64 y))%R) by (apply round_ge_generic; [exact VE|apply valid_rnd_N|exact FL|lra]).
  assert (Q2 : (rnd64 (R64 x - R64 y) <= hi)%R) by (apply round_le_generic; [exact VE|apply valid_rnd_N|exact FH|lra]).
  rewrite Rlt_bool_true in M by (apply Rle_lt_trans with 4%R; [apply Rabs_le; lra|apply (bpow_lt radix2 2 1024); lia]).
  destruct M as (M1 & M2 & _). split; [|exact M2].
  unfold sub64, b64_minus. split; [eapply Rle_trans; [exact Q1|apply Req_le; symmetry; exact M1]|eapply Rle_trans; [apply Req_le; exact M1|exact Q2]].
Qed.
Lemma dyadic64 m e : Z.abs m < 2 ^ 53 -> -1074 <= e -> generic_format radix2 (FLT_exp (-1074) 53) (IZR m * bpow radix2 e).
Proof. intros. apply (format_FLT (-1074) 53 m e); [reflexivity|lia|lia]. Qed.

Definition white_arg : binary64 :=
  div64 (f64_of_f32 (add32 (div32 (f32_of_Z 255) (f32_of_Z 255)) (const32 55 1000))) (const64 1055 1000).
Lemma white_arg_val : R64 white_arg = (9007198806924497 / 9007199254740992)%R /\ fin64 white_arg = true.
Proof.
  destruct (R64_of white_arg false 9007198806924497 (-53)) as [A B]; [vm_compute; reflexivity|]. split; [|exact B].
  rewrite A. unfold F2R; cbn [Fnum Fexp cond_Zopp]. change (bpow radix2 (-53)) with (/ 9007199254740992)%R. reflexivity.
Qed.
Lemma c24_val : R64 (const64 24 10) = (5404319552844595 / 2251799813685248)%R /\ fin64 (const64 24 10) = true.
Proof.
  destruct (R64_of (const64 24 10) false 5404319552844595 (-51)) as [A B]; [vm_compute; reflexivity|]. split; [|exact B].
  rewrite A. unfold F2R; cbn [Fnum Fexp cond_Zopp]. change (bpow radix2 (-51)) with (/ 2251799813685248)%R. reflexivity.
Qed.
Lemma c1024_val : R64 (const64 10 24) = (7505999378950827 / 18014398509481984)%R /\ fin64 (const64 10 24) = true.
Proof.
  destruct (R64_of (const64 10 24) false 7505999378950827 (-54)) as [A B]; [vm_compute; reflexivity|]. split; [|exact B].
  rewrite A. unfold F2R; cbn [Fnum Fexp cond_Zopp]. change (bpow radix2 (-54)) with (/ 18014398509481984)%R. reflexivity.
Qed.
Lemma c1055_val : R64 (const64 1055 1000) = (4751297606875873 / 4503599627370496)%R /\ fin64 (const64 1055 1000) = true.
Proof.
  destruct (R64_of (const64 1055 1000) false 4751297606875873 (-52)) as [A B]; [vm_compute; reflexivity|]. split; [|exact B].
  rewrite A. unfold F2R; cbn [Fnum Fexp cond_Zopp]. change (bpow radix2 (-52)) with (/ 4503599627370496)%R. reflexivity.
Qed.
Lemma c55_val : R64 (const64 55 1000) = (7926335344172073 / 144115188075855872)%R /\ fin64 (const64 55 1000) = true.
Proof.
  destruct (R64_of (const64 55 1000) false 7926335344172073 (-57)) as [A B]; [vm_compute; reflexivity|]. split; [|exact B].
  rewrite A. unfold F2R; cbn [Fnum Fexp cond_Zopp]. change (bpow radix2 (-57)) with (/ 144115188075855872)%R. reflexivity.
Qed.

(** The linear value of white is just below 1. *)
Lemma white_linear pow : accurate pow ->
  let r := linear_channel pow 255 255 in
  fin32 r = true /\ (1 - 3 / 16777216 <= R32 r <= 1 - 2 / 16777216)%R.
Proof.
  intros P r. unfold r, linear_channel, linearize.
  replace (le32 (div32 (f32_of_Z 255) (f32_of_Z 255)) (const32 4045 100000)) with false by (vm_compute; reflexivity).
  fold white_arg. destruct white_arg_val as [W1 W2]. destruct c24_val as [C1 C2].
  destruct (P white_arg (const64 24 10) W2 C2) as [F E]; [rewrite W1; lra|rewrite C1; lra|].
  pose proof (Rpower_bound (R64 white_arg) (R64 (const64 24 10))) as B. pose proof (Rpower_lower (R64 white_arg) (R64 (const64 24 10))) as BL.
  rewrite W1, C1 in B, BL, E. specialize (B ltac:(lra) ltac:(lra)). specialize (BL ltac:(lra) ltac:(lra)).
  set (p := R64 (pow white_arg (const64 24 10))) in *. apply Rabs_le_inv in E.
  assert (U : (/ (1 + 5404319552844595 / 2251799813685248 * (1 - 9007198806924497 / 9007199254740992)) <= 1 - 19 / 167772160)%R).
  { apply (Rmult_le_reg_r (1 + 5404319552844595 / 2251799813685248 * (1 - 9007198806924497 / 9007199254740992))); [lra|]. rewrite Rinv_l by lra. lra. }
  assert (D : (/ (9007198806924497 / 9007199254740992) <= 1 + 84 / 1677721600)%R).
  { apply (Rmult_le_reg_r (9007198806924497 / 9007199254740992)); [lra|]. rewrite Rinv_l by lra. lra. }
  assert (PB : (1 - 21 / 167772160 <= p <= 1 - 18 / 167772160)%R) by lra.
  destruct (f32_of_f64_ok _ F) as [R1 R2]; [fold p; apply Rabs_le; lra|]. fold p in R1. split; [exact R2|]. rewrite R1.
  pose proof ve32 as VE. split.
  - apply round_ge_generic; [exact VE|apply valid_rnd_N| |lra].
    replace (1 - 3 / 16777216)%R with (F2R (Float radix2 16777213 (-24))) by (unfold F2R; cbn [Fnum Fexp]; change (bpow radix2 (-24)) with (/ 16777216)%R; lra).
    apply format_FLT; [reflexivity|reflexivity|lia].
  - replace (1 - 2 / 16777216)%R with (IZR 16777214 * bpow radix2 (-24))%R by (change (bpow radix2 (-24)) with (/ 16777216)%R; lra).
    apply rnd32_le; [lia|lia|]. change (bpow radix2 (-24)) with (/ 16777216)%R. lra.
Qed.

Lemma white_dark pow : accurate pow -> srgb_channel pow 255 (linear_channel pow 255 255) = Some 254.
Proof.
  intros P. destruct (white_linear pow P) as [F B]. set (r := linear_channel pow 255 255) in *.
  pose proof ve32 as VE.
  assert (LT : lt32 r (const32 31308 10000000) = false).
  { assert (K : R32 (const32 31308 10000000) = rnd32 (31308 / 10000000) /\ fin32 (const32 31308 10000000) = true) by (apply (div32_ok 31308 10000000); lia).
    destruct K as [K1 K2]. unfold lt32, b32_compare. rewrite Binary.Bcompare_correct by assumption.
    assert (KB : (rnd32 (31308 / 10000000) <= / 256)%R).
    { apply round_le_generic; [exact VE|apply valid_rnd_N| |lra]. change (/ 256)%R with (bpow radix2 (-8)). apply generic_format_bpow. unfold FLT_exp. lia. }
    destruct (Rcompare_spec (R32 r) (R32 (const32 31308 10000000))) as [C|C|C]; [exfalso; lra|reflexivity|reflexivity]. }
  unfold srgb_channel, deliniarize. rewrite LT.
  destruct (f64_of_f32_ok r F) as [X1 X2]. destruct c1024_val as [C1 C2]. destruct c1055_val as [A1 A2]. destruct c55_val as [S1 S2].
  destruct (P (f64_of_f32 r) (const64 10 24) X2 C2) as [PF PE]; [rewrite X1; lra|rewrite C1; lra|].
  pose proof (Rpower_bound (R64 (f64_of_f32 r)) (R64 (const64 10 24))) as BU. pose proof (Rpower_lower (R64 (f64_of_f32 r)) (R64 (const64 10 24))) as BL.
  rewrite X1, C1 in BU, BL, PE. specialize (BU ltac:(lra) ltac:(lra)). specialize (BL ltac:(lra) ltac:(lra)).
  set (q := pow (f64_of_f32 r) (const64 10 24)) in *. apply Rabs_le_inv in PE.
  assert (U : (/ (1 + 7505999378950827 / 18014398509481984 * (1 - R32 r)) <= 1 - 83 / 1677721600)%R).
  { apply Rle_trans with (/ (1 + 7505999378950827 / 18014398509481984 * (2 / 16777216)))%R; [apply Rinv_le_contravar; lra|].
    apply (Rmult_le_reg_r (1 + 7505999378950827 / 18014398509481984 * (2 / 16777216))); [lra|]. rewrite Rinv_l by lra. lra. }
  assert (D : (/ R32 r <= 1 + 4 / 16777216)%R).
  { apply (Rmult_le_reg_r (R32 r)); [lra|]. rewrite Rinv_l by lra. nra. }
  assert (QB : (1 - 2 / 16777216 <= R64 q <= 1 - 82 / 1677721600)%R) by nra. clear U D BU BL PE.
  destruct (mul64_bounds (const64 1055 1000) q (IZR 4751297000000000 * bpow radix2 (-52))%R (IZR 4751297375000000 * bpow radix2 (-52))%R A2 PF) as [MB MF];
    [apply dyadic64; lia|apply dyadic64; lia| | | |].
  1-3: rewrite ?A1; change (bpow radix2 (-52)) with (/ 4503599627370496)%R; nra.
  change (bpow radix2 (-52)) with (/ 4503599627370496)%R in MB.
  destruct (sub64_bounds _ (const64 55 1000) (IZR 16777212 * bpow radix2 (-24))%R (IZR 33554431 * bpow radix2 (-25) - bpow radix2 (-40))%R MF S2) as [SB SF];
    [apply dyadic64; lia|replace (IZR 33554431 * bpow radix2 (-25) - bpow radix2 (-40))%R with (IZR 1099511595007 * bpow radix2 (-40))%R by (change (bpow radix2 (-25)) with (/ 33554432)%R; change (bpow radix2 (-40)) with (/ 1099511627776)%R; lra); apply dyadic64; lia| | | |].
  1-3: rewrite ?S1; change (bpow radix2 (-24)) with (/ 16777216)%R; change (bpow radix2 (-25)) with (/ 33554432)%R; change (bpow radix2 (-40)) with (/ 1099511627776)%R; lra.
  set (s := sub64 _ _) in *. change (bpow radix2 (-24)) with (/ 16777216)%R in SB. change (bpow radix2 (-25)) with (/ 33554432)%R in SB. change (bpow radix2 (-40)) with (/ 1099511627776)%R in SB.
  destruct (f32_of_f64_ok s SF) as [R1 R2]; [apply Rabs_le; lra|].
  assert (RB : (1 - 4 / 16777216 <= R32 (f32_of_f64 s) <= 1 - / 16777216)%R).
  { rewrite R1. split.
    - apply round_ge_generic; [exact VE|apply valid_rnd_N| |lra].
      replace (1 - 4 / 16777216)%R with (F2R (Float radix2 16777212 (-24))) by (unfold F2R; cbn [Fnum Fexp]; change (bpow radix2 (-24)) with (/ 16777216)%R; lra).
      apply format_FLT; [reflexivity|reflexivity|lia].
    - replace (1 - / 16777216)%R with (IZR 16777215 * bpow radix2 (-24))%R by (change (bpow radix2 (-24)) with (/ 16777216)%R; lra).
      apply rnd32_le; [lia|lia|]. change (bpow radix2 (-24)) with (/ 16777216)%R. lra. }
  destruct (f32_of_Z_ok 255 ltac:(lia)) as [K1 K2].
  assert (TB : (254 <= rnd32 (R32 (f32_of_f64 s) * 255) <= 255 - / 65536)%R).
  { split.
    - apply round_ge_generic; [exact VE|apply valid_rnd_N| |lra]. rewrite <- (F2R_int 254). apply format_FLT; [reflexivity|reflexivity|lia].
    - replace (255 - / 65536)%R with (IZR 16711679 * bpow radix2 (-16))%R by (change (bpow radix2 (-16)) with (/ 65536)%R; lra).
      apply rnd32_le; [lia|lia|]. change (bpow radix2 (-16)) with (/ 65536)%R. lra. }
  destruct (mul32_ok _ _ R2 K2) as [M1 M2].
  { rewrite K1. apply Rle_lt_trans with 256%R; [rewrite Rabs_pos_eq by lra; lra|]. change 256%R with (bpow radix2 8). apply bpow_lt. lia. }
  unfold conv32. rewrite M2, trunc32, M1, K1. cbv zeta.
  assert (T : Ztrunc (rnd32 (R32 (f32_of_f64 s) * 255)) = 254).
  { rewrite Ztrunc_floor by lra. apply Zfloor_imp. rewrite plus_IZR. lra. }
  rewrite T. reflexivity.
Qed.

(** Accurate power functions exist: round the exact power to 53 bits. *)
Definition exact_pow (x y : binary64) : binary64 :=
  Binary.binary_normalize 53 1024 hp64 hl64 mode_NE (ZnearestE (Rpower (R64 x) (R64 y) * 4503599627370496)) (-52) false.
Lemma exact_pow_accurate : accurate exact_pow.
Proof.
  intros x y X Y Rx Ry. set (p := Rpower (R64 x) (R64 y)). pose proof (Rpower_bound (R64 x) (R64 y) Rx (proj1 Ry)) as B. fold p in B.
  assert (B1 : (0 <= p <= 1)%R).
  { split; [lra|]. eapply Rle_trans; [apply B|]. apply (Rmult_le_reg_r (1 + R64 y * (1 - R64 x))); [nra|]. rewrite Rinv_l by nra. nra. }
  set (n := ZnearestE (p * 4503599627370496)). pose proof (Znearest_half (fun x => negb (Z.even x)) (p * 4503599627370496)) as H. fold n in H. apply Rabs_le_inv in H.
  assert (N : -1 < n < 4503599627370497).
  { split; apply lt_IZR; lra. }
  destruct (norm64_exact n (-52) false) as [E F]; [lia|lia|lia|]. split; [exact F|]. unfold exact_pow. fold p. fold n. rewrite E. unfold F2R; cbn [Fnum Fexp].
  change (bpow radix2 (-52)) with (/ 4503599627370496)%R. apply Rabs_le. lra.
Qed.
