(** The rounding errors of the sRGB conversions of math.go. *)
From Coq Require Import ZArith Reals Lia Lra.
From Flocq Require Import Core Relative IEEE754.Binary IEEE754.Bits IEEE754.BinarySingleNaN.
From Verif Require Import SpecSrgb SrgbReals Norm NormProofs NormAlpha NormWhite.
Open Scope R_scope.

Notation tiny := (/ 1267650600228229401496703205376).   (* 2^-100 *)
Notation u32 := (/ 16777216).
Notation u64 := (/ 9007199254740992).
Lemma err32 x : Rabs (rnd32 x - x) <= Rabs x * u32 + tiny.
Proof.
  destruct (error_N_FLT radix2 (-149) 24 ltac:(lia) (fun x => negb (Z.even x)) x) as (e & h & E & H & _ & ->).
  replace (x * (1 + e) + h - x) with (x * e + h) by ring. eapply Rle_trans; [apply Rabs_triang|]. rewrite Rabs_mult.
  apply Rplus_le_compat.
  - apply Rmult_le_compat_l; [apply Rabs_pos|]. eapply Rle_trans; [exact E|]. change (bpow radix2 (- (24) + 1)) with (/ 8388608). lra.
  - eapply Rle_trans; [exact H|]. apply Rle_trans with (bpow radix2 (-100)); [|apply Req_le; reflexivity].
    apply Rle_trans with (bpow radix2 (-149)); [|apply bpow_le; lia]. pose proof (bpow_gt_0 radix2 (-149)). lra.
Qed.
Lemma err64 x : Rabs (rnd64 x - x) <= Rabs x * u64 + tiny.
Proof.
  destruct (error_N_FLT radix2 (-1074) 53 ltac:(lia) (fun x => negb (Z.even x)) x) as (e & h & E & H & _ & ->).
  replace (x * (1 + e) + h - x) with (x * e + h) by ring. eapply Rle_trans; [apply Rabs_triang|]. rewrite Rabs_mult.
  apply Rplus_le_compat.
  - apply Rmult_le_compat_l; [apply Rabs_pos|]. eapply Rle_trans; [exact E|]. change (bpow radix2 (- (53) + 1)) with (/ 4503599627370496). lra.
  - eapply Rle_trans; [exact H|]. apply Rle_trans with (bpow radix2 (-100)); [|apply Req_le; reflexivity].
    apply Rle_trans with (bpow radix2 (-1074)); [|apply bpow_le; lia]. pose proof (bpow_gt_0 radix2 (-1074)). lra.
Qed.
Lemma small32 x : Rabs x <= 100000 -> Rabs (rnd32 x) < bpow radix2 128.
Proof.
  intros H. pose proof (err32 x) as E. pose proof (Rabs_triang (rnd32 x - x) x) as T. replace (rnd32 x - x + x) with (rnd32 x) in T by ring.
  apply Rle_lt_trans with (bpow radix2 20); [|apply bpow_lt; lia]. change (bpow radix2 20) with 1048576. lra.
Qed.
Lemma small64 x : Rabs x <= 100000 -> Rabs (rnd64 x) < bpow radix2 1024.
Proof.
  intros H. pose proof (err64 x) as E. pose proof (Rabs_triang (rnd64 x - x) x) as T. replace (rnd64 x - x + x) with (rnd64 x) in T by ring.
  apply Rle_lt_trans with (bpow radix2 20); [|apply bpow_lt; lia]. change (bpow radix2 20) with 1048576. lra.
Qed.

Lemma div32_gen x y : fin32 x = true -> R32 y <> 0 -> Rabs (R32 x / R32 y) <= 100000 ->
  R32 (div32 x y) = rnd32 (R32 x / R32 y) /\ fin32 (div32 x y) = true.
Proof.
  intros X Y H. pose proof (Binary.Bdiv_correct 24 128 hp32 hl32 binop_nan_pl32 mode_NE x y Y) as M.
  change (SpecFloat.fexp 24 128) with (FLT_exp (-149) 24) in M. cbn [round_mode] in M. rewrite Rlt_bool_true in M by (apply small32; exact H).
  destruct M as (M1 & M2 & _). split; [exact M1|]. unfold div32, b32_div. etransitivity; [exact M2|exact X].
Qed.
Lemma div64_gen x y : fin64 x = true -> R64 y <> 0 -> Rabs (R64 x / R64 y) <= 100000 ->
  R64 (div64 x y) = rnd64 (R64 x / R64 y) /\ fin64 (div64 x y) = true.
Proof.
  intros X Y H. pose proof (Binary.Bdiv_correct 53 1024 hp64 hl64 binop_nan_pl64 mode_NE x y Y) as M.
  change (SpecFloat.fexp 53 1024) with (FLT_exp (-1074) 53) in M. cbn [round_mode] in M. rewrite Rlt_bool_true in M by (apply small64; exact H).
  destruct M as (M1 & M2 & _). split; [exact M1|]. unfold div64, b64_div. etransitivity; [exact M2|exact X].
Qed.
Lemma add32_gen x y : fin32 x = true -> fin32 y = true -> Rabs (R32 x + R32 y) <= 100000 ->
  R32 (add32 x y) = rnd32 (R32 x + R32 y) /\ fin32 (add32 x y) = true.
Proof.
  intros X Y H. pose proof (Binary.Bplus_correct 24 128 hp32 hl32 binop_nan_pl32 mode_NE x y X Y) as M.
  change (SpecFloat.fexp 24 128) with (FLT_exp (-149) 24) in M. cbn [round_mode] in M. rewrite Rlt_bool_true in M by (apply small32; exact H).
  destruct M as (M1 & M2 & _). split; [exact M1|exact M2].
Qed.
Lemma mul32_gen x y : fin32 x = true -> fin32 y = true -> Rabs (R32 x * R32 y) <= 100000 ->
  R32 (mul32 x y) = rnd32 (R32 x * R32 y) /\ fin32 (mul32 x y) = true.
Proof. intros X Y H. apply mul32_ok; [exact X|exact Y|]. apply small32. exact H. Qed.
Lemma mul64_gen x y : fin64 x = true -> fin64 y = true -> Rabs (R64 x * R64 y) <= 100000 ->
  R64 (mul64 x y) = rnd64 (R64 x * R64 y) /\ fin64 (mul64 x y) = true.
Proof.
  intros X Y H. pose proof (Binary.Bmult_correct 53 1024 hp64 hl64 binop_nan_pl64 mode_NE x y) as M.
  change (SpecFloat.fexp 53 1024) with (FLT_exp (-1074) 53) in M. cbn [round_mode] in M. rewrite Rlt_bool_true in M by (apply small64; exact H).
  destruct M as (M1 & M2 & _). split; [exact M1|]. unfold mul64, b64_mult. etransitivity; [exact M2|]. rewrite X, Y. reflexivity.
Qed.
Lemma sub64_gen x y : fin64 x = true -> fin64 y = true -> Rabs (R64 x - R64 y) <= 100000 ->
  R64 (sub64 x y) = rnd64 (R64 x - R64 y) /\ fin64 (sub64 x y) = true.
Proof.
  intros X Y H. pose proof (Binary.Bminus_correct 53 1024 hp64 hl64 binop_nan_pl64 mode_NE x y X Y) as M.
  change (SpecFloat.fexp 53 1024) with (FLT_exp (-1074) 53) in M. cbn [round_mode] in M. rewrite Rlt_bool_true in M by (apply small64; exact H).
  destruct M as (M1 & M2 & _). split; [exact M1|exact M2].
Qed.
Lemma narrow x : fin64 x = true -> Rabs (R64 x) <= 100000 -> R32 (f32_of_f64 x) = rnd32 (R64 x) /\ fin32 (f32_of_f64 x) = true.
Proof.
  destruct x as [s|s|s p H|s m e B]; intros F L; try discriminate.
  - split; [|reflexivity]. cbn. rewrite round_0; [reflexivity|apply valid_rnd_N].
  - cbn [f32_of_f64]. pose proof (Binary.binary_normalize_correct 24 128 hp32 hl32 mode_NE (cond_Zopp s (Z.pos m)) e s) as H.
    change (SpecFloat.fexp 24 128) with (FLT_exp (-149) 24) in H. cbn [round_mode] in H. cbn [Binary.B2R] in L |- *.
    rewrite Rlt_bool_true in H by (apply small32; exact L). destruct H as (H1 & H2 & _). split; [exact H1|exact H2].
Qed.

(** The constants. *)
Lemma R32_of x s m e : Binary.B2FF 24 128 x = F754_finite s m e -> R32 x = F2R (Float radix2 (cond_Zopp s (Z.pos m)) e) /\ fin32 x = true.
Proof. intros H. rewrite <- Binary.FF2R_B2FF, <- Binary.is_finite_B2FF, H. split; reflexivity. Qed.
Lemma k55 : R32 (const32 55 1000) = 14763950 / 268435456 /\ fin32 (const32 55 1000) = true.
Proof.
  destruct (R32_of (const32 55 1000) false 14763950 (-28)) as [A B]; [vm_compute; reflexivity|]. split; [|exact B].
  rewrite A. unfold F2R; cbn [Fnum Fexp cond_Zopp]. change (bpow radix2 (-28)) with (/ 268435456)%R. reflexivity.
Qed.
Lemma k4045 : R32 (const32 4045 100000) = 10858214 / 268435456 /\ fin32 (const32 4045 100000) = true.
Proof.
  destruct (R32_of (const32 4045 100000) false 10858214 (-28)) as [A B]; [vm_compute; reflexivity|]. split; [|exact B].
  rewrite A. unfold F2R; cbn [Fnum Fexp cond_Zopp]. change (bpow radix2 (-28)) with (/ 268435456)%R. reflexivity.
Qed.
Lemma k1292 : R32 (const32 1292 100) = 13547602 / 1048576 /\ fin32 (const32 1292 100) = true.
Proof.
  destruct (R32_of (const32 1292 100) false 13547602 (-20)) as [A B]; [vm_compute; reflexivity|]. split; [|exact B].
  rewrite A. unfold F2R; cbn [Fnum Fexp cond_Zopp]. change (bpow radix2 (-20)) with (/ 1048576)%R. reflexivity.
Qed.
Lemma k31308 : R32 (const32 31308 10000000) = 13446684 / 4294967296 /\ fin32 (const32 31308 10000000) = true.
Proof.
  destruct (R32_of (const32 31308 10000000) false 13446684 (-32)) as [A B]; [vm_compute; reflexivity|]. split; [|exact B].
  rewrite A. unfold F2R; cbn [Fnum Fexp cond_Zopp]. change (bpow radix2 (-32)) with (/ 4294967296)%R. reflexivity.
Qed.

Definition max_channel (max : Z) : Prop := (max = 255 \/ max = 65535)%Z.

(** ** linearize *)
Lemma le32_true x y : fin32 x = true -> fin32 y = true -> (le32 x y = true <-> R32 x <= R32 y).
Proof.
  intros X Y. unfold le32, b32_compare. rewrite Binary.Bcompare_correct by assumption.
  destruct (Rcompare_spec (R32 x) (R32 y)); split; intros; try lra; try reflexivity; discriminate.
Qed.
Lemma lt32_true x y : fin32 x = true -> fin32 y = true -> (lt32 x y = true <-> R32 x < R32 y).
Proof.
  intros X Y. unfold lt32, b32_compare. rewrite Binary.Bcompare_correct by assumption.
  destruct (Rcompare_spec (R32 x) (R32 y)); split; intros; try lra; try reflexivity; discriminate.
Qed.

Lemma linear_ok pow max v : accurate pow -> max_channel max -> (0 <= v <= max)%Z ->
  let t := IZR v / IZR max in let y := linear_channel pow max v in
  fin32 y = true /\ Rabs (R32 y - srgb_decode t) <= / 2097152 * srgb_decode t /\ R32 y <= 1.
Proof.
  intros P MX V t y. unfold y, linear_channel.
  destruct (div32_ok v max ltac:(destruct MX; lia) ltac:(destruct MX; lia)) as [X1 X2]. fold t in X1. set (x := div32 (f32_of_Z v) (f32_of_Z max)) in *.
  assert (MP : 0 < IZR max) by (apply (IZR_lt 0); destruct MX; lia).
  assert (T : 0 <= t <= 1).
  { unfold t. assert (0 <= IZR v <= IZR max) by (split; [apply (IZR_le 0)|apply IZR_le]; lia).
    split; [apply Rmult_le_pos; [lra|left; apply Rinv_0_lt_compat; lra]|]. apply (Rmult_le_reg_r (IZR max)); [lra|]. unfold Rdiv. rewrite Rmult_assoc, Rinv_l by lra. lra. }
  assert (T1 : t = 0 \/ / 65535 <= t).
  { destruct (Z.eq_dec v 0) as [->|N]; [left; unfold t, Rdiv; rewrite Rmult_0_l; reflexivity|right]. unfold t.
    apply (Rmult_le_reg_r (IZR max)); [lra|]. unfold Rdiv. rewrite Rmult_assoc, Rinv_l by lra.
    assert (1 <= IZR v) by (apply (IZR_le 1); lia). assert (IZR max <= 65535) by (apply IZR_le; destruct MX; lia). lra. }
  pose proof (err32 t) as EX. rewrite <- X1 in EX. rewrite (Rabs_pos_eq t) in EX by lra. apply Rabs_le_inv in EX.
  destruct k4045 as [A1 A2]. unfold linearize. destruct (le32 x (const32 4045 100000)) eqn:B.
  - apply le32_true in B; [|exact X2|exact A2]. rewrite A1 in B. assert (TL : t <= 4045 / 100000).
    { destruct (Rle_lt_dec t (4045 / 100000)) as [L|L]; [exact L|exfalso].
      assert (TG : 404516 / 10000000 <= t).
      { assert (VM : 4045 * IZR max < 100000 * IZR v).
        { unfold t in L. apply (Rmult_lt_compat_r (IZR max)) in L; [|lra]. unfold Rdiv in L at 2. rewrite Rmult_assoc, Rinv_l in L by lra. lra. }
        rewrite <- !mult_IZR in VM. apply lt_IZR in VM. destruct MX as [-> | ->]; unfold t.
        - assert (11 <= IZR v) by (apply (IZR_le 11); lia). lra.
        - assert (2651 <= IZR v) by (apply (IZR_le 2651); lia). lra. }
      lra. }
    unfold srgb_decode. destruct (Rle_dec t (4045 / 100000)) as [_|N]; [|exfalso; lra].
    destruct k1292 as [C1 C2].
    assert (Q : R32 x / R32 (const32 1292 100) = R32 x * (1048576 / 13547602)) by (rewrite C1; field).
    destruct (div32_gen x (const32 1292 100) X2) as [D1 D2]; [rewrite C1; lra|rewrite Q; apply Rabs_le; lra|]. rewrite Q in D1.
    split; [exact D2|]. rewrite D1. pose proof (err32 (R32 x * (1048576 / 13547602))) as EY. destruct T1 as [T0|T1].
    + rewrite X1, T0, round_0 by apply valid_rnd_N. rewrite Rmult_0_l, round_0 by apply valid_rnd_N. unfold Rdiv. rewrite Rmult_0_l, Rminus_0_r, Rabs_R0. lra.
    + rewrite (Rabs_pos_eq (R32 x * _)) in EY by lra. apply Rabs_le_inv in EY. split; [apply Rabs_le; lra|lra].
  - assert (TG : 4045 / 100000 < t).
    { destruct (Rlt_le_dec (4045 / 100000) t) as [L|L]; [exact L|exfalso]. assert (le32 x (const32 4045 100000) = true); [|congruence].
      apply le32_true; [exact X2|exact A2|]. rewrite X1.
      replace (R32 (const32 4045 100000)) with (rnd32 (4045 / 100000)) by (symmetry; apply (div32_ok 4045 100000); lia).
      apply round_le; [apply ve32|apply valid_rnd_N|exact L]. }
    unfold srgb_decode. destruct (Rle_dec t (4045 / 100000)) as [N|_]; [exfalso; lra|]. clear T1.
    destruct k55 as [C1 C2]. destruct (add32_gen x (const32 55 1000) X2 C2) as [S1 S2]; [rewrite C1; apply Rabs_le; lra|]. rewrite C1 in S1.
    set (s := add32 x (const32 55 1000)) in *. pose proof (err32 (R32 x + 14763950 / 268435456)) as ES. rewrite <- S1 in ES. rewrite (Rabs_pos_eq (R32 x + _)) in ES by lra. apply Rabs_le_inv in ES.
    assert (XL : R32 x <= 1).
    { rewrite X1. apply round_le_generic; [apply ve32|apply valid_rnd_N| |lra]. change 1 with (bpow radix2 0). apply generic_format_bpow. unfold FLT_exp. lia. }
    assert (SL : R32 s <= 8849981 / 8388608).
    { rewrite S1. replace (8849981 / 8388608) with (IZR 8849981 * bpow radix2 (-23)) by (change (bpow radix2 (-23)) with (/ 8388608); reflexivity). apply rnd32_le; [lia|lia|].
      change (bpow radix2 (-23)) with (/ 8388608). lra. }
    destruct (f64_of_f32_ok s S2) as [W1 W2]. destruct c1055_val as [G1 G2].
    assert (Q : R64 (f64_of_f32 s) / R64 (const64 1055 1000) = R32 s * (4503599627370496 / 4751297606875873)) by (rewrite W1, G1; field).
    destruct (div64_gen (f64_of_f32 s) (const64 1055 1000) W2) as [D1 D2]; [rewrite G1; lra|rewrite Q; apply Rabs_le; lra|]. rewrite Q in D1.
    set (d := div64 (f64_of_f32 s) (const64 1055 1000)) in *. pose proof (err64 (R32 s * (4503599627370496 / 4751297606875873))) as ED.
    rewrite <- D1 in ED. rewrite (Rabs_pos_eq (R32 s * _)) in ED by lra. apply Rabs_le_inv in ED.
    set (D := (t + 55 / 1000) / (1055 / 1000)) in *. assert (DT : t = 1055 / 1000 * D - 55 / 1000) by (unfold D; lra).
    assert (DB : 904 / 10000 <= D <= 1) by lra.
    assert (DD : Rabs (R64 d - D) <= 21 / 10 * u32 * D) by (apply Rabs_le; lra).
    assert (DL : R64 d <= 1 - / 67108864) by lra. assert (DP : 9 / 100 <= R64 d) by lra.
    clear ES ED EX X1 S1 D1 SL.
    destruct c24_val as [H1 H2]. destruct (P d (const64 24 10) D2 H2) as [PF PE]; [lra|rewrite H1; lra|].
    set (p := pow d (const64 24 10)) in *. rewrite H1 in PE.
    set (e := R64 d / D). assert (De : R64 d = D * e) by (unfold e; field; lra).
    assert (Ke : Rabs (e - 1) <= 21 / 10 * u32).
    { apply Rabs_le_inv in DD. apply Rabs_le. split; apply (Rmult_le_reg_l D); nra. }
    assert (EP : 0 < e) by (apply Rabs_le_inv in Ke; lra).
    assert (PW : Rpower (R64 d) (5404319552844595 / 2251799813685248) =
                 Rpower D (24 / 10) * Rpower e (24 / 10) * Rpower (R64 d) (5404319552844595 / 2251799813685248 - 24 / 10)).
    { rewrite Rpower_mult_distr by lra. rewrite <- De. rewrite <- Rpower_plus. f_equal. lra. }
    pose proof (power_near e (24 / 10) (21 / 10 * u32) ltac:(lra) Ke ltac:(lra)) as N1.
    pose proof (power_tiny (R64 d) (5404319552844595 / 2251799813685248 - 24 / 10) ltac:(lra) ltac:(apply Rabs_le; lra)) as N2.
    assert (PD : 31 / 10000 <= Rpower D (24 / 10) <= 1).
    { split.
      - apply Rle_trans with (Rpower (904 / 10000) (24 / 10)); [|apply Rpower_mono; lra]. apply power_125_ge; lra.
      - apply power_125_le; [lra|lra|]. rewrite !pow1. rewrite <- (pow1 12). apply pow_incr. lra. }
    assert (PU : Rpower (R64 d) (5404319552844595 / 2251799813685248) <= 1 - / 67108864).
    { assert (Rpower (R64 d) (5404319552844595 / 2251799813685248) <= Rpower (R64 d) 1); [|rewrite Rpower_1 in H by lra; lra].
      unfold Rpower. assert (LN : ln (R64 d) <= 0) by (pose proof (ln_le (R64 d) ltac:(lra)); lra).
      assert (XX : 5404319552844595 / 2251799813685248 * ln (R64 d) <= 1 * ln (R64 d)) by nra.
      destruct (Req_dec (5404319552844595 / 2251799813685248 * ln (R64 d)) (1 * ln (R64 d))) as [->|N]; [lra|]. left. apply exp_increasing. lra. }
    rewrite PW in PE, PU. set (A := Rpower D (24 / 10)) in *. set (b := Rpower e (24 / 10)) in *. set (c := Rpower (R64 d) _) in *.
    apply Rabs_le_inv in N1, N2, PE.
    assert (BC : 1 - 52 / 10 * u32 <= b * c <= 1 + 52 / 10 * u32) by nra.
    assert (PB : A * (1 - 53 / 10 * u32) <= R64 p <= A * (1 + 53 / 10 * u32)) by (rewrite Rmult_assoc in PE; nra).
    assert (P1 : R64 p <= 1) by lra. assert (P0 : 3 / 1000 <= R64 p) by nra.
    destruct (narrow p PF) as [Y1 Y2]; [apply Rabs_le; lra|]. split; [exact Y2|]. rewrite Y1.
    pose proof (err32 (R64 p)) as EY. rewrite (Rabs_pos_eq (R64 p)) in EY by lra. apply Rabs_le_inv in EY. split.
    + apply Rabs_le. nra.
    + apply round_le_generic; [apply ve32|apply valid_rnd_N| |lra]. change 1 with (bpow radix2 0). apply generic_format_bpow. unfold FLT_exp. lia.
Qed.

(** ** deliniarize *)
Lemma encoded_ok pow c : accurate pow -> fin32 c = true -> 0 <= R32 c <= 1 ->
  fin32 (deliniarize pow c) = true /\ Rabs (R32 (deliniarize pow c) - srgb_encode (R32 c)) <= 21 / 10 * u32 /\ 0 <= R32 (deliniarize pow c).
Proof.
  intros P FC C. destruct k31308 as [A1 A2]. unfold deliniarize. destruct (lt32 c (const32 31308 10000000)) eqn:B.
  - apply lt32_true in B; [|exact FC|exact A2].
    assert (CL : R32 c <= 31308 / 10000000).
    { destruct (Rle_lt_dec (R32 c) (31308 / 10000000)) as [L|L]; [exact L|exfalso].
      assert (R32 (const32 31308 10000000) <= R32 c); [|lra].
      replace (R32 (const32 31308 10000000)) with (rnd32 (31308 / 10000000)) by (symmetry; apply (div32_ok 31308 10000000); lia).
      apply round_le_generic; [apply ve32|apply valid_rnd_N| |lra]. apply (Binary.generic_format_B2R 24 128 c). }
    unfold srgb_encode. destruct (Rle_dec (R32 c) (31308 / 10000000)) as [_|N]; [|exfalso; lra].
    destruct k1292 as [K1 K2]. destruct (mul32_gen c (const32 1292 100) FC K2) as [M1 M2]; [rewrite K1; apply Rabs_le; lra|].
    split; [exact M2|]. rewrite M1, K1. pose proof (err32 (R32 c * (13547602 / 1048576))) as E. rewrite (Rabs_pos_eq (R32 c * _)) in E by lra. apply Rabs_le_inv in E.
    split; [apply Rabs_le; lra|]. apply round_ge_generic; [apply ve32|apply valid_rnd_N|apply generic_format_0|lra].
  - assert (CG : 13446684 / 4294967296 <= R32 c).
    { destruct (Rlt_le_dec (R32 c) (13446684 / 4294967296)) as [L|L]; [|exact L]. rewrite <- A1 in L. apply lt32_true in L; [congruence|exact FC|exact A2]. }
    unfold srgb_encode. destruct (Rle_dec (R32 c) (31308 / 10000000)) as [N|_]; [exfalso; lra|].
    destruct (f64_of_f32_ok c FC) as [W1 W2]. destruct c1024_val as [H1 H2].
    destruct (P (f64_of_f32 c) (const64 10 24) W2 H2) as [PF PE]; [rewrite W1; lra|rewrite H1; lra|].
    set (q := pow (f64_of_f32 c) (const64 10 24)) in *. rewrite W1, H1 in PE.
    assert (PW : Rpower (R32 c) (7505999378950827 / 18014398509481984) = Rpower (R32 c) (10 / 24) * Rpower (R32 c) (7505999378950827 / 18014398509481984 - 10 / 24)).
    { rewrite <- Rpower_plus. f_equal. lra. }
    pose proof (power_tiny (R32 c) (7505999378950827 / 18014398509481984 - 10 / 24) ltac:(lra) ltac:(apply Rabs_le; lra)) as N1.
    assert (PC : 9 / 100 <= Rpower (R32 c) (10 / 24) <= 1).
    { split.
      - apply Rle_trans with (Rpower (13446684 / 4294967296) (10 / 24)); [|apply Rpower_mono; lra]. apply power_512_ge; lra.
      - apply power_512_le; [lra|lra|]. rewrite !pow1. rewrite <- (pow1 5). apply pow_incr. lra. }
    rewrite PW in PE. set (A := Rpower (R32 c) (10 / 24)) in *. set (b := Rpower (R32 c) _) in *. apply Rabs_le_inv in N1, PE.
    assert (QB : A - / 500000000000 <= R64 q <= A + / 500000000000) by nra. clear PE N1 PW.
    destruct c1055_val as [G1 G2]. destruct c55_val as [S1 S2].
    destruct (mul64_gen (const64 1055 1000) q G2 PF) as [M1 M2]; [rewrite G1; apply Rabs_le; nra|]. rewrite G1 in M1.
    pose proof (err64 (4751297606875873 / 4503599627370496 * R64 q)) as EM. rewrite <- M1 in EM. rewrite (Rabs_pos_eq (_ * R64 q)) in EM by lra. apply Rabs_le_inv in EM.
    set (m := mul64 (const64 1055 1000) q) in *.
    destruct (sub64_gen m (const64 55 1000) M2 S2) as [T1 T2]; [rewrite S1; apply Rabs_le; lra|]. rewrite S1 in T1.
    pose proof (err64 (R64 m - 7926335344172073 / 144115188075855872)) as ET. rewrite <- T1 in ET. rewrite (Rabs_pos_eq (R64 m - _)) in ET by lra. apply Rabs_le_inv in ET.
    set (s := sub64 m (const64 55 1000)) in *.
    destruct (narrow s T2) as [Y1 Y2]; [apply Rabs_le; lra|]. split; [exact Y2|]. rewrite Y1.
    pose proof (err32 (R64 s)) as EY. rewrite (Rabs_pos_eq (R64 s)) in EY by lra. apply Rabs_le_inv in EY. split; [apply Rabs_le; lra|lra].
Qed.

Lemma channel_ok pow max c : accurate pow -> max_channel max -> fin32 c = true -> 0 <= R32 c <= 1 ->
  exists w, srgb_channel pow max c = Some (Zfloor w) /\ 0 <= w /\ (Zfloor w <= max)%Z /\ Rabs (w - IZR max * srgb_encode (R32 c)) <= / 64.
Proof.
  intros P MX FC C. destruct (encoded_ok pow c P FC C) as (F & E & G). set (r := deliniarize pow c) in *. apply Rabs_le_inv in E.
  assert (EB : 0 <= srgb_encode (R32 c) <= 1).
  { unfold srgb_encode. destruct (Rle_dec (R32 c) (31308 / 10000000)) as [L|L]; [lra|].
    assert (9 / 100 <= Rpower (R32 c) (10 / 24) <= 1); [|lra]. split.
    - apply Rle_trans with (Rpower (31308 / 10000000) (10 / 24)); [|apply Rpower_mono; lra]. apply power_512_ge; lra.
    - apply power_512_le; [lra|lra|]. rewrite !pow1. rewrite <- (pow1 5). apply pow_incr. lra. }
  assert (MB : 255 <= IZR max <= 65535) by (split; apply IZR_le; destruct MX; lia).
  destruct (f32_of_Z_ok max ltac:(destruct MX; lia)) as [K1 K2].
  destruct (mul32_gen r (f32_of_Z max) F K2) as [M1 M2]; [rewrite K1; apply Rabs_le; nra|]. rewrite K1 in M1.
  pose proof (err32 (R32 r * IZR max)) as EW. rewrite (Rabs_pos_eq (R32 r * _)) in EW by nra. apply Rabs_le_inv in EW.
  set (w := rnd32 (R32 r * IZR max)) in *. exists w.
  assert (W0 : 0 <= w). { apply round_ge_generic; [apply ve32|apply valid_rnd_N|apply generic_format_0|nra]. }
  assert (WB : Rabs (w - IZR max * srgb_encode (R32 c)) <= / 64) by (apply Rabs_le; nra).
  assert (L : (0 <= Zfloor w)%Z) by (apply Zfloor_lub; exact W0).
  assert (U : (Zfloor w <= max)%Z).
  { apply Z.lt_succ_r. apply lt_IZR. apply Rle_lt_trans with w; [apply Zfloor_lb|]. rewrite succ_IZR. apply Rabs_le_inv in WB. nra. }
  split; [|split; [exact W0|split; [exact U|exact WB]]]. unfold srgb_channel, conv32. fold r. rewrite M2, trunc32, M1. cbv zeta. rewrite Ztrunc_floor by exact W0.
  replace (andb (0 <=? Zfloor w)%Z (Zfloor w <=? max)%Z) with true by (symmetry; apply andb_true_intro; split; apply Z.leb_le; assumption). reflexivity.
Qed.

Lemma channel_round pow max v : accurate pow -> max_channel max -> (0 <= v <= max)%Z ->
  srgb_channel pow max (linear_channel pow max v) = Some v \/ (0 < v)%Z /\ srgb_channel pow max (linear_channel pow max v) = Some (v - 1)%Z.
Proof.
  intros P MX V. destruct (linear_ok pow max v P MX V) as (F & E & L1). set (c := linear_channel pow max v) in *. set (t := IZR v / IZR max) in *.
  assert (MB : 255 <= IZR max <= 65535) by (split; apply IZR_le; destruct MX; lia).
  assert (VB : 0 <= IZR v <= IZR max) by (split; [apply (IZR_le 0)|apply IZR_le]; lia).
  assert (TV : IZR v = t * IZR max) by (unfold t; field; lra).
  assert (T : 0 <= t <= 1) by (split; apply (Rmult_le_reg_r (IZR max)); lra).
  assert (D0 : 0 <= srgb_decode t). { unfold srgb_decode. destruct (Rle_dec t (4045 / 100000)); [lra|left; apply exp_pos]. }
  assert (C : 0 <= R32 c <= 1). { split; [|exact L1]. apply Rabs_le_inv in E. lra. }
  pose proof (srgb_inverse t (R32 c) T E) as I. apply Rabs_le_inv in I.
  destruct (channel_ok pow max c P MX F C) as (w & -> & W0 & _ & WB). apply Rabs_le_inv in WB.
  assert (W : IZR v - / 10 <= w <= IZR v + / 10) by (rewrite TV; nra).
  destruct (Rle_lt_dec (IZR v) w) as [G|G].
  - left. f_equal. apply Zfloor_imp. rewrite plus_IZR. lra.
  - assert (V0 : (0 < v)%Z). { apply lt_IZR. lra. }
    right. split; [exact V0|]. f_equal. apply Zfloor_imp. rewrite plus_IZR, minus_IZR. lra.
Qed.
