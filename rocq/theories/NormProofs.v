(** Proofs about math.go's normalization (Norm.v). *)
From Coq Require Import ZArith Reals List Bool Lia Lra Psatz.
From Flocq Require Import Core IEEE754.Binary IEEE754.Bits IEEE754.BinarySingleNaN.
From Verif Require Import Norm.
Open Scope Z_scope.

Notation R32 := (Binary.B2R 24 128).
Notation R64 := (Binary.B2R 53 1024).
Notation fin32 := (Binary.is_finite 24 128).
Notation fin64 := (Binary.is_finite 53 1024).
Notation rnd32 := (round radix2 (FLT_exp (-149) 24) ZnearestE).
Notation rnd64 := (round radix2 (FLT_exp (-1074) 53) ZnearestE).

(** Exact normalization. *)
Lemma format_FLT emin prec m e : Prec_gt_0 prec -> Z.abs m < 2 ^ prec -> emin <= e ->
  generic_format radix2 (FLT_exp emin prec) (F2R (Float radix2 m e)).
Proof.
  intros P M E. apply generic_format_FLT. exists (Float radix2 m e); [reflexivity|exact M|exact E].
Qed.

Lemma F2R_lt_bpow m e p emax : Z.abs m < 2 ^ p -> 0 <= p -> p + e <= emax ->
  (Rabs (F2R (Float radix2 m e)) < bpow radix2 emax)%R.
Proof.
  intros M P E. apply Rlt_le_trans with (bpow radix2 (p + e)); [|apply bpow_le; exact E].
  rewrite bpow_plus, <- F2R_Zabs. unfold F2R; cbn [Fnum Fexp]. apply Rmult_lt_compat_r; [apply bpow_gt_0|].
  rewrite <- IZR_Zpower by exact P. apply IZR_lt. exact M.
Qed.

Lemma norm64_exact m e s : Z.abs m < 2 ^ 53 -> -1074 <= e -> 53 + e <= 1024 ->
  let x := Binary.binary_normalize 53 1024 hp64 hl64 mode_NE m e s in
  R64 x = F2R (Float radix2 m e) /\ fin64 x = true.
Proof.
  intros M E1 E2 x. pose proof (Binary.binary_normalize_correct 53 1024 hp64 hl64 mode_NE m e s) as H.
  assert (G : round radix2 (FLT_exp (-1074) 53) (round_mode mode_NE) (F2R (Float radix2 m e)) = F2R (Float radix2 m e)).
  { apply round_generic; [apply valid_rnd_round_mode|]. apply format_FLT; [reflexivity|exact M|exact E1]. }
  change (SpecFloat.fexp 53 1024) with (FLT_exp (-1074) 53) in H. rewrite G in H.
  rewrite Rlt_bool_true in H by (apply (F2R_lt_bpow m e 53 1024 M); lia). destruct H as (H1 & H2 & _). split; assumption.
Qed.
Lemma norm32_exact m e s : Z.abs m < 2 ^ 24 -> -149 <= e -> 24 + e <= 128 ->
  let x := Binary.binary_normalize 24 128 hp32 hl32 mode_NE m e s in
  R32 x = F2R (Float radix2 m e) /\ fin32 x = true.
Proof.
  intros M E1 E2 x. pose proof (Binary.binary_normalize_correct 24 128 hp32 hl32 mode_NE m e s) as H.
  assert (G : round radix2 (FLT_exp (-149) 24) (round_mode mode_NE) (F2R (Float radix2 m e)) = F2R (Float radix2 m e)).
  { apply round_generic; [apply valid_rnd_round_mode|]. apply format_FLT; [reflexivity|exact M|exact E1]. }
  change (SpecFloat.fexp 24 128) with (FLT_exp (-149) 24) in H. rewrite G in H.
  rewrite Rlt_bool_true in H by (apply (F2R_lt_bpow m e 24 128 M); lia). destruct H as (H1 & H2 & _). split; assumption.
Qed.

Lemma F2R_int n : F2R (Float radix2 n 0) = IZR n.
Proof. unfold F2R; cbn. ring. Qed.

Lemma f64_of_Z_ok n : Z.abs n < 2 ^ 53 -> R64 (f64_of_Z n) = IZR n /\ fin64 (f64_of_Z n) = true.
Proof. intros H. rewrite <- F2R_int. apply norm64_exact; [exact H|lia|lia]. Qed.
Lemma f32_of_Z_ok n : Z.abs n < 2 ^ 24 -> R32 (f32_of_Z n) = IZR n /\ fin32 (f32_of_Z n) = true.
Proof. intros H. rewrite <- F2R_int. apply norm32_exact; [exact H|lia|lia]. Qed.

(** Bounds on the parts of a finite float32. *)
Lemma bounded32 m e : SpecFloat.bounded 24 128 m e = true -> Z.pos m < 2 ^ 24 /\ -149 <= e <= 104.
Proof.
  unfold SpecFloat.bounded, SpecFloat.canonical_mantissa. intros H. apply andb_prop in H. destruct H as [H1 H2].
  apply Zeq_bool_eq in H1. apply Zle_bool_imp_le in H2. unfold SpecFloat.fexp, SpecFloat.emin in H1.
  rewrite Digits.Zpos_digits2_pos in H1.
  split; [|lia].
  apply (Digits.Zpower_gt_Zdigits radix2 24 (Z.pos m)); lia.
Qed.
Lemma cond_abs s m : Z.abs (cond_Zopp s (Z.pos m)) = Z.pos m.
Proof. destruct s; reflexivity. Qed.

Lemma f64_of_f32_ok x : fin32 x = true -> R64 (f64_of_f32 x) = R32 x /\ fin64 (f64_of_f32 x) = true.
Proof.
  destruct x as [s|s|s p H|s m e B]; intros F; try discriminate; [split; reflexivity|].
  destruct (bounded32 m e B) as [M E]. cbn [f64_of_f32].
  apply norm64_exact; [rewrite cond_abs; lia|lia|lia].
Qed.

(** The product of a float32 and a small integer is exact in float64. *)
Lemma mul64_exact x k : fin32 x = true -> 0 < k < 2 ^ 29 ->
  R64 (mul64 (f64_of_f32 x) (f64_of_Z k)) = (R32 x * IZR k)%R /\ fin64 (mul64 (f64_of_f32 x) (f64_of_Z k)) = true.
Proof.
  intros F K. destruct (f64_of_f32_ok x F) as [X1 X2]. destruct (f64_of_Z_ok k ltac:(lia)) as [K1 K2].
  pose proof (Binary.Bmult_correct 53 1024 hp64 hl64 binop_nan_pl64 mode_NE (f64_of_f32 x) (f64_of_Z k)) as H.
  change (SpecFloat.fexp 53 1024) with (FLT_exp (-1074) 53) in H. rewrite X1, K1, X2, K2 in H.
  assert (E : exists m e, (R32 x * IZR k)%R = F2R (Float radix2 m e) /\ Z.abs m < 2 ^ 53 /\ -149 <= e <= 104).
  { destruct x as [s|s|s p Q|s m e B]; try discriminate.
    - exists 0, 0. cbn. rewrite F2R_int. split; [ring|lia].
    - exists (cond_Zopp s (Z.pos m) * k), e. destruct (bounded32 m e B) as [M E]. split; [|].
      + cbn [Binary.B2R]. unfold F2R; cbn [Fnum Fexp]. rewrite mult_IZR. ring.
      + rewrite Z.abs_mul, cond_abs. split; [|exact E]. change (2 ^ 53) with (2 ^ 24 * 2 ^ 29). nia. }
  destruct E as (m & e & E & M & B). rewrite E in *.
  rewrite (round_generic radix2 (FLT_exp (-1074) 53) (round_mode mode_NE)) in H by (apply format_FLT; [reflexivity|exact M|lia]).
  rewrite Rlt_bool_true in H by (apply (F2R_lt_bpow m e 53 1024 M); lia). destruct H as (H1 & H2 & _). split; [exact H1|exact H2].
Qed.

Notation ZnearestA := (Znearest (Zle_bool 0)).

Lemma Round_ok x : R64 (Round x) = IZR (ZnearestA (R64 x)) /\ fin64 (Round x) = fin64 x.
Proof.
  destruct (Binary.Bnearbyint_correct 53 1024 hl64 unop_nan_pl64 mode_NA x) as (H1 & H2 & _).
  split; [|exact H2]. unfold Round. rewrite H1. apply round_FIX_IZR.
Qed.

Lemma trunc64 x : Binary.Btrunc 53 1024 x = Ztrunc (R64 x).
Proof. apply eq_IZR. rewrite (Binary.Btrunc_correct 53 1024 hl64). apply round_FIX_IZR. Qed.
Lemma trunc32 x : Binary.Btrunc 24 128 x = Ztrunc (R32 x).
Proof. apply eq_IZR. rewrite (Binary.Btrunc_correct 24 128 hl32). apply round_FIX_IZR. Qed.

Lemma normalize_ok lo hi k x : fin32 x = true -> 0 < k < 2 ^ 29 ->
  conv64 lo hi (Round (mul64 (f64_of_f32 x) (f64_of_Z k))) =
  let n := ZnearestA (R32 x * IZR k) in if (lo <=? n) && (n <=? hi) then Some n else None.
Proof.
  intros F K. destruct (mul64_exact x k F K) as [M1 M2]. unfold conv64.
  destruct (Round_ok (mul64 (f64_of_f32 x) (f64_of_Z k))) as [R1 R2]. rewrite R2, M2, trunc64, R1, M1, Ztrunc_IZR. reflexivity.
Qed.

(** Divisions. *)
Lemma format1 emin prec : Prec_gt_0 prec -> emin <= 0 -> 1 < prec -> generic_format radix2 (FLT_exp emin prec) 1.
Proof.
  intros P E L. replace 1%R with (F2R (Float radix2 1 0)) by (rewrite F2R_int; reflexivity).
  apply format_FLT; [exact P| |exact E]. apply (Z.lt_le_trans _ (2 ^ 1)); [reflexivity|]. apply Z.pow_le_mono_r; lia.
Qed.
Lemma round_le1 emin prec (P : Prec_gt_0 prec) x : emin <= 0 -> 1 < prec -> (Rabs x <= 1)%R ->
  (Rabs (round radix2 (FLT_exp emin prec) ZnearestE x) <= 1)%R.
Proof.
  intros E L H. apply abs_round_le_generic; [apply FLT_exp_valid; exact P|apply valid_rnd_N|apply format1; assumption|exact H].
Qed.
Lemma err_le1 emin prec (P : Prec_gt_0 prec) x : emin <= 1 - prec -> 1 < prec -> (Rabs x <= 1)%R ->
  (Rabs (round radix2 (FLT_exp emin prec) ZnearestE x - x) <= bpow radix2 (- prec))%R.
Proof.
  intros E L H. eapply Rle_trans; [apply error_le_half_ulp; apply FLT_exp_valid; exact P|].
  apply Rle_trans with (/ 2 * ulp radix2 (FLT_exp emin prec) 1)%R.
  - apply Rmult_le_compat_l; [lra|]. apply ulp_le; [apply FLT_exp_valid; exact P|apply FLT_exp_monotone|]. rewrite Rabs_R1. exact H.
  - rewrite ulp_neq_0 by lra. unfold cexp. replace (mag radix2 1 : Z) with 1 by (symmetry; apply mag_1).
    unfold FLT_exp. rewrite Z.max_l by lia. replace (- prec) with (-(1) + (1 - prec)) by lia. rewrite bpow_plus. cbn [bpow radix_val radix2 Z.pow_pos Pos.iter Z.mul Pos.mul].
    apply Req_le. reflexivity.
Qed.

Lemma div32_ok n d : 0 < d < 2 ^ 24 -> Z.abs n <= d ->
  R32 (div32 (f32_of_Z n) (f32_of_Z d)) = rnd32 (IZR n / IZR d) /\ fin32 (div32 (f32_of_Z n) (f32_of_Z d)) = true.
Proof.
  intros D N. destruct (f32_of_Z_ok n ltac:(lia)) as [N1 N2]. destruct (f32_of_Z_ok d ltac:(lia)) as [D1 D2].
  assert (P : (0 < IZR d)%R) by (apply (IZR_lt 0); lia).
  pose proof (Binary.Bdiv_correct 24 128 hp32 hl32 binop_nan_pl32 mode_NE (f32_of_Z n) (f32_of_Z d)) as H.
  rewrite N1, D1, N2 in H. specialize (H ltac:(lra)). change (SpecFloat.fexp 24 128) with (FLT_exp (-149) 24) in H. cbn [round_mode] in H.
  rewrite Rlt_bool_true in H.
  - destruct H as (H1 & H2 & _). split; [exact H1|exact H2].
  - apply Rle_lt_trans with 1%R; [|apply (bpow_lt radix2 0 128); lia].
    apply (round_le1 (-149) 24 hp32); [lia|lia|]. unfold Rdiv. rewrite Rabs_mult, (Rabs_pos_eq (/ IZR d)) by (left; apply Rinv_0_lt_compat; exact P).
    apply (Rmult_le_reg_r (IZR d)); [exact P|]. rewrite Rmult_assoc, Rinv_l by lra. rewrite Rmult_1_r, Rmult_1_l, <- abs_IZR. apply IZR_le. exact N.
Qed.
Lemma quot_abs n d : 0 < d -> Z.abs n <= d -> (Rabs (IZR n / IZR d) <= 1)%R.
Proof.
  intros D N. assert (P : (0 < IZR d)%R) by (apply (IZR_lt 0); lia).
  unfold Rdiv. rewrite Rabs_mult, (Rabs_pos_eq (/ IZR d)) by (left; apply Rinv_0_lt_compat; exact P).
  apply (Rmult_le_reg_r (IZR d)); [exact P|]. rewrite Rmult_assoc, Rinv_l by lra. rewrite Rmult_1_r, Rmult_1_l, <- abs_IZR. apply IZR_le. exact N.
Qed.
Lemma div64_ok n d : 0 < d < 2 ^ 24 -> Z.abs n <= d + 1 ->
  R64 (div64 (f64_of_Z n) (f64_of_Z d)) = rnd64 (IZR n / IZR d) /\ fin64 (div64 (f64_of_Z n) (f64_of_Z d)) = true.
Proof.
  intros D N. destruct (f64_of_Z_ok n ltac:(lia)) as [N1 N2]. destruct (f64_of_Z_ok d ltac:(lia)) as [D1 D2].
  assert (P : (0 < IZR d)%R) by (apply (IZR_lt 0); lia).
  pose proof (Binary.Bdiv_correct 53 1024 hp64 hl64 binop_nan_pl64 mode_NE (f64_of_Z n) (f64_of_Z d)) as H.
  rewrite N1, D1, N2 in H. specialize (H ltac:(lra)). change (SpecFloat.fexp 53 1024) with (FLT_exp (-1074) 53) in H. cbn [round_mode] in H.
  rewrite Rlt_bool_true in H.
  - destruct H as (H1 & H2 & _). split; [exact H1|exact H2].
  - apply Rle_lt_trans with 2%R; [|apply (bpow_lt radix2 1 1024); lia].
    apply abs_round_le_generic; [apply FLT_exp_valid; reflexivity|apply valid_rnd_N| |].
    + replace 2%R with (F2R (Float radix2 2 0)) by (rewrite F2R_int; reflexivity). apply format_FLT; [reflexivity|reflexivity|lia].
    + unfold Rdiv. rewrite Rabs_mult, (Rabs_pos_eq (/ IZR d)) by (left; apply Rinv_0_lt_compat; exact P).
      apply (Rmult_le_reg_r (IZR d)); [exact P|]. rewrite Rmult_assoc, Rinv_l by lra. rewrite Rmult_1_r, <- abs_IZR, <- mult_IZR. apply IZR_le. lia.
Qed.

(** Narrowing a float64 of magnitude at most 1. *)
Lemma bounded64 m e : SpecFloat.bounded 53 1024 m e = true -> Z.pos m < 2 ^ 53.
Proof.
  unfold SpecFloat.bounded, SpecFloat.canonical_mantissa. intros H. apply andb_prop in H. destruct H as [H1 H2].
  apply Zeq_bool_eq in H1. unfold SpecFloat.fexp, SpecFloat.emin in H1. rewrite Digits.Zpos_digits2_pos in H1.
  apply (Digits.Zpower_gt_Zdigits radix2 53 (Z.pos m)); lia.
Qed.
Lemma f32_of_f64_ok x : fin64 x = true -> (Rabs (R64 x) <= 1)%R ->
  R32 (f32_of_f64 x) = rnd32 (R64 x) /\ fin32 (f32_of_f64 x) = true.
Proof.
  destruct x as [s|s|s p H|s m e B]; intros F L; try discriminate.
  - split; [|reflexivity]. cbn. rewrite round_0; [reflexivity|apply valid_rnd_N].
  - cbn [f32_of_f64]. pose proof (Binary.binary_normalize_correct 24 128 hp32 hl32 mode_NE (cond_Zopp s (Z.pos m)) e s) as H.
    change (SpecFloat.fexp 24 128) with (FLT_exp (-149) 24) in H. cbn [round_mode] in H. cbn [Binary.B2R] in L |- *.
    rewrite Rlt_bool_true in H.
    + destruct H as (H1 & H2 & _). split; [exact H1|exact H2].
    + apply Rle_lt_trans with 1%R; [|apply (bpow_lt radix2 0 128); lia]. apply (round_le1 (-149) 24 hp32); [lia|lia|exact L].
Qed.

Lemma Max_ok x y : fin64 x = true -> fin64 y = true -> R64 (Max x y) = Rmax (R64 x) (R64 y) /\ fin64 (Max x y) = true.
Proof.
  intros X Y. unfold Max, b64_compare. rewrite Binary.Bcompare_correct by assumption.
  destruct (Rcompare_spec (R64 x) (R64 y)); (split; [|assumption]).
  - rewrite Rmax_right by lra. reflexivity.
  - rewrite Rmax_right by lra. reflexivity.
  - rewrite Rmax_left by lra. reflexivity.
Qed.

(** Signed denormalization: within 2^-24 + 2^-53 of the exact value, which is
    at least -1. *)
Lemma signed_ok n d : 1 < d < 2 ^ 24 -> - d - 1 <= n <= d ->
  let r := f32_of_f64 (Max (div64 (f64_of_Z n) (f64_of_Z d)) (f64_of_Z (-1))) in
  fin32 r = true /\ R32 r = rnd32 (Rmax (rnd64 (IZR n / IZR d)) (-1)) /\
  (Rabs (R32 r - Rmax (IZR n / IZR d) (-1)) <= bpow radix2 (-24) + bpow radix2 (-53))%R.
Proof.
  intros D N r. destruct (div64_ok n d ltac:(lia) ltac:(lia)) as [Q1 Q2]. destruct (f64_of_Z_ok (-1) ltac:(reflexivity)) as [O1 O2].
  destruct (Max_ok _ _ Q2 O2) as [M1 M2]. rewrite Q1, O1 in M1.
  assert (P : (0 < IZR d)%R) by (apply (IZR_lt 0); lia).
  assert (C : n = - d - 1 \/ Z.abs n <= d) by lia.
  assert (A : (Rabs (Rmax (rnd64 (IZR n / IZR d)) (-1) - Rmax (IZR n / IZR d) (-1)) <= bpow radix2 (-53))%R /\ (Rabs (Rmax (rnd64 (IZR n / IZR d)) (-1)) <= 1)%R).
  { destruct C as [->|C].
    - assert (LE : (IZR (- d - 1) / IZR d <= -1)%R).
      { apply (Rmult_le_reg_r (IZR d)); [exact P|]. unfold Rdiv. rewrite Rmult_assoc, Rinv_l by lra. rewrite Rmult_1_r, <- mult_IZR. apply IZR_le. lia. }
      assert (LR : (rnd64 (IZR (- d - 1) / IZR d) <= -1)%R).
      { apply round_le_generic; [apply FLT_exp_valid; reflexivity|apply valid_rnd_N| |exact LE].
        replace (-1)%R with (F2R (Float radix2 (-1) 0)) by (rewrite F2R_int; reflexivity). apply format_FLT; [reflexivity|reflexivity|lia]. }
      rewrite !Rmax_right by assumption. split.
      + replace (-1 - -1)%R with 0%R by ring. rewrite Rabs_R0. apply bpow_ge_0.
      + rewrite Rabs_left by lra. lra.
    - pose proof (quot_abs n d ltac:(lia) C) as QA. pose proof (round_le1 (-1074) 53 hp64 _ ltac:(lia) ltac:(lia) QA) as QR.
      pose proof (err_le1 (-1074) 53 hp64 _ ltac:(lia) ltac:(lia) QA) as QE.
      apply Rabs_le_inv in QA. pose proof (Rabs_le_inv _ _ QR) as QR'. rewrite !Rmax_left by lra. split; [exact QE|exact QR]. }
  destruct A as [A1 A2]. rewrite <- M1 in A1, A2. destruct (f32_of_f64_ok _ M2 A2) as [F1 F2].
  split; [exact F2|]. split; [unfold r; rewrite F1, M1; reflexivity|].
  pose proof (err_le1 (-149) 24 hp32 _ ltac:(lia) ltac:(lia) A2) as E. unfold r. rewrite F1.
  eapply Rle_trans; [|apply Rplus_le_compat; [exact E|exact A1]]. eapply Rle_trans; [|apply Rabs_triang]. apply Req_le. f_equal. ring.
Qed.
