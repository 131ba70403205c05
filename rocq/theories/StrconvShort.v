(** The shortest decimals of [Strconv]. *)
From Verif Require Import Base BaseFacts F64 JsonText Codec Strconv StrconvRound.

(** ** Powers of two and ten *)
Lemma pow_chunk a b c x y n : 0 < a -> 0 < c -> 0 <= b -> 0 < x -> 0 < y -> x ^ a <= y ^ b -> 0 <= n ->
  (forall r, 0 <= r < a -> x ^ r <= y ^ (b * r / a + c)) -> x ^ n <= y ^ (b * n / a + c).
Proof.
  intros Ha Hc Hb Hx Hy P Hn R. set (j := n / a). set (r := n mod a).
  assert (En : n = a * j + r) by (apply Z.div_mod; lia).
  assert (Hr : 0 <= r < a) by (apply Z.mod_pos_bound; exact Ha).
  assert (Hj : 0 <= j) by (apply Z.div_pos; lia).
  rewrite En. replace (b * (a * j + r)) with (b * r + b * j * a) by ring. rewrite Z.div_add by lia.
  replace (b * r / a + b * j + c) with (b * j + (b * r / a + c)) by ring.
  assert (Q : 0 <= b * r / a) by (apply Z.div_pos; nia).
  rewrite (Z.pow_add_r x) by nia. rewrite (Z.pow_add_r y (b * j)) by nia. rewrite !Z.pow_mul_r by lia. apply Z.mul_le_mono_nonneg.
  - apply Z.pow_nonneg. apply Z.pow_nonneg. lia.
  - apply Z.pow_le_mono_l. split; [apply Z.pow_nonneg; lia|exact P].
  - apply Z.pow_nonneg. lia.
  - apply R. exact Hr.
Qed.
Lemma below_all n f : forallb f (map Z.of_nat (seq 0 n)) = true -> forall r, 0 <= r < Z.of_nat n -> f r = true.
Proof.
  intros H r Hr. rewrite forallb_forall in H. apply H. apply in_map_iff. exists (Z.to_nat r).
  split; [lia|]. apply in_seq. lia.
Qed.
Lemma pow2_le n : 0 <= n -> 2 ^ n <= 10 ^ (28 * n / 93 + 1).
Proof.
  intros Hn. apply pow_chunk; try lia.
  intros r Hr. apply Z.leb_le. revert r Hr.
  apply (below_all 93 (fun r => 2 ^ r <=? 10 ^ (28 * r / 93 + 1))). vm_compute. reflexivity.
Qed.
Lemma pow10_le n : 0 <= n -> 10 ^ (3 * n / 10) <= 2 ^ n.
Proof.
  intros Hn. set (j := n / 10). set (r := n mod 10).
  assert (En : n = 10 * j + r) by (apply Z.div_mod; lia).
  assert (Hr : 0 <= r < 10) by (apply Z.mod_pos_bound; lia). assert (Hj : 0 <= j) by (apply Z.div_pos; lia).
  rewrite En. replace (3 * (10 * j + r)) with (3 * r + 3 * j * 10) by ring. rewrite Z.div_add by lia.
  assert (Q : 0 <= 3 * r / 10) by (apply Z.div_pos; lia).
  rewrite !Z.pow_add_r by lia. rewrite Z.mul_comm. rewrite !Z.pow_mul_r by lia. apply Z.mul_le_mono_nonneg.
  - apply Z.pow_nonneg. apply Z.pow_nonneg. lia.
  - apply Z.pow_le_mono_l. split; [lia|]. apply Z.leb_le. reflexivity.
  - apply Z.pow_nonneg. lia.
  - apply Z.leb_le. revert r Hr En Q. intros r Hr _ _. revert r Hr.
    apply (below_all 10 (fun r => 10 ^ (3 * r / 10) <=? 2 ^ r)). vm_compute. reflexivity.
Qed.
Lemma pow10_pos e : 0 <= e -> 0 < 10 ^ e.
Proof. intros. apply Z.pow_pos_nonneg; lia. Qed.
Lemma pow2_pos e : 0 <= e -> 0 < 2 ^ e.
Proof. intros. apply Z.pow_pos_nonneg; lia. Qed.
Lemma pow10_mono e f : e <= f -> 10 ^ e <= 10 ^ f.
Proof. intros. apply Z.pow_le_mono_r; lia. Qed.

(** ** Decimals as fractions *)
Definition two1074 : Z := 2 ^ 1074.
Lemma two1074_pos : 0 < two1074. Proof. apply pow2_pos. lia. Qed.
Definition dnum (D E : Z) : Z := D * 10 ^ Z.max 0 E * two1074.
Definition dden (E : Z) : Z := 10 ^ Z.max 0 (- E).
Lemma dden_pos E : 0 < dden E. Proof. apply pow10_pos. lia. Qed.
Lemma dnum_nonneg D E : 0 <= D -> 0 <= dnum D E.
Proof. intros H. unfold dnum. pose proof two1074_pos. pose proof (pow10_pos (Z.max 0 E) ltac:(lia)). nia. Qed.
Lemma dnum_le D D' E : D <= D' -> dnum D E <= dnum D' E.
Proof. intros H. unfold dnum. pose proof two1074_pos. pose proof (pow10_pos (Z.max 0 E) ltac:(lia)). apply Z.mul_le_mono_nonneg_r; [lia|]. apply Z.mul_le_mono_nonneg_r; lia. Qed.
Lemma round_dec_eq D E : round_dec D E = round64 (dnum D E) (dden E).
Proof. reflexivity. Qed.
Lemma round_dec_cell D E : 0 <= D -> cell (dnum D E) (dden E) (round_dec D E).
Proof. intros H. rewrite round_dec_eq. apply round64_cell; [apply dnum_nonneg; exact H|apply dden_pos]. Qed.
Lemma round_dec_unique D E b : 0 <= D -> cell (dnum D E) (dden E) b -> round_dec D E = b.
Proof. intros H C. rewrite round_dec_eq. apply round64_unique; [apply dnum_nonneg; exact H|apply dden_pos|exact C]. Qed.
Global Opaque round_dec two1074.

(** The same number written with another exponent. *)
Lemma dnum_shift D E k : 0 <= k -> dnum (D * 10 ^ k) E * dden (E + k) = dnum D (E + k) * dden E.
Proof.
  intros Hk. unfold dnum, dden. set (T := two1074).
  assert (X : 10 ^ k * 10 ^ Z.max 0 E * 10 ^ Z.max 0 (- (E + k)) = 10 ^ Z.max 0 (E + k) * 10 ^ Z.max 0 (- E)).
  { rewrite <- !Z.pow_add_r by lia. f_equal. lia. }
  transitivity (D * T * (10 ^ k * 10 ^ Z.max 0 E * 10 ^ Z.max 0 (- (E + k)))); [ring|]. rewrite X. ring.
Qed.
Lemma round_dec_shift D E k : 0 <= D -> 0 <= k -> round_dec (D * 10 ^ k) E = round_dec D (E + k).
Proof.
  intros HD Hk. pose proof (pow10_pos k Hk). apply round_dec_unique; [nia|].
  apply (cell_same (dnum D (E + k)) (dden (E + k))); try apply dden_pos; [|apply round_dec_cell; exact HD].
  symmetry. apply dnum_shift. exact Hk.
Qed.

(** ** pick *)
Definition pnum (b k : Z) : Z := sval b * dden k.
Definition pden (k : Z) : Z := two1074 * 10 ^ Z.max 0 k.
Lemma pden_pos k : 0 < pden k.
Proof. unfold pden. pose proof two1074_pos. pose proof (pow10_pos (Z.max 0 k) ltac:(lia)). nia. Qed.
Definition lower (b k : Z) : Z := pnum b k / pden k.
Lemma lower_ok b k : 0 <= b -> 0 <= lower b k /\ dnum (lower b k) k <= sval b * dden k < dnum (lower b k + 1) k.
Proof.
  intros Hb. pose proof (sval_nonneg b Hb). pose proof (dden_pos k). pose proof (pden_pos k).
  assert (N : 0 <= pnum b k) by (unfold pnum; nia). split; [apply Z.div_pos; assumption|].
  assert (forall D, dnum D k = pden k * D) as DN by (intros; unfold dnum, pden; ring).
  rewrite !DN. fold (pnum b k). unfold lower. pose proof (Z.div_mod (pnum b k) (pden k) ltac:(lia)) as DM.
  pose proof (Z.mod_pos_bound (pnum b k) (pden k) ltac:(assumption)). nia.
Qed.
Lemma pick_eq b k : pick b k =
  match round_dec (lower b k) k =? b, round_dec (lower b k + 1) k =? b with
  | true, true => match 2 * (pnum b k mod pden k) ?= pden k with
                  | Lt => Some (lower b k)
                  | Gt => Some (lower b k + 1)
                  | Eq => Some (if Z.even (lower b k) then lower b k else lower b k + 1)
                  end
  | true, false => Some (lower b k)
  | false, true => Some (lower b k + 1)
  | false, false => None
  end.
Proof. reflexivity. Qed.
Lemma pick_some b k D : pick b k = Some D -> round_dec D k = b /\ (D = lower b k \/ D = lower b k + 1).
Proof.
  rewrite pick_eq. destruct (round_dec (lower b k) k =? b) eqn:E1, (round_dec (lower b k + 1) k =? b) eqn:E2;
    rewrite ?Z.eqb_eq in *; intros H; try discriminate.
  - destruct (2 * (pnum b k mod pden k) ?= pden k); [destruct (Z.even (lower b k))| |]; injection H as <-; auto.
  - injection H as <-. auto.
  - injection H as <-. auto.
Qed.

(** Any decimal at 10^[k] that reads back as [b] is no closer than one of
    the two around it, which then reads back too. *)
Lemma between_low b k D : 0 <= b -> 0 <= D -> D <= lower b k -> round_dec D k = b -> round_dec (lower b k) k = b.
Proof.
  intros Hb HD L R. destruct (lower_ok b k Hb) as (N & A & _). apply round_dec_unique; [exact N|].
  apply (cell_between (dnum D k) (dden k) _ _ (sval b) 1); try apply dden_pos; try lia.
  - pose proof (dnum_le D (lower b k) k L). pose proof (dden_pos k). nia.
  - pose proof (round_dec_cell D k HD) as X. rewrite R in X. exact X.
  - apply cell_self. exact Hb.
Qed.
Lemma between_high b k D : 0 <= b -> lower b k + 1 <= D -> round_dec D k = b -> round_dec (lower b k + 1) k = b.
Proof.
  intros Hb L R. destruct (lower_ok b k Hb) as (N & _ & A). apply round_dec_unique; [lia|].
  apply (cell_between (sval b) 1 _ _ (dnum D k) (dden k)); try apply dden_pos; try lia.
  - pose proof (dnum_le (lower b k + 1) D k L). pose proof (dden_pos k). nia.
  - apply cell_self. exact Hb.
  - pose proof (round_dec_cell D k ltac:(lia)) as X. rewrite R in X. exact X.
Qed.
Lemma pick_none b k D : 0 <= b -> 0 <= D -> pick b k = None -> round_dec D k <> b.
Proof.
  intros Hb HD P R. rewrite pick_eq in P. destruct (Z_le_gt_dec D (lower b k)).
  - rewrite (between_low b k D Hb HD l R), Z.eqb_refl in P. destruct (round_dec (lower b k + 1) k =? b); [|discriminate].
    destruct (2 * (pnum b k mod pden k) ?= pden k); discriminate.
  - rewrite (between_high b k D Hb ltac:(lia) R), Z.eqb_refl in P. destruct (round_dec (lower b k) k =? b); [|discriminate].
    destruct (2 * (pnum b k mod pden k) ?= pden k); discriminate.
Qed.
Lemma pick_closest b k D D' : 0 <= b -> pick b k = Some D -> 0 <= D' -> round_dec D' k = b ->
  Z.abs (dnum D k - sval b * dden k) <= Z.abs (dnum D' k - sval b * dden k).
Proof.
  intros Hb P HD R. destruct (lower_ok b k Hb) as (N & A1 & A2).
  assert (forall D, dnum D k = pden k * D) as DN by (intros; unfold dnum, pden; ring).
  fold (pnum b k) in *. pose proof (pden_pos k) as PP.
  pose proof (Z.div_mod (pnum b k) (pden k) ltac:(lia)) as DM. fold (lower b k) in DM.
  pose proof (Z.mod_pos_bound (pnum b k) (pden k) PP) as MB.
  set (r := pnum b k mod pden k) in *. rewrite pick_eq in P. fold r in P.
  rewrite !DN in *. set (lo := lower b k) in *. set (d := pden k) in *. set (n := pnum b k) in *.
  assert (K : D' <= lo \/ lo + 1 <= D') by lia.
  assert (FL : D' <= lo -> round_dec lo k = b) by (intros; apply (between_low b k D'); assumption).
  assert (FH : lo + 1 <= D' -> round_dec (lo + 1) k = b) by (intros; apply (between_high b k D'); assumption).
  assert (low : D' <= lo -> r <= Z.abs (d * D' - n)).
  { intros L. assert (d * D' <= d * lo) by (apply Z.mul_le_mono_nonneg_l; lia). lia. }
  assert (high : lo + 1 <= D' -> d - r <= Z.abs (d * D' - n)).
  { intros L. assert (d * (lo + 1) <= d * D') by (apply Z.mul_le_mono_nonneg_l; lia). lia. }
  assert (E0 : Z.abs (d * lo - n) = r) by lia.
  assert (E1 : Z.abs (d * (lo + 1) - n) = d - r) by (replace (d * (lo + 1) - n) with (d - r) by (rewrite DM; ring); lia).
  destruct (round_dec lo k =? b) eqn:T1, (round_dec (lo + 1) k =? b) eqn:T2.
  - destruct (2 * r ?= d) eqn:C; [apply Z.compare_eq in C|rewrite Z.compare_lt_iff in C|rewrite Z.compare_gt_iff in C].
    + destruct (Z.even lo); injection P as <-; destruct K as [K|K]; [specialize (low K)|specialize (high K)|specialize (low K)|specialize (high K)]; lia.
    + injection P as <-. destruct K as [K|K]; [specialize (low K)|specialize (high K)]; lia.
    + injection P as <-. destruct K as [K|K]; [specialize (low K)|specialize (high K)]; lia.
  - injection P as <-. destruct K as [K|K]; [specialize (low K); lia|]. rewrite FH, Z.eqb_refl in T2 by exact K. discriminate.
  - injection P as <-. destruct K as [K|K]; [|specialize (high K); lia]. rewrite FL, Z.eqb_refl in T1 by exact K. discriminate.
  - discriminate.
Qed.

(** ** search *)
Lemma search_ok fuel b : forall k j, k - Z.of_nat fuel <= j <= k -> pick b j <> None ->
  exists D k', search fuel b k = (D, k') /\ pick b k' = Some D /\ j <= k' <= k /\ (forall i, k' < i <= k -> pick b i = None).
Proof.
  induction fuel as [|fuel IH]; intros k j Hj Pj; cbn [search]; destruct (pick b k) as [D|] eqn:P.
  - exists D, k. repeat split; try assumption; try lia. 
  - exfalso. assert (j = k) by lia. subst. contradiction.
  - exists D, k. repeat split; try assumption; try lia.
  - assert (j <> k) by (intros ->; contradiction).
    destruct (IH (k - 1) j ltac:(lia) Pj) as (D & k' & E & P' & R & F). exists D, k'.
    split; [exact E|]. split; [exact P'|]. split; [lia|]. intros i Hi. destruct (Z.eq_dec i k); [subst; exact P|]. apply F. lia.
Qed.

(** ** The window of exponents *)
Section Window.
Context (b : Z) (B0 : 0 < b) (B1 : b < f64_inf).
Let m := Z.log2 (sval b) - 1072.
Lemma window_m : -1072 <= m <= 1026 /\ 2 ^ (m + 1072) <= sval b < 2 ^ (m + 1073).
Proof.
  pose proof (sval_pos b B0) as S0. pose proof (Z.log2_spec _ S0) as LS. unfold m.
  replace (Z.log2 (sval b) - 1072 + 1072) with (Z.log2 (sval b)) by lia.
  replace (Z.log2 (sval b) - 1072 + 1073) with (Z.succ (Z.log2 (sval b))) by lia. split; [|exact LS].
  pose proof (Z.log2_nonneg (sval b)).
  assert (L : Z.log2 (sval b) < 2098).
  { apply Z.log2_lt_pow2; [exact S0|]. replace (2 ^ 2098) with (sval f64_inf) by (vm_compute; reflexivity). apply sval_lt. lia. }
  lia.
Qed.
Lemma above_eq : above b = if 0 <=? m then 28 * m / 93 + 1 else 3 * m / 10 + 1.
Proof. reflexivity. Qed.

Lemma two_split x : -1074 <= x -> 2 ^ (x + 1074) = if 0 <=? x then 2 ^ x * two1074 else 2 ^ (x + 1074).
Proof. intros H. destruct (0 <=? x) eqn:E; [|reflexivity]. apply Z.leb_le in E. rewrite Z.pow_add_r by lia. reflexivity. Qed.
Lemma two_neg x : -1074 <= x <= 0 -> 2 ^ (x + 1074) * 2 ^ (- x) = two1074.
Proof. intros H. rewrite <- Z.pow_add_r by lia. replace (x + 1074 + - x) with 1074 by lia. reflexivity. Qed.

Lemma above_high : 2 * (sval b * dden (above b)) < 10 ^ Z.max 0 (above b) * two1074.
Proof.
  destruct window_m as (M & _ & S). rewrite above_eq. unfold dden.
  assert (T : 2 * sval b < 2 ^ (m + 1074)).
  { replace (m + 1074) with (m + 1073 + 1) by lia. rewrite Z.pow_add_r by lia. change (2 ^ 1) with 2. lia. }
  destruct (0 <=? m) eqn:E.
  - apply Z.leb_le in E. assert (Q : 0 <= 28 * m / 93) by (apply Z.div_pos; lia).
    replace (Z.max 0 (- (28 * m / 93 + 1))) with 0 by lia. replace (Z.max 0 (28 * m / 93 + 1)) with (28 * m / 93 + 1) by lia.
    change (10 ^ 0) with 1. rewrite two_split in T by lia. replace (0 <=? m) with true in T by lia.
    pose proof (pow2_le m E). pose proof two1074_pos. nia.
  - apply Z.leb_gt in E. assert (Q : 3 * m / 10 + 1 <= 0) by lia.
    replace (Z.max 0 (3 * m / 10 + 1)) with 0 by lia. replace (Z.max 0 (- (3 * m / 10 + 1))) with (- (3 * m / 10 + 1)) by lia.
    change (10 ^ 0) with 1. rewrite Z.mul_1_l. rewrite <- (two_neg m) by lia.
    assert (X : 10 ^ (- (3 * m / 10 + 1)) <= 2 ^ (- m)).
    { transitivity (10 ^ (3 * - m / 10)); [apply pow10_mono; lia|apply pow10_le; lia]. }
    pose proof (pow10_pos (- (3 * m / 10 + 1)) ltac:(lia)). nia.
Qed.
Lemma high_mono j : above b <= j -> 2 * (sval b * dden j) < 10 ^ Z.max 0 j * two1074.
Proof.
  intros J. pose proof above_high as H. set (a := above b) in *. unfold dden in *.
  assert (X : 10 ^ Z.max 0 (- j) <= 10 ^ Z.max 0 (- a)) by (apply pow10_mono; lia).
  assert (Y : 10 ^ Z.max 0 a <= 10 ^ Z.max 0 j) by (apply pow10_mono; lia).
  pose proof (sval_pos b B0). pose proof two1074_pos. nia.
Qed.
Lemma above_none D j : 0 < D -> above b < j -> round_dec D j <> b.
Proof.
  intros HD J R. pose proof (round_dec_cell D j ltac:(lia)) as C. rewrite R in C. destruct C as (_ & _ & U & _).
  pose proof (sval_double b B0). pose proof (sval_pos b B0). pose proof (high_mono j ltac:(lia)) as H'. pose proof (dden_pos j).
  assert (G : 10 ^ Z.max 0 j * two1074 <= dnum D j).
  { unfold dnum. pose proof two1074_pos. pose proof (pow10_pos (Z.max 0 j) ltac:(lia)). nia. }
  nia.
Qed.

(** Far enough down, seventeen digits are available. *)
Lemma enough_digits : let k := above b - 30 in 10 ^ (17 + Z.max 0 k) * two1074 <= sval b * dden k.
Proof.
  destruct window_m as (M & S & _). cbv zeta. rewrite above_eq. unfold dden.
  assert (T0 := two1074_pos).
  destruct (0 <=? m) eqn:E.
  - apply Z.leb_le in E. set (k := 28 * m / 93 + 1 - 30).
    assert (T : 4 * sval b >= 2 ^ m * two1074).
    { replace (2 ^ m * two1074) with (2 ^ (m + 1074)) by (rewrite two_split by lia; replace (0 <=? m) with true by lia; reflexivity).
      replace (m + 1074) with (m + 1072 + 2) by lia. rewrite Z.pow_add_r by lia. change (2 ^ 2) with 4. lia. }
    assert (P : 10 ^ (18 + Z.max 0 k) <= 2 ^ m * 10 ^ Z.max 0 (- k)).
    { destruct (Z_le_gt_dec (18 + k) 0).
      - transitivity (10 ^ Z.max 0 (- k)); [apply pow10_mono; lia|]. pose proof (pow2_pos m E). pose proof (pow10_pos (Z.max 0 (- k)) ltac:(lia)). nia.
      - replace (18 + Z.max 0 k) with (18 + k + Z.max 0 (- k)) by lia. rewrite Z.pow_add_r by lia.
        apply Z.mul_le_mono_nonneg_r; [apply Z.pow_nonneg; lia|]. transitivity (10 ^ (3 * m / 10)); [|apply pow10_le; exact E].
        apply pow10_mono. unfold k. lia. }
    replace (18 + Z.max 0 k) with (17 + Z.max 0 k + 1) in P by lia. rewrite (Z.pow_add_r 10 (17 + Z.max 0 k) 1) in P by lia. change (10 ^ 1) with 10 in P.
    pose proof (pow10_pos (Z.max 0 (- k)) ltac:(lia)). set (u := 10 ^ (17 + Z.max 0 k)) in *. set (w := 10 ^ Z.max 0 (- k)) in *. nia.
  - apply Z.leb_gt in E. set (k := 3 * m / 10 + 1 - 30). replace (Z.max 0 k) with 0 by (unfold k; lia). replace (Z.max 0 (- k)) with (- k) by (unfold k; lia).
    change (10 ^ (17 + 0)) with (10 ^ 17).
    assert (P : 10 ^ 17 * 2 ^ (2 - m) <= 10 ^ (- k)).
    { transitivity (10 ^ 17 * 10 ^ (28 * (2 - m) / 93 + 1)).
      - apply Z.mul_le_mono_nonneg_l; [apply Z.pow_nonneg; lia|]. apply pow2_le. lia.
      - rewrite <- Z.pow_add_r by lia. apply pow10_mono. unfold k. lia. }
    assert (T : two1074 = 2 ^ (m + 1072) * 2 ^ (2 - m)).
    { rewrite <- Z.pow_add_r by lia. replace (m + 1072 + (2 - m)) with 1074 by lia. reflexivity. }
    rewrite T. pose proof (pow2_pos (m + 1072) ltac:(lia)). pose proof (pow10_pos (- k) ltac:(unfold k; lia)).
    set (u := 10 ^ 17) in *. set (v := 2 ^ (2 - m)) in *. set (w := 2 ^ (m + 1072)) in *. set (z := 10 ^ (- k)) in *. nia.
Qed.
Lemma pick_low : pick b (above b - 30) <> None.
Proof.
  pose proof enough_digits as H. cbv zeta in H. set (k := above b - 30) in *.
  destruct (lower_ok b k ltac:(lia)) as (N & A1 & A2). set (lo := lower b k) in *.
  assert (R : round_dec lo k = b).
  { apply round_dec_unique; [exact N|]. pose proof (dden_pos k) as DP.
    assert (G : pden k * 2 ^ 54 < sval b * dden k).
    { unfold pden. rewrite Z.pow_add_r in H by lia. pose proof two1074_pos. pose proof (pow10_pos (Z.max 0 k) ltac:(lia)).
      assert (X : 2 ^ 54 < 10 ^ 17) by reflexivity. set (u := 10 ^ 17) in *. set (v := 2 ^ 54) in *. set (w := 10 ^ Z.max 0 k) in *. nia. }
    assert (D1 : dnum (lo + 1) k = dnum lo k + pden k) by (unfold dnum, pden; ring).
    pose proof (sval_lt b (b + 1) ltac:(lia)) as U. pose proof (sval_gap b B0) as V.
    split; [lia|]. split; [|split; [|intros _]; nia]. intros _.
    assert (W : (sval (b - 1) + sval b) * dden k < 2 * dnum lo k); [|split; [lia|intros _; exact W]].
    change (2 ^ 54) with (2 * 2 ^ 53) in G. pose proof (pden_pos k).
    set (p := 2 ^ 53) in *. assert (Hp : 0 < p) by reflexivity. clearbody p.
    assert (X : 2 * pden k < (sval b - sval (b - 1)) * dden k).
    { assert (p * (2 * pden k) < p * ((sval b - sval (b - 1)) * dden k)) by nia. nia. }
    nia. }
  rewrite pick_eq. fold lo. rewrite R, Z.eqb_refl. destruct (round_dec (lo + 1) k =? b); [|discriminate].
  destruct (2 * (pnum b k mod pden k) ?= pden k); discriminate.
Qed.

Lemma shortest_ok : exists D k, shortest b = (D, k) /\ round_dec D k = b /\ 0 < D < 10 ^ 40 /\ -400 <= k <= 400 /\
  (forall D' k', 0 < D' -> round_dec D' k' = b -> k' <= k) /\
  (forall D', 0 <= D' -> round_dec D' k = b ->
     Z.abs (dnum D k - sval b * dden k) <= Z.abs (dnum D' k - sval b * dden k)).
Proof.
  unfold shortest. destruct (search_ok 30 b (above b) (above b - 30)) as (D & k & E & P & K & F); [lia|apply pick_low|].
  exists D, k. split; [exact E|]. destruct (pick_some b k D P) as [R LH]. split; [exact R|].
  destruct (lower_ok b k ltac:(lia)) as (N & A1 & A2). set (lo := lower b k) in *.
  assert (D0 : 0 < D).
  { destruct (Z.eq_dec D 0) as [->|]; [|lia]. exfalso. assert (round_dec 0 k = 0); [|lia].
    apply round_dec_unique; [lia|]. unfold cell. replace (dnum 0 k) with 0 by (unfold dnum; ring). pose proof (dden_pos k).
    change (sval (0 + 1)) with 1. rewrite sval_0. split; [lia|]. split; [lia|]. split; [lia|discriminate]. }
  assert (LO : lo < 10 ^ 30).
  { destruct (Z_lt_le_dec lo (10 ^ 30)) as [|G]; [assumption|exfalso].
    pose proof above_high as H. set (a := above b) in *. unfold dnum in A1. unfold dden in A1, H.
    assert (X : 10 ^ Z.max 0 a * 10 ^ Z.max 0 (- k) <= 10 ^ 30 * 10 ^ Z.max 0 k * 10 ^ Z.max 0 (- a)).
    { rewrite <- !Z.pow_add_r by lia. apply pow10_mono. lia. }
    pose proof two1074_pos as T0. pose proof (sval_pos b B0) as S0.
    pose proof (pow10_pos (Z.max 0 k) ltac:(lia)). pose proof (pow10_pos (Z.max 0 (- k)) ltac:(lia)).
    pose proof (pow10_pos (Z.max 0 a) ltac:(lia)). pose proof (pow10_pos (Z.max 0 (- a)) ltac:(lia)).
    set (T := two1074) in *. set (S := sval b) in *. set (k1 := 10 ^ Z.max 0 k) in *. set (k2 := 10 ^ Z.max 0 (- k)) in *.
    set (a1 := 10 ^ Z.max 0 a) in *. set (a2 := 10 ^ Z.max 0 (- a)) in *. set (q := 10 ^ 30) in *.
    assert (Y1 : q * k1 * T <= S * k2) by (apply Z.le_trans with (lo * k1 * T); [apply Z.mul_le_mono_nonneg_r; nia|exact A1]).
    assert (Y2 : q * k1 * T * a2 <= S * k2 * a2) by nia.
    assert (Y3 : S * a2 * k2 < a1 * T * k2) by nia.
    assert (Y4 : a1 * k2 * T <= q * k1 * a2 * T) by nia. lia. }
  split.
  { assert (X : 10 ^ 30 + 1 < 10 ^ 40) by reflexivity. lia. }
  split.
  { destruct window_m as (M & _). rewrite above_eq in K. destruct (0 <=? m); lia. }
  split.
  - intros D' k' HD R'. destruct (Z_le_gt_dec k' k) as [|G]; [assumption|exfalso].
    destruct (Z_le_gt_dec k' (above b)).
    + apply (pick_none b k' D'); try lia. apply F. lia.
    + apply (above_none D' k' HD ltac:(lia) R').
  - intros D' HD R'. apply (pick_closest b k D D'); try assumption. lia.
Qed.
End Window.
