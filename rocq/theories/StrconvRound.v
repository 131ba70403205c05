(** Rounding to float64 in [Strconv]: cells of the nearest float64. *)
From Verif Require Import Base BaseFacts F64 JsonText Codec Strconv.

Lemma p52 : 2 ^ 52 = 4503599627370496. Proof. reflexivity. Qed.
Lemma p53 : 2 ^ 53 = 9007199254740992. Proof. reflexivity. Qed.

Lemma sval_split e m : 0 <= e -> 0 <= m < 2 ^ 52 ->
  sval (e * 2 ^ 52 + m) = if e =? 0 then m else (2 ^ 52 + m) * 2 ^ (e - 1).
Proof.
  intros He Hm. unfold sval.
  assert (D : (e * 2 ^ 52 + m) / 2 ^ 52 = e) by (rewrite Z.div_add_l by (rewrite p52; lia); rewrite Z.div_small by lia; lia).
  assert (M : (e * 2 ^ 52 + m) mod 2 ^ 52 = m) by (rewrite Z.add_comm, Z.mod_add by (rewrite p52; lia); apply Z.mod_small; lia).
  rewrite D, M. destruct (e =? 0) eqn:E; [|reflexivity]. apply Z.eqb_eq in E. subst. lia.
Qed.

Definition gap (b : Z) : Z := 2 ^ Z.max 0 (b / 2 ^ 52 - 1).
Lemma gap_pos b : 0 < gap b.
Proof. unfold gap. apply Z.pow_pos_nonneg; lia. Qed.

Lemma sval_succ b : 0 <= b -> sval (b + 1) = sval b + gap b.
Proof.
  intros Hb. unfold gap. set (e := b / 2 ^ 52). set (m := b mod 2 ^ 52).
  assert (Eb : b = e * 2 ^ 52 + m) by (unfold e, m; rewrite Z.mul_comm; apply Z.div_mod; rewrite p52; lia).
  assert (He : 0 <= e) by (unfold e; apply Z.div_pos; rewrite ?p52; lia).
  assert (Hm : 0 <= m < 2 ^ 52) by (unfold m; apply Z.mod_pos_bound; rewrite p52; lia).
  rewrite Eb. rewrite (sval_split e m) by assumption.
  destruct (Z.eq_dec (m + 1) (2 ^ 52)) as [T|T].
  - replace (e * 2 ^ 52 + m + 1) with ((e + 1) * 2 ^ 52 + 0) by lia.
    rewrite sval_split by (rewrite ?p52; lia). replace (e + 1 =? 0) with false by lia. replace (e + 1 - 1) with e by lia.
    destruct (e =? 0) eqn:E.
    + apply Z.eqb_eq in E. rewrite E. change (2 ^ 0) with 1. change (2 ^ Z.max 0 (0 - 1)) with 1. lia.
    + replace (Z.max 0 (e - 1)) with (e - 1) by lia. replace e with (e - 1 + 1) at 1 by lia.
      rewrite Z.pow_add_r by lia. change (2 ^ 1) with 2. rewrite <- T. ring_simplify. lia.
  - replace (e * 2 ^ 52 + m + 1) with (e * 2 ^ 52 + (m + 1)) by lia.
    rewrite sval_split by lia. destruct (e =? 0) eqn:E.
    + apply Z.eqb_eq in E. rewrite E. change (2 ^ Z.max 0 (0 - 1)) with 1. lia.
    + replace (Z.max 0 (e - 1)) with (e - 1) by lia. ring.
Qed.

Lemma sval_0 : sval 0 = 0. Proof. reflexivity. Qed.
Lemma sval_lt_add n : forall b, 0 <= b -> (0 < n)%nat -> sval b < sval (b + Z.of_nat n).
Proof.
  induction n as [|n IH]; intros b Hb Hn; [lia|].
  destruct n as [|n].
  - change (Z.of_nat 1) with 1. rewrite sval_succ by lia. pose proof (gap_pos b). lia.
  - specialize (IH (b + 1) ltac:(lia) ltac:(lia)). rewrite sval_succ in IH by lia. pose proof (gap_pos b).
    replace (b + Z.of_nat (S (S n))) with (b + 1 + Z.of_nat (S n)) by lia. lia.
Qed.
Lemma sval_lt b c : 0 <= b < c -> sval b < sval c.
Proof. intros H. replace c with (b + Z.of_nat (Z.to_nat (c - b))) by lia. apply sval_lt_add; lia. Qed.
Lemma sval_le b c : 0 <= b <= c -> sval b <= sval c.
Proof. intros H. destruct (Z.eq_dec b c); [subst; lia|]. apply Z.lt_le_incl, sval_lt. lia. Qed.
Lemma sval_nonneg b : 0 <= b -> 0 <= sval b.
Proof. intros H. rewrite <- sval_0. apply sval_le. lia. Qed.
Lemma sval_pos b : 0 < b -> 0 < sval b.
Proof. intros H. rewrite <- sval_0. apply sval_lt. lia. Qed.

(** Neighbours are at a distance of at least one part in 2^53. *)
Lemma sval_gap b : 0 < b -> sval b <= 2 ^ 53 * (sval b - sval (b - 1)).
Proof.
  intros Hb. pose proof (sval_succ (b - 1) ltac:(lia)) as S1. replace (b - 1 + 1) with b in S1 by lia.
  set (c := b - 1) in *. assert (Hc : 0 <= c) by lia. replace (sval b - sval c) with (gap c) by lia.
  rewrite S1. unfold gap. set (e := c / 2 ^ 52). set (m := c mod 2 ^ 52).
  assert (Eb : c = e * 2 ^ 52 + m) by (unfold e, m; rewrite Z.mul_comm; apply Z.div_mod; rewrite p52; lia).
  assert (He : 0 <= e) by (unfold e; apply Z.div_pos; rewrite ?p52; lia).
  assert (Hm : 0 <= m < 2 ^ 52) by (unfold m; apply Z.mod_pos_bound; rewrite p52; lia).
  rewrite Eb, sval_split by assumption. destruct (e =? 0) eqn:E.
  - apply Z.eqb_eq in E. rewrite E. change (2 ^ Z.max 0 (0 - 1)) with 1. rewrite p52, p53 in *. lia.
  - replace (Z.max 0 (e - 1)) with (e - 1) by lia.
    assert (P : 0 < 2 ^ (e - 1)) by (apply Z.pow_pos_nonneg; lia). rewrite p52, p53 in *. nia.
Qed.
Lemma sval_gap_up b : 0 < b -> sval b <= 2 ^ 53 * (sval (b + 1) - sval b).
Proof.
  intros Hb. pose proof (sval_gap (b + 1) ltac:(lia)) as G. replace (b + 1 - 1) with b in G by lia.
  pose proof (sval_lt b (b + 1) ltac:(lia)). lia.
Qed.
Lemma sval_double b : 0 < b -> sval (b + 1) <= 2 * sval b.
Proof.
  intros Hb. rewrite sval_succ by lia. unfold gap. set (e := b / 2 ^ 52). set (m := b mod 2 ^ 52).
  assert (Eb : b = e * 2 ^ 52 + m) by (unfold e, m; rewrite Z.mul_comm; apply Z.div_mod; rewrite p52; lia).
  assert (He : 0 <= e) by (unfold e; apply Z.div_pos; rewrite ?p52; lia).
  assert (Hm : 0 <= m < 2 ^ 52) by (unfold m; apply Z.mod_pos_bound; rewrite p52; lia).
  rewrite Eb, sval_split by assumption. destruct (e =? 0) eqn:E.
  - apply Z.eqb_eq in E. rewrite E in *. change (2 ^ Z.max 0 (0 - 1)) with 1. lia.
  - replace (Z.max 0 (e - 1)) with (e - 1) by lia.
    assert (P : 0 < 2 ^ (e - 1)) by (apply Z.pow_pos_nonneg; lia). rewrite p52 in *. nia.
Qed.

Lemma floor64_ok q : 0 <= q -> 0 <= floor64 q /\ sval (floor64 q) <= q < sval (floor64 q + 1).
Proof.
  intros Hq. unfold floor64. destruct (q <? 2 ^ 53) eqn:C.
  - apply Z.ltb_lt in C. split; [lia|]. rewrite sval_succ by lia.
    assert (S0 : sval q = q).
    { destruct (Z_lt_le_dec q (2 ^ 52)).
      - pose proof (sval_split 0 q ltac:(lia) ltac:(lia)) as X. cbn [Z.eqb] in X. rewrite Z.mul_0_l, Z.add_0_l in X. exact X.
      - pose proof (sval_split 1 (q - 2 ^ 52) ltac:(lia) ltac:(rewrite p52, p53 in *; lia)) as X. change (1 =? 0) with false in X. cbv iota in X.
        change (2 ^ (1 - 1)) with 1 in X. replace (1 * 2 ^ 52 + (q - 2 ^ 52)) with q in X by lia. rewrite X. lia. }
    rewrite S0. pose proof (gap_pos q). lia.
  - apply Z.ltb_ge in C. set (L := Z.log2 q). set (j := L - 52).
    assert (Q0 : 0 < q) by (rewrite p53 in C; lia).
    assert (HL : 53 <= L) by (unfold L; apply Z.log2_le_pow2; [exact Q0|exact C]).
    pose proof (Z.log2_spec q Q0) as LS. fold L in LS.
    assert (Hj : 1 <= j) by (unfold j; lia).
    assert (Pj : 0 < 2 ^ j) by (apply Z.pow_pos_nonneg; lia).
    set (Q := q / 2 ^ j).
    assert (B : 2 ^ 52 <= Q < 2 ^ 53).
    { unfold Q. split.
      - apply Z.div_le_lower_bound; [exact Pj|]. rewrite <- Z.pow_add_r by lia. replace (j + 52) with L by (unfold j; lia). apply LS.
      - apply Z.div_lt_upper_bound; [exact Pj|]. rewrite <- Z.pow_add_r by lia. replace (j + 53) with (Z.succ L) by (unfold j; lia). apply LS. }
    replace (j * 2 ^ 52 + Q) with ((j + 1) * 2 ^ 52 + (Q - 2 ^ 52)) by lia.
    assert (R : 0 <= Q - 2 ^ 52 < 2 ^ 52) by (rewrite p52, p53 in *; lia).
    assert (NN : 0 <= (j + 1) * 2 ^ 52 + (Q - 2 ^ 52)) by (rewrite p52 in *; lia).
    split; [exact NN|]. rewrite sval_succ by exact NN. rewrite sval_split by lia.
    replace (j + 1 =? 0) with false by lia. replace (j + 1 - 1) with j by lia.
    unfold gap. rewrite Z.div_add_l by (rewrite p52; lia). rewrite (Z.div_small (Q - 2 ^ 52)) by exact R.
    replace (Z.max 0 (j + 1 + 0 - 1)) with j by lia. replace (2 ^ 52 + (Q - 2 ^ 52)) with Q by lia.
    pose proof (Z.div_mod q (2 ^ j) ltac:(lia)) as DM. fold Q in DM. pose proof (Z.mod_pos_bound q (2 ^ j) Pj). nia.
Qed.

(** The numbers [n]/[d] whose nearest magnitude is [b]. *)
Definition cell (n d b : Z) : Prop :=
  0 <= b /\
  (0 < b -> (sval (b - 1) + sval b) * d <= 2 * n /\ (Z.even b = false -> (sval (b - 1) + sval b) * d < 2 * n)) /\
  2 * n <= (sval b + sval (b + 1)) * d /\ (Z.even b = false -> 2 * n < (sval b + sval (b + 1)) * d).

Lemma even_succ b : Z.even (b + 1) = negb (Z.even b).
Proof. rewrite Z.add_1_r, Z.even_succ, <- Z.negb_even. reflexivity. Qed.

Lemma round64_cell n d : 0 <= n -> 0 < d -> cell n d (round64 n d).
Proof.
  intros Hn Hd. unfold round64. set (b := floor64 (n / d)).
  destruct (floor64_ok (n / d)) as (B0 & B1 & B2); [apply Z.div_pos; lia|]. fold b in B0, B1, B2.
  pose proof (Z.div_mod n d ltac:(lia)) as DM. pose proof (Z.mod_pos_bound n d Hd) as MB.
  assert (A1 : sval b * d <= n) by nia. assert (A2 : n < sval (b + 1) * d) by nia.
  assert (low : 0 < b -> (sval (b - 1) + sval b) * d < 2 * n).
  { intros P. pose proof (sval_lt (b - 1) b ltac:(lia)). nia. }
  assert (high : 2 * n < (sval (b + 1) + sval (b + 1 + 1)) * d).
  { pose proof (sval_lt (b + 1) (b + 1 + 1) ltac:(lia)). nia. }
  destruct (2 * n ?= (sval b + sval (b + 1)) * d) eqn:C.
  - apply Z.compare_eq in C. destruct (Z.even b) eqn:Ev.
    + split; [exact B0|]. split; [intros P; specialize (low P); split; [lia|intros; exact low]|]. split; [lia|congruence].
    + unfold cell. rewrite even_succ, Ev. cbn [negb]. replace (b + 1 - 1) with b by lia.
      split; [lia|]. split; [intros _; split; [lia|discriminate]|]. split; [lia|discriminate].
  - apply Z.compare_lt_iff in C. split; [exact B0|]. split; [intros P; specialize (low P); split; [lia|intros; exact low]|]. split; [apply Z.lt_le_incl; exact C|intros; exact C].
  - apply Z.compare_gt_iff in C. unfold cell. replace (b + 1 - 1) with b by lia.
    split; [lia|]. split; [intros _; split; [lia|intros; exact C]|]. split; [lia|intros; exact high].
Qed.

Lemma cell_lt n d b c : 0 < d -> cell n d b -> cell n d c -> b < c -> False.
Proof.
  intros Hd (B0 & _ & B1 & B2) (C0 & C1 & _) L. destruct (C1 ltac:(lia)) as [C2 C3].
  pose proof (sval_le (b + 1) c ltac:(lia)) as S1. pose proof (sval_le b (c - 1) ltac:(lia)) as S2.
  assert (T : (sval b + sval (b + 1)) * d <= (sval (c - 1) + sval c) * d) by nia.
  destruct (Z.eq_dec c (b + 1)) as [->|N].
  - rewrite even_succ in C3. destruct (Z.even b); cbn [negb] in C3; [specialize (C3 eq_refl)|specialize (B2 eq_refl)]; lia.
  - pose proof (sval_lt (b + 1) c ltac:(lia)). nia.
Qed.
Lemma cell_unique n d b c : 0 < d -> cell n d b -> cell n d c -> b = c.
Proof.
  intros Hd B C. destruct (Z.lt_trichotomy b c) as [L|[E|L]]; [|exact E|].
  - destruct (cell_lt n d b c Hd B C L).
  - destruct (cell_lt n d c b Hd C B L).
Qed.
Lemma round64_unique n d b : 0 <= n -> 0 < d -> cell n d b -> round64 n d = b.
Proof. intros Hn Hd C. apply (cell_unique n d); [exact Hd|apply round64_cell; assumption|exact C]. Qed.

(** Equal fractions and fractions in between. *)
Lemma cell_between n1 d1 n2 d2 n3 d3 b : 0 < d1 -> 0 < d2 -> 0 < d3 ->
  n1 * d2 <= n2 * d1 -> n2 * d3 <= n3 * d2 -> cell n1 d1 b -> cell n3 d3 b -> cell n2 d2 b.
Proof.
  intros P1 P2 P3 L1 L2 (B0 & A1 & _) (_ & _ & C2 & C3). split; [exact B0|]. split; [|split].
  - intros P. destruct (A1 P) as [X Y]. set (K := sval (b - 1) + sval b) in *. split.
    + apply (Z.mul_le_mono_pos_r _ _ d1 P1). nia.
    + intros E. specialize (Y E). apply (Z.mul_lt_mono_pos_r d1 _ _ P1). nia.
  - set (K := sval b + sval (b + 1)) in *. apply (Z.mul_le_mono_pos_r _ _ d3 P3). nia.
  - intros E. specialize (C3 E). set (K := sval b + sval (b + 1)) in *. apply (Z.mul_lt_mono_pos_r d3 _ _ P3). nia.
Qed.
Lemma cell_same n1 d1 n2 d2 b : 0 < d1 -> 0 < d2 -> n1 * d2 = n2 * d1 -> cell n1 d1 b -> cell n2 d2 b.
Proof. intros P1 P2 E C. apply (cell_between n1 d1 n2 d2 n1 d1); try assumption; lia. Qed.
Lemma cell_self b : 0 <= b -> cell (sval b) 1 b.
Proof.
  intros Hb. pose proof (sval_lt b (b + 1) ltac:(lia)). split; [exact Hb|]. split; [|split; [|intros _]; lia].
  intros P. pose proof (sval_lt (b - 1) b ltac:(lia)). lia.
Qed.

(** The nearest magnitude, ties to even. *)
Lemma cell_nearest n d b c : 0 < d -> cell n d b -> 0 <= c ->
  Z.abs (n - sval b * d) <= Z.abs (n - sval c * d) /\
  (Z.abs (n - sval b * d) = Z.abs (n - sval c * d) -> b = c \/ Z.even b = true).
Proof.
  intros Hd (B0 & B1 & B2 & B3) Hc.
  destruct (Z.lt_trichotomy c b) as [L|[E|L]]; [|subst; split; [lia|left; reflexivity]|].
  - destruct (B1 ltac:(lia)) as [X Y]. pose proof (sval_le c (b - 1) ltac:(lia)) as M. pose proof (sval_lt c b ltac:(lia)) as M'.
    assert (T : (sval c + sval b) * d <= (sval (b - 1) + sval b) * d) by nia.
    split; [nia|]. intros E. right. destruct (Z.even b); [reflexivity|]. exfalso. specialize (Y eq_refl). nia.
  - pose proof (sval_le (b + 1) c ltac:(lia)) as M. pose proof (sval_lt b c ltac:(lia)) as M'.
    assert (T : (sval b + sval (b + 1)) * d <= (sval b + sval c) * d) by nia.
    split; [nia|]. intros E. right. destruct (Z.even b); [reflexivity|]. exfalso. specialize (B3 eq_refl). nia.
Qed.
