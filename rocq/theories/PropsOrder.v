(** C106: the linear values of different channel values differ, and are in the
    same order. *)
From Coq Require Import ZArith Reals List Lia Lra.
From Flocq Require Import Core IEEE754.Binary IEEE754.Bits IEEE754.BinarySingleNaN.
From Verif Require Import SpecSrgb SrgbReals Norm NormProofs NormAlpha NormWhite SrgbProofs SrgbExact PropsSrgb.
Open Scope R_scope.

(** The encoding function increases, but for its step at the threshold. *)
Lemma encode_mono c c' : 0 <= c -> c <= c' -> srgb_encode c - / 1000000 <= srgb_encode c'.
Proof.
  intros C H. unfold srgb_encode. destruct (Rle_dec c (31308 / 10000000)) as [A|A], (Rle_dec c' (31308 / 10000000)) as [B|B]; try lra.
  - assert (LO : 90473845 / 1000000000 <= Rpower c' (10 / 24)).
    { apply Rle_trans with (Rpower (31308 / 10000000) (10 / 24)); [|apply Rpower_mono; lra]. apply power_512_ge; lra. }
    lra.
  - pose proof (Rpower_mono c c' (10 / 24) ltac:(lra) ltac:(lra)). lra.
Qed.
Lemma decode_nonneg t : 0 <= t -> 0 <= srgb_decode t.
Proof. intros T. unfold srgb_decode. destruct (Rle_dec t (4045 / 100000)); [lra|left; apply exp_pos]. Qed.

Lemma linear_order pow max u v : accurate pow -> max_channel max -> in_channel max u -> in_channel max v -> (u < v)%Z ->
  R32 (linear_channel pow max u) < R32 (linear_channel pow max v).
Proof.
  intros P M U V H. unfold in_channel in *. destruct (linear_ok pow max u P M U) as (_ & EU & _). destruct (linear_ok pow max v P M V) as (_ & EV & _).
  set (cu := R32 (linear_channel pow max u)) in *. set (cv := R32 (linear_channel pow max v)) in *.
  assert (MP : 0 < IZR max <= 65535) by (split; [apply (IZR_lt 0)|apply IZR_le]; destruct M; lia).
  assert (UB : 0 <= IZR u <= IZR max) by (split; apply IZR_le; lia). assert (VB : 0 <= IZR v <= IZR max) by (split; apply IZR_le; lia).
  assert (S : IZR u + 1 <= IZR v) by (rewrite <- plus_IZR; apply IZR_le; lia).
  assert (I : / 65535 <= / IZR max) by (apply Rinv_le_contravar; lra). assert (II : IZR max * / IZR max = 1) by (apply Rinv_r; lra).
  assert (TU : 0 <= IZR u / IZR max <= 1) by (unfold Rdiv; nra). assert (TV : 0 <= IZR v / IZR max <= 1) by (unfold Rdiv; nra).
  assert (G : IZR u / IZR max + / 65535 <= IZR v / IZR max) by (unfold Rdiv; nra).
  pose proof (srgb_inverse _ _ TU EU) as QU. pose proof (srgb_inverse _ _ TV EV) as QV. apply Rabs_le_inv in QU, QV, EV.
  destruct (Rlt_le_dec cu cv) as [L|L]; [exact L|]. exfalso.
  pose proof (decode_nonneg (IZR v / IZR max) ltac:(lra)) as D0. pose proof (encode_mono cv cu ltac:(lra) L). lra.
Qed.

Definition keeps_order (max : Z) (f : Z * Z * Z -> binary32 * binary32 * binary32) : Prop :=
  forall r g b r' g' b', in_channel max r -> in_channel max g -> in_channel max b -> in_channel max r' -> in_channel max g' -> in_channel max b' ->
  exists x y z x' y' z', f (r, g, b) = (x, y, z) /\ f (r', g', b') = (x', y', z') /\
    ((r < r')%Z <-> R32 x < R32 x') /\ ((g < g')%Z <-> R32 y < R32 y') /\ ((b < b')%Z <-> R32 z < R32 z').
Theorem C106_order pow : accurate pow -> keeps_order 255 (DenormalizeRGB pow) /\ keeps_order 65535 (DenormalizeRGB64 pow).
Proof.
  intros P.
  assert (K : forall max u v, max_channel max -> in_channel max u -> in_channel max v -> (u < v)%Z <-> R32 (linear_channel pow max u) < R32 (linear_channel pow max v)).
  { intros max u v M U V. split; [apply linear_order; assumption|]. intros L. destruct (Z.lt_trichotomy u v) as [Q|[Q|Q]]; [exact Q| |]; exfalso.
    - subst v. lra.
    - pose proof (linear_order pow max v u P M V U Q). lra. }
  split; intros r g b r' g' b' R G B R' G' B'; do 6 eexists; (split; [reflexivity|]); (split; [reflexivity|]);
    (split; [|split]); apply K; try assumption; [left|left|left|right|right|right]; reflexivity.
Qed.
Print Assumptions C106_order.

(** So no two colours have the same floats. *)
Theorem C106_injective pow : accurate pow ->
  (forall r g b r' g' b', in_channel 255 r -> in_channel 255 g -> in_channel 255 b -> in_channel 255 r' -> in_channel 255 g' -> in_channel 255 b' ->
     DenormalizeRGB pow (r, g, b) = DenormalizeRGB pow (r', g', b') -> (r, g, b) = (r', g', b')) /\
  (forall r g b r' g' b', in_channel 65535 r -> in_channel 65535 g -> in_channel 65535 b -> in_channel 65535 r' -> in_channel 65535 g' -> in_channel 65535 b' ->
     DenormalizeRGB64 pow (r, g, b) = DenormalizeRGB64 pow (r', g', b') -> (r, g, b) = (r', g', b')).
Proof.
  intros P.
  assert (K : forall max u v, max_channel max -> in_channel max u -> in_channel max v -> linear_channel pow max u = linear_channel pow max v -> u = v).
  { intros max u v M U V E. destruct (Z.lt_trichotomy u v) as [L|[L|L]]; [|exact L|]; exfalso.
    - pose proof (linear_order pow max u v P M U V L) as Q. rewrite E in Q. lra.
    - pose proof (linear_order pow max v u P M V U L) as Q. rewrite E in Q. lra. }
  split; intros r g b r' g' b' R G B R' G' B' E; cbn [DenormalizeRGB DenormalizeRGB64] in E; injection E as E1 E2 E3.
  - rewrite (K 255%Z r r'), (K 255%Z g g'), (K 255%Z b b'); auto; left; reflexivity.
  - rewrite (K 65535%Z r r'), (K 65535%Z g g'), (K 65535%Z b b'); auto; right; reflexivity.
Qed.
Print Assumptions C106_injective.

(** The way back does not keep them apart: 113 and 114 both come back as 113. *)
Theorem C106_merged pow : accurate pow ->
  NormalizeRGB pow (DenormalizeRGB pow (113, 113, 113)%Z) = (Some 113, Some 113, Some 113)%Z /\
  NormalizeRGB pow (DenormalizeRGB pow (114, 114, 114)%Z) = (Some 113, Some 113, Some 113)%Z.
Proof.
  intros P. cbn [NormalizeRGB DenormalizeRGB]. rewrite !channel_back by (assumption || lia).
  change (back8 113) with 113%Z. change (back8 114) with 113%Z. split; reflexivity.
Qed.
Print Assumptions C106_merged.

Example C106_example : accurate exact_pow /\ in_channel 65535 8399 /\ in_channel 65535 8400 /\ (8399 < 8400)%Z.
Proof. split; [exact exact_pow_accurate|]. unfold in_channel. lia. Qed.
