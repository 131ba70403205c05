(** C60 for 8-bit channels, exactly: the values that come back, and the 37 that
    come back one lower, with every power function accurate to 2^-40. *)
From Coq Require Import ZArith Reals List Lia.
From Flocq Require Import Core IEEE754.Binary IEEE754.Bits.
From Verif Require Import Norm NormProofs NormAlpha NormWhite SrgbProofs SrgbExact PropsSrgb.
Import ListNotations.
Open Scope Z_scope.

Theorem C60_eight_bit pow : accurate pow -> forall r g b, in_channel 255 r -> in_channel 255 g -> in_channel 255 b ->
  NormalizeRGB pow (DenormalizeRGB pow (r, g, b)) = (Some (back8 r), Some (back8 g), Some (back8 b)) /\
  forall a, in_channel 255 a ->
    NormalizeRGBA pow (DenormalizeRGBA pow (r, g, b, a)) = (Some (back8 r), Some (back8 g), Some (back8 b), Some a).
Proof.
  intros P r g b R G B. unfold in_channel in *. split.
  - cbn [NormalizeRGB DenormalizeRGB]. rewrite !channel_back by assumption. reflexivity.
  - intros a A. cbn [NormalizeRGBA DenormalizeRGBA]. rewrite !channel_back by assumption. rewrite alpha8 by assumption. reflexivity.
Qed.
Print Assumptions C60_eight_bit.

(** A colour is unchanged exactly if none of its channels is in the list. *)
Theorem C60_eight_bit_exact pow : accurate pow -> forall r g b, in_channel 255 r -> in_channel 255 g -> in_channel 255 b ->
  NormalizeRGB pow (DenormalizeRGB pow (r, g, b)) = (Some r, Some g, Some b) <-> ~ In r lowered8 /\ ~ In g lowered8 /\ ~ In b lowered8.
Proof.
  intros P r g b R G B. destruct (C60_eight_bit pow P r g b R G B) as [-> _].
  assert (K : forall v, back8 v = v <-> ~ In v lowered8) by (intros v; unfold back8; destruct (in_dec Z.eq_dec v lowered8); [split; [lia|tauto]|tauto]).
  rewrite <- !K. split; [intros E; injection E; auto|intros (-> & -> & ->); reflexivity].
Qed.
Print Assumptions C60_eight_bit_exact.

(** A grey of the list and one that is not. *)
Example C60_eight_bit_example : accurate exact_pow /\ back8 127 = 126 /\ back8 128 = 128 /\ in_channel 255 127 /\ length lowered8 = 37%nat.
Proof. split; [exact exact_pow_accurate|]. vm_compute. repeat split; discriminate. Qed.

(** No such list can be given for 16-bit channels: the value 8400 comes back
    with one accurate power function and not with another. *)
Theorem C60_sixteen_bit_refuted : exists pow1 pow2, accurate pow1 /\ accurate pow2 /\
  NormalizeRGB64 pow1 (DenormalizeRGB64 pow1 (8400, 8400, 8400)) = (Some 8400, Some 8400, Some 8400) /\
  NormalizeRGB64 pow2 (DenormalizeRGB64 pow2 (8400, 8400, 8400)) = (Some 8399, Some 8399, Some 8399).
Proof.
  set (q := linear_arg 65535 8400). assert (H : encloses 5 12 q 16849117381479 = true) by (vm_compute; reflexivity).
  assert (L : forall n, linear_channel (pow_at q n) 65535 8400 = f32_of_f64 (d50 n)).
  { intros n. unfold linear_channel, linearize. replace (le32 _ _) with false by (vm_compute; reflexivity). fold (linear_arg 65535 8400). fold q.
    unfold pow_at. rewrite !Z.eqb_refl. reflexivity. }
  assert (A1 : accurate (pow_at q (16849117381479 + 900))) by (apply (pow_at_accurate q 16849117381479); [exact H|lia]).
  assert (A2 : accurate (pow_at q (16849117381479 - 900))) by (apply (pow_at_accurate q 16849117381479); [exact H|lia]).
  exists (pow_at q (16849117381479 + 900)), (pow_at q (16849117381479 - 900)). split; [exact A1|]. split; [exact A2|].
  cbn [NormalizeRGB64 DenormalizeRGB64]. rewrite !L.
  rewrite (settles_ok (pow_at q (16849117381479 + 900)) 65535 _ 195485865196748 8400 A1); [|right; reflexivity|vm_compute; reflexivity].
  rewrite (settles_ok (pow_at q (16849117381479 - 900)) 65535 _ 195485860127694 8399 A2); [|right; reflexivity|vm_compute; reflexivity].
  split; reflexivity.
Qed.
Print Assumptions C60_sixteen_bit_refuted.
