(** C72, and C60 for all channel values: the colour conversions compute the
    sRGB transfer functions. *)
From Coq Require Import ZArith Reals List Lia Lra.
From Flocq Require Import Core IEEE754.Binary IEEE754.Bits IEEE754.BinarySingleNaN.
From Verif Require Import SpecSrgb SrgbReals Norm NormProofs NormAlpha NormWhite SrgbProofs.
Import ListNotations.
Open Scope R_scope.

(** A float within the relative error 2^-21 of the linear value. *)
Definition linear_value (max v : Z) (y : binary32) : Prop :=
  fin32 y = true /\ Rabs (R32 y - srgb_decode (IZR v / IZR max)) <= / 2097152 * srgb_decode (IZR v / IZR max).
Definition in_channel (max v : Z) : Prop := (0 <= v <= max)%Z.

(** DenormalizeRGB and its variants give linear light, for every power
    function accurate to 2^-40; alpha is linear already. *)
Theorem C72_linear pow : accurate pow ->
  (forall r g b, in_channel 255 r -> in_channel 255 g -> in_channel 255 b ->
     exists x y z, DenormalizeRGB pow (r, g, b) = (x, y, z) /\ linear_value 255 r x /\ linear_value 255 g y /\ linear_value 255 b z) /\
  (forall r g b, in_channel 65535 r -> in_channel 65535 g -> in_channel 65535 b ->
     exists x y z, DenormalizeRGB64 pow (r, g, b) = (x, y, z) /\ linear_value 65535 r x /\ linear_value 65535 g y /\ linear_value 65535 b z) /\
  (forall r g b a, in_channel 255 r -> in_channel 255 g -> in_channel 255 b -> in_channel 255 a ->
     exists x y z w, DenormalizeRGBA pow (r, g, b, a) = (x, y, z, w) /\ linear_value 255 r x /\ linear_value 255 g y /\ linear_value 255 b z /\
       fin32 w = true /\ R32 w = rnd32 (IZR a / 255)) /\
  (forall r g b a, in_channel 65535 r -> in_channel 65535 g -> in_channel 65535 b -> in_channel 65535 a ->
     exists x y z w, DenormalizeRGBA64 pow (r, g, b, a) = (x, y, z, w) /\ linear_value 65535 r x /\ linear_value 65535 g y /\ linear_value 65535 b z /\
       fin32 w = true /\ R32 w = rnd32 (IZR a / 65535)).
Proof.
  intros P.
  assert (L : forall max v, max_channel max -> in_channel max v -> linear_value max v (linear_channel pow max v)).
  { intros max v M V. destruct (linear_ok pow max v P M V) as (F & E & _). split; [exact F|exact E]. }
  assert (A : forall max a, max_channel max -> in_channel max a -> fin32 (linear_alpha max a) = true /\ R32 (linear_alpha max a) = rnd32 (IZR a / IZR max)).
  { intros max a M V. unfold in_channel in V. destruct (div32_ok a max) as [E F]; [destruct M; lia|destruct M; lia|]. split; [exact F|exact E]. }
  assert (M1 : max_channel 255) by (left; reflexivity). assert (M2 : max_channel 65535) by (right; reflexivity).
  split; [|split; [|split]]; intros; repeat eexists; try (apply L; assumption); try (apply (A 255%Z); assumption); try (apply (A 65535%Z); assumption).
  all: try (eapply proj2, L; eassumption). all: try (eapply proj1, L; eassumption).
Qed.
Print Assumptions C72_linear.

(** NormalizeRGB and its variants cut off the encoded value at most 1/64 away
    from the exact one, and never leave the range. *)
Definition encoded_value (max : Z) (c : binary32) (o : option Z) : Prop :=
  exists n, o = Some n /\ in_channel max n /\
    IZR max * srgb_encode (R32 c) - 1 - / 64 < IZR n <= IZR max * srgb_encode (R32 c) + / 64.
Definition colour_float (c : binary32) : Prop := fin32 c = true /\ 0 <= R32 c <= 1.
Theorem C72_encoded pow : accurate pow ->
  (forall r g b, colour_float r -> colour_float g -> colour_float b ->
     exists x y z, NormalizeRGB pow (r, g, b) = (x, y, z) /\ encoded_value 255 r x /\ encoded_value 255 g y /\ encoded_value 255 b z) /\
  (forall r g b, colour_float r -> colour_float g -> colour_float b ->
     exists x y z, NormalizeRGB64 pow (r, g, b) = (x, y, z) /\ encoded_value 65535 r x /\ encoded_value 65535 g y /\ encoded_value 65535 b z) /\
  (forall r g b a, colour_float r -> colour_float g -> colour_float b ->
     exists x y z w, NormalizeRGBA pow (r, g, b, a) = (x, y, z, w) /\ encoded_value 255 r x /\ encoded_value 255 g y /\ encoded_value 255 b z) /\
  (forall r g b a, colour_float r -> colour_float g -> colour_float b ->
     exists x y z w, NormalizeRGBA64 pow (r, g, b, a) = (x, y, z, w) /\ encoded_value 65535 r x /\ encoded_value 65535 g y /\ encoded_value 65535 b z).
Proof.
  intros P.
  assert (L : forall max c, max_channel max -> colour_float c -> encoded_value max c (srgb_channel pow max c)).
  { intros max c M [F C]. destruct (channel_ok pow max c P M F C) as (w & E & W0 & WM & WB). exists (Zfloor w). split; [exact E|].
    split; [split; [apply Zfloor_lub; exact W0|exact WM]|].
    apply Rabs_le_inv in WB. pose proof (Zfloor_lb w). pose proof (Zfloor_ub w). lra. }
  assert (M1 : max_channel 255) by (left; reflexivity). assert (M2 : max_channel 65535) by (right; reflexivity).
  split; [|split; [|split]]; intros; cbn [NormalizeRGB NormalizeRGB64 NormalizeRGBA NormalizeRGBA64];
    [do 3 eexists|do 3 eexists|do 4 eexists|do 4 eexists]; (split; [reflexivity|]); (split; [|split]); apply L; assumption.
Qed.
Print Assumptions C72_encoded.

(** C60: every channel value comes back, or the value below it. *)
Definition same_or_below (v : Z) (o : option Z) : Prop := o = Some v \/ (0 < v)%Z /\ o = Some (v - 1)%Z.
Theorem C60_within_one_partial pow : accurate pow ->
  (forall r g b, in_channel 255 r -> in_channel 255 g -> in_channel 255 b ->
     exists x y z, NormalizeRGB pow (DenormalizeRGB pow (r, g, b)) = (x, y, z) /\ same_or_below r x /\ same_or_below g y /\ same_or_below b z) /\
  (forall r g b, in_channel 65535 r -> in_channel 65535 g -> in_channel 65535 b ->
     exists x y z, NormalizeRGB64 pow (DenormalizeRGB64 pow (r, g, b)) = (x, y, z) /\ same_or_below r x /\ same_or_below g y /\ same_or_below b z) /\
  (forall r g b a, in_channel 255 r -> in_channel 255 g -> in_channel 255 b -> in_channel 255 a ->
     exists x y z, NormalizeRGBA pow (DenormalizeRGBA pow (r, g, b, a)) = (x, y, z, Some a) /\ same_or_below r x /\ same_or_below g y /\ same_or_below b z) /\
  (forall r g b a, in_channel 65535 r -> in_channel 65535 g -> in_channel 65535 b -> in_channel 65535 a ->
     exists x y z, NormalizeRGBA64 pow (DenormalizeRGBA64 pow (r, g, b, a)) = (x, y, z, Some a) /\ same_or_below r x /\ same_or_below g y /\ same_or_below b z).
Proof.
  intros P.
  assert (M1 : max_channel 255) by (left; reflexivity). assert (M2 : max_channel 65535) by (right; reflexivity).
  split; [|split; [|split]]; intros; cbn [NormalizeRGB NormalizeRGB64 NormalizeRGBA NormalizeRGBA64 DenormalizeRGB DenormalizeRGB64 DenormalizeRGBA DenormalizeRGBA64];
    rewrite ?alpha8, ?alpha16 by assumption; do 3 eexists; (split; [reflexivity|]); (split; [|split]); apply channel_round; assumption.
Qed.
Print Assumptions C60_within_one_partial.

(** The hypotheses are met; the transfer functions at some known points. *)
Example C72_accurate : accurate exact_pow.
Proof. exact exact_pow_accurate. Qed.
Example C72_points : srgb_decode 0 = 0 /\ srgb_decode 1 = 1 /\ srgb_encode 1 = 1 /\ srgb_encode (1 / 1000) = 1292 / 100000 /\ colour_float (f32_of_Z 1) /\ in_channel 255 188.
Proof.
  assert (P1 : forall b, Rpower 1 b = 1) by (intros b; unfold Rpower; rewrite ln_1, Rmult_0_r; apply exp_0).
  split; [unfold srgb_decode; destruct (Rle_dec 0 _); lra|]. split.
  { unfold srgb_decode. destruct (Rle_dec 1 _); [lra|]. replace ((1 + 55 / 1000) / (1055 / 1000)) with 1 by lra. apply P1. }
  split; [unfold srgb_encode; destruct (Rle_dec 1 _); [lra|rewrite P1; lra]|]. split; [unfold srgb_encode; destruct (Rle_dec (1 / 1000) _); lra|].
  destruct (f32_of_Z_ok 1 ltac:(lia)) as [E F]. split; [split; [exact F|rewrite E; lra]|unfold in_channel; lia].
Qed.
