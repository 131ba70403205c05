(** The sRGB transfer functions of IEC 61966-2-1, which glTF 2.0 refers to for
    colours stored as integers (section 3.9.2). *)
From Coq Require Import ZArith Reals.
Open Scope R_scope.

(** From a non-linear value in [0,1] to linear light. *)
Definition srgb_decode (t : R) : R :=
  if Rle_dec t (4045 / 100000) then t / (1292 / 100) else Rpower ((t + 55 / 1000) / (1055 / 1000)) (24 / 10).
(** And back. *)
Definition srgb_encode (c : R) : R :=
  if Rle_dec c (31308 / 10000000) then 1292 / 100 * c else 1055 / 1000 * Rpower c (10 / 24) - 55 / 1000.
