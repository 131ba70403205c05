(** Model of math.go: conversions between floats and normalized integers, in
    IEEE-754 arithmetic (Flocq, rounding to nearest even as Go specifies).

    Not modelled: math.Pow, which is a parameter [pow]; a compiler fusing
    1.055*p - 0.055 into one rounding (allowed by the Go specification on
    some platforms), the product and difference are rounded separately here.
    A float-to-integer conversion whose value does not fit is
    implementation-defined in Go and is [None] here. *)
From Coq Require Import ZArith Reals List Bool Lia.
From Flocq Require Import Core IEEE754.Binary IEEE754.Bits IEEE754.BinarySingleNaN.
Import ListNotations.
Open Scope Z_scope.

Notation f32 := binary32 (only parsing).
Notation f64 := binary64 (only parsing).

Definition hp32 : Prec_gt_0 24 := eq_refl.
Definition hl32 : Prec_lt_emax 24 128 := eq_refl.
Definition hp64 : Prec_gt_0 53 := eq_refl.
Definition hl64 : Prec_lt_emax 53 1024 := eq_refl.

(** Conversions of small integers and between the two formats; an operand that
    is NaN gives a NaN. *)
Definition f32_of_Z (n : Z) : f32 := Binary.binary_normalize 24 128 hp32 hl32 mode_NE n 0 false.
Definition f64_of_Z (n : Z) : f64 := Binary.binary_normalize 53 1024 hp64 hl64 mode_NE n 0 false.
Definition f64_of_f32 (x : f32) : f64 :=
  match x with
  | Binary.B754_zero _ _ s => Binary.B754_zero _ _ s
  | Binary.B754_infinity _ _ s => Binary.B754_infinity _ _ s
  | Binary.B754_nan _ _ _ _ _ => proj1_sig default_nan_pl64
  | Binary.B754_finite _ _ s m e _ =>
      Binary.binary_normalize 53 1024 hp64 hl64 mode_NE (cond_Zopp s (Zpos m)) e s
  end.
Definition f32_of_f64 (x : f64) : f32 :=
  match x with
  | Binary.B754_zero _ _ s => Binary.B754_zero _ _ s
  | Binary.B754_infinity _ _ s => Binary.B754_infinity _ _ s
  | Binary.B754_nan _ _ _ _ _ => proj1_sig default_nan_pl32
  | Binary.B754_finite _ _ s m e _ =>
      Binary.binary_normalize 24 128 hp32 hl32 mode_NE (cond_Zopp s (Zpos m)) e s
  end.

Definition mul32 := b32_mult mode_NE.
Definition div32 := b32_div mode_NE.
Definition add32 := b32_plus mode_NE.
Definition mul64 := b64_mult mode_NE.
Definition div64 := b64_div mode_NE.
Definition sub64 := b64_minus mode_NE.
Definition lt32 (x y : f32) : bool := match b32_compare x y with Some Lt => true | _ => false end.
Definition le32 (x y : f32) : bool := match b32_compare x y with Some Lt | Some Eq => true | _ => false end.

(** math.Round: to the nearest integer, halves away from zero. *)
Definition Round (x : f64) : f64 := Binary.Bnearbyint 53 1024 hl64 unop_nan_pl64 mode_NA x.

(** math.Max, for the operands of math.go (never NaN, infinite or two zeros). *)
Definition Max (x y : f64) : f64 := match b64_compare x y with Some Gt => x | _ => y end.

(** intN(x) and uintN(x): truncation; None when it does not fit. *)
Definition conv32 (lo hi : Z) (x : f32) : option Z :=
  if Binary.is_finite _ _ x then
    let n := Binary.Btrunc 24 128 x in if (lo <=? n) && (n <=? hi) then Some n else None
  else None.
Definition conv64 (lo hi : Z) (x : f64) : option Z :=
  if Binary.is_finite _ _ x then
    let n := Binary.Btrunc 53 1024 x in if (lo <=? n) && (n <=? hi) then Some n else None
  else None.

(** math.go:6-8 *)
Definition NormalizeByte (v : f32) : option Z := conv64 (-128) 127 (Round (mul64 (f64_of_f32 v) (f64_of_Z 127))).
(** math.go:11-13 *)
Definition DenormalizeByte (v : Z) : f32 := f32_of_f64 (Max (div64 (f64_of_Z v) (f64_of_Z 127)) (f64_of_Z (-1))).
(** math.go:16-18 *)
Definition NormalizeUbyte (v : f32) : option Z := conv64 0 255 (Round (mul64 (f64_of_f32 v) (f64_of_Z 255))).
(** math.go:21-23 *)
Definition DenormalizeUbyte (v : Z) : f32 := div32 (f32_of_Z v) (f32_of_Z 255).
(** math.go:26-28 *)
Definition NormalizeShort (v : f32) : option Z := conv64 (-32768) 32767 (Round (mul64 (f64_of_f32 v) (f64_of_Z 32767))).
(** math.go:31-33 *)
Definition DenormalizeShort (v : Z) : f32 := f32_of_f64 (Max (div64 (f64_of_Z v) (f64_of_Z 32767)) (f64_of_Z (-1))).
(** math.go:36-38 *)
Definition NormalizeUshort (v : f32) : option Z := conv64 0 65535 (Round (mul64 (f64_of_f32 v) (f64_of_Z 65535))).
(** math.go:41-43 *)
Definition DenormalizeUshort (v : Z) : f32 := div32 (f32_of_Z v) (f32_of_Z 65535).

(** Decimal constants n/d of the source, rounded once to the operand type. *)
Definition const32 (n d : Z) : f32 := div32 (f32_of_Z n) (f32_of_Z d).
Definition const64 (n d : Z) : f64 := div64 (f64_of_Z n) (f64_of_Z d).

Section Srgb.
Variable pow : f64 -> f64 -> f64.

(** math.go:128-133 *)
Definition linearize (v : f32) : f32 :=
  if le32 v (const32 4045 100000) then div32 v (const32 1292 100)
  else f32_of_f64 (pow (div64 (f64_of_f32 (add32 v (const32 55 1000))) (const64 1055 1000)) (const64 24 10)).

(** math.go:135-140; the constant 1.0/2.4 is exact before its rounding. *)
Definition deliniarize (v : f32) : f32 :=
  if lt32 v (const32 31308 10000000) then mul32 v (const32 1292 100)
  else f32_of_f64 (sub64 (mul64 (const64 1055 1000) (pow (f64_of_f32 v) (const64 10 24))) (const64 55 1000)).

(** One sRGB channel and one alpha channel of math.go:47-126, with [max] 255
    and 65535. *)
Definition srgb_channel (max : Z) (v : f32) : option Z := conv32 0 max (mul32 (deliniarize v) (f32_of_Z max)).
Definition alpha_channel (max : Z) (v : f32) : option Z := conv32 0 max (mul32 v (f32_of_Z max)).
Definition linear_channel (max v : Z) : f32 := linearize (div32 (f32_of_Z v) (f32_of_Z max)).
Definition linear_alpha (max v : Z) : f32 := div32 (f32_of_Z v) (f32_of_Z max).

(** math.go:47-53, 57-63, 87-93, 97-103: three colour channels. *)
Definition NormalizeRGB (v : f32 * f32 * f32) : option Z * option Z * option Z :=
  let '(r, g, b) := v in (srgb_channel 255 r, srgb_channel 255 g, srgb_channel 255 b).
Definition DenormalizeRGB (v : Z * Z * Z) : f32 * f32 * f32 :=
  let '(r, g, b) := v in (linear_channel 255 r, linear_channel 255 g, linear_channel 255 b).
Definition NormalizeRGB64 (v : f32 * f32 * f32) : option Z * option Z * option Z :=
  let '(r, g, b) := v in (srgb_channel 65535 r, srgb_channel 65535 g, srgb_channel 65535 b).
Definition DenormalizeRGB64 (v : Z * Z * Z) : f32 * f32 * f32 :=
  let '(r, g, b) := v in (linear_channel 65535 r, linear_channel 65535 g, linear_channel 65535 b).

(** math.go:67-74, 78-85, 107-114, 118-125: with an alpha channel. *)
Definition NormalizeRGBA (v : f32 * f32 * f32 * f32) : option Z * option Z * option Z * option Z :=
  let '(r, g, b, a) := v in (srgb_channel 255 r, srgb_channel 255 g, srgb_channel 255 b, alpha_channel 255 a).
Definition DenormalizeRGBA (v : Z * Z * Z * Z) : f32 * f32 * f32 * f32 :=
  let '(r, g, b, a) := v in (linear_channel 255 r, linear_channel 255 g, linear_channel 255 b, linear_alpha 255 a).
Definition NormalizeRGBA64 (v : f32 * f32 * f32 * f32) : option Z * option Z * option Z * option Z :=
  let '(r, g, b, a) := v in (srgb_channel 65535 r, srgb_channel 65535 g, srgb_channel 65535 b, alpha_channel 65535 a).
Definition DenormalizeRGBA64 (v : Z * Z * Z * Z) : f32 * f32 * f32 * f32 :=
  let '(r, g, b, a) := v in (linear_channel 65535 r, linear_channel 65535 g, linear_channel 65535 b, linear_alpha 65535 a).
End Srgb.
