(** float64 and float32 values as bit patterns: comparison, widening and the
    math.Min/math.Max used by the modeler.  No arithmetic. *)
From Verif Require Import Base.

Definition f64_sign (x : Z) : bool := 2 ^ 63 <=? x.
Definition f64_mag (x : Z) : Z := x mod 2 ^ 63.
Definition f64_inf : Z := 0x7FF0000000000000.
Definition f64_ninf : Z := 0xFFF0000000000000.
Definition f64_max : Z := 0x7FEFFFFFFFFFFFFF.     (* math.MaxFloat64 *)
Definition f64_nmax : Z := 0xFFEFFFFFFFFFFFFF.    (* -math.MaxFloat64 *)
Definition f64_one : Z := 0x3FF0000000000000.
Definition f64_half : Z := 0x3FE0000000000000.
Definition f64_nan : Z := 0x7FF8000000000001.     (* math.NaN() *)

Definition f64_is_nan (x : Z) : bool := f64_inf <? f64_mag x.
Definition f64_finite (x : Z) : bool := f64_mag x <? f64_inf.

(** Order-preserving integer image of a non-NaN float. *)
Definition f64_key (x : Z) : Z := if f64_sign x then - f64_mag x else f64_mag x.

(** Go ==, < on float64 *)
Definition f64_eq (x y : Z) : bool :=
  negb (f64_is_nan x) && negb (f64_is_nan y) && (f64_key x =? f64_key y).
Definition f64_lt (x y : Z) : bool :=
  negb (f64_is_nan x) && negb (f64_is_nan y) && (f64_key x <? f64_key y).
Definition f64_le (x y : Z) : bool :=
  negb (f64_is_nan x) && negb (f64_is_nan y) && (f64_key x <=? f64_key y).

(** math.Min and math.Max (Go standard library, portable version). *)
Definition f64_min (x y : Z) : Z :=
  if (x =? f64_ninf) || (y =? f64_ninf) then f64_ninf
  else if f64_is_nan x || f64_is_nan y then f64_nan
  else if (f64_key x =? 0) && (f64_key y =? 0) then if f64_sign x then x else y
  else if f64_lt x y then x else y.

Definition f64_max2 (x y : Z) : Z :=
  if (x =? f64_inf) || (y =? f64_inf) then f64_inf
  else if f64_is_nan x || f64_is_nan y then f64_nan
  else if (f64_key x =? 0) && (f64_key y =? 0) then if f64_sign x then y else x
  else if f64_lt y x then x else y.

(** float64(x) for a float32 x. *)
Definition f32_sign (x : Z) : Z := x / 2 ^ 31.
Definition f32_exp (x : Z) : Z := (x / 2 ^ 23) mod 2 ^ 8.
Definition f32_man (x : Z) : Z := x mod 2 ^ 23.
Definition f32_finite (x : Z) : bool := f32_exp x <? 255.

Definition f64_of_f32 (x : Z) : Z :=
  let s := f32_sign x * 2 ^ 63 in
  let e := f32_exp x in
  let m := f32_man x in
  if e =? 255 then
    if m =? 0 then s + f64_inf
    else s + f64_inf + 2 ^ 51 + (m mod 2 ^ 22) * 2 ^ 29   (* quieted NaN *)
  else if e =? 0 then
    if m =? 0 then s
    else (* subnormal: m * 2^-149 with m < 2^23 *)
      let k := Z.log2 m in
      s + (k + 874) * 2 ^ 52 + (m - 2 ^ k) * 2 ^ (52 - k)
  else s + (e + 896) * 2 ^ 52 + m * 2 ^ 29.
