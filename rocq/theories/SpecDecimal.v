(** Specification of float64 number texts: the exact value of a JSON number
    literal, the value of a float64 (IEEE 754) and correct rounding, with
    rational numbers.  Independent of [Strconv]. *)
From Coq Require Import QArith Qabs.
From Verif Require Import Base F64 SpecText SpecJson.
Local Open Scope Z_scope.

(** The value of a finite float64: sign, 11 bits of exponent, 52 bits of
    fraction. *)
Definition f64_value (x : Z) : Q :=
  let sign := if 2 ^ 63 <=? x then -1 else 1 in
  let e := x / 2 ^ 52 mod 2 ^ 11 in
  let m := x mod 2 ^ 52 in
  if e =? 0 then (inject_Z (sign * m) * (2 # 1) ^ (-1074))%Q
  else (inject_Z (sign * (2 ^ 52 + m)) * (2 # 1) ^ (e - 1075))%Q.

(** Decimal digits, most significant first. *)
Fixpoint numeral_value (l : bytes) : Z :=
  match l with
  | [] => 0
  | b :: t => (b2z b - 48) * 10 ^ Z.of_nat (List.length t) + numeral_value t
  end.

(** [l] is a JSON number with that sign, the digits [ds], and [E] the power of
    ten of the last digit. *)
Definition literal (l : bytes) (neg : bool) (ds : bytes) (E : Z) : Prop :=
  exists int frac ft et e, l = (if neg then str_bytes "-" else []) ++ int ++ ft ++ et /\
    ds = int ++ frac /\ E = e - Z.of_nat (List.length frac) /\
    (int = str_bytes "0" \/ exists b t, int = b :: t /\ 49 <= b2z b <= 57 /\ Forall digit t) /\
    (ft = [] /\ frac = [] \/ ft = "."%char :: frac /\ frac <> [] /\ Forall digit frac) /\
    (et = [] /\ e = 0 \/ exists c s t, et = c :: s ++ t /\ In c (str_bytes "eE") /\ t <> [] /\ Forall digit t /\
       ((s = [] \/ s = str_bytes "+") /\ e = numeral_value t \/ s = str_bytes "-" /\ e = - numeral_value t)).
Definition signed (neg : bool) (v : Q) : Q := if neg then (- v)%Q else v.
Definition decimal (D E : Z) : Q := (inject_Z D * (10 # 1) ^ E)%Q.
Definition denotes (l : bytes) (neg : bool) (v : Q) : Prop :=
  exists ds E, literal l neg ds E /\ (v == signed neg (decimal (numeral_value ds) E))%Q.

(** [x] is the float64 nearest to [v]; if two are equally near, the one whose
    last bit is 0. *)
Definition nearest (v : Q) (x : Z) : Prop :=
  float_ok x /\ forall y, float_ok y ->
    (Qabs (v - f64_value x) <= Qabs (v - f64_value y))%Q /\
    ((Qabs (v - f64_value x) == Qabs (v - f64_value y))%Q -> (f64_value x == f64_value y)%Q \/ Z.even x = true).

(** Numbers that round to 2^1024 or more have no float64. *)
Definition out_of_range (v : Q) : Prop := (inject_Z (2 ^ 1024 - 2 ^ 970) <= Qabs v)%Q.

(** [l] is the number +-[D] * 10^[k], whatever zeros it is written with. *)
Definition written (l : bytes) (neg : bool) (D k : Z) : Prop :=
  exists ds E j, literal l neg ds E /\ 0 <= j /\ E + j = k /\ numeral_value ds = D * 10 ^ j.
