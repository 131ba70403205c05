(** The float64 texts of encoding/json: strconv.ParseFloat on a number literal
    and the float64 encoder built on strconv.AppendFloat.

    Go's standard library is not part of /repo; this file replaces the
    parameter [float_lib] by functions with the documented behaviour of
    strconv, so that nothing about number texts is left to assume:
    - ParseFloat (strconv/atof.go): the nearest float64, ties to even, with
      readFloat's limit on the exponent (it stops reading exponent digits once
      the exponent reaches 10000), floatBits' early exits (decimal point
      beyond 310 or below -330) and an error on overflow;
    - AppendFloat with precision -1 (strconv/ftoa.go): the fewest digits that
      ParseFloat turns back into the same float64 and, among those, the
      closest to it, ties to an even last digit;
    - the choice of the %f or %e form and the clean-up of the exponent are
      those of floatEncoder (encoding/json/encode.go).
    The fast paths of strconv (Eisel-Lemire, Ryu, Grisu) are not modelled: they
    are meant to give the same results.  Infinities, NaN, hexadecimal floats
    and underscores do not occur in JSON number literals. *)
From Verif Require Import Base F64 JsonText Codec.

(** ** float64 magnitudes, scaled by 2^1074 to integers.  Bit patterns from
    [f64_inf] on continue the scale of the finite ones. *)
Definition sval (b : Z) : Z :=
  if b / 2 ^ 52 =? 0 then b else (2 ^ 52 + b mod 2 ^ 52) * 2 ^ (b / 2 ^ 52 - 1).

(** The largest bit pattern whose magnitude is at most [q]. *)
Definition floor64 (q : Z) : Z :=
  if q <? 2 ^ 53 then q else (Z.log2 q - 52) * 2 ^ 52 + q / 2 ^ (Z.log2 q - 52).

(** Round [n]/[d] to the nearest magnitude, ties to even. *)
Definition round64 (n d : Z) : Z :=
  let b := floor64 (n / d) in
  match 2 * n ?= (sval b + sval (b + 1)) * d with
  | Lt => b
  | Gt => b + 1
  | Eq => if Z.even b then b else b + 1
  end.

(** [D] * 10^[E] on the same scale, as a fraction. *)
Definition scaled (D E : Z) : Z * Z :=
  (D * 10 ^ Z.max 0 E * 2 ^ 1074, 10 ^ Z.max 0 (- E)).
Definition round_dec (D E : Z) : Z := let (n, d) := scaled D E in round64 n d.

(** ** strconv.ParseFloat *)
Fixpoint span_digits (l : bytes) : bytes * bytes :=
  match l with
  | b :: t => if is_digit b then let (x, y) := span_digits t in (b :: x, y) else ([], l)
  | [] => ([], [])
  end.
Fixpoint skip_zeros (l : bytes) : bytes :=
  match l with
  | b :: t => if b2z b =? 48 then skip_zeros t else l
  | [] => []
  end.
Definition digits_val (l : bytes) : Z := fold_left (fun a d => 10 * a + (b2z d - 48)) l 0.
(** The exponent loop of readFloat. *)
Definition exp_val (l : bytes) : Z := fold_left (fun e d => if e <? 10000 then 10 * e + (b2z d - 48) else e) l 0.

(** readFloat: sign, digits, and the exponent of ten of the last digit. *)
Definition read_float (l : bytes) : option (bool * bytes * Z) :=
  let (neg, l) := match l with "-"%char :: t => (true, t) | _ => (false, l) end in
  let (ip, l) := span_digits l in
  let (fp, l) := match l with "."%char :: t => span_digits t | _ => ([], l) end in
  let scale := - Z.of_nat (List.length fp) in
  if (List.length (ip ++ fp) =? 0)%nat then None else
  match l with
  | [] => Some (neg, ip ++ fp, scale)
  | c :: t =>
      if (b2z c =? 101) || (b2z c =? 69) then
        let (sg, t) := match t with
                       | "+"%char :: t => (1, t)
                       | "-"%char :: t => (-1, t)
                       | _ => (1, t)
                       end in
        let (ep, r) := span_digits t in
        match ep, r with
        | _ :: _, [] => Some (neg, ip ++ fp, scale + sg * exp_val ep)
        | _, _ => None
        end
      else None
  end.

Definition with_sign (neg : bool) (b : Z) : Z := if neg then 2 ^ 63 + b else b.

Definition parse_float (lit : string) : option Z :=
  match read_float (str_bytes lit) with
  | None => None
  | Some (neg, ds, E) =>
      let s := skip_zeros ds in
      let dp := Z.of_nat (List.length s) + E in
      if (List.length s =? 0)%nat then Some (with_sign neg 0)
      else if 310 <? dp then None
      else if dp <? -330 then Some (with_sign neg 0)
      else let b := round_dec (digits_val s) E in
           if b <? f64_inf then Some (with_sign neg b) else None
  end.

(** ** strconv.AppendFloat, shortest form *)
(** The two decimals with last digit at 10^[k] around the magnitude [b]; the
    one that reads back as [b], and the closer of the two if both do. *)
Definition pick (b k : Z) : option Z :=
  let n := sval b * 10 ^ Z.max 0 (- k) in
  let d := 2 ^ 1074 * 10 ^ Z.max 0 k in
  let lo := n / d in
  let hi := lo + 1 in
  match round_dec lo k =? b, round_dec hi k =? b with
  | true, true => match 2 * (n mod d) ?= d with
                  | Lt => Some lo
                  | Gt => Some hi
                  | Eq => Some (if Z.even lo then lo else hi)
                  end
  | true, false => Some lo
  | false, true => Some hi
  | false, false => None
  end.
Fixpoint search (fuel : nat) (b k : Z) : Z * Z :=
  match pick b k with
  | Some D => (D, k)
  | None => match fuel with O => (0, 0) | S f => search f b (k - 1) end
  end.
(** A power of ten above twice the magnitude. *)
Definition above (b : Z) : Z :=
  let m := Z.log2 (sval b) - 1072 in
  if 0 <=? m then 28 * m / 93 + 1 else 3 * m / 10 + 1.
Definition shortest (b : Z) : Z * Z := search 30 b (above b).

(** The %f and %e forms of the digits [ds] with decimal point after [dp] of
    them (ftoa.go fmtF, fmtE). *)
Definition zeros (n : Z) : bytes := repeat "0"%char (Z.to_nat n).
Definition form_f (ds : bytes) (dp : Z) : bytes :=
  let nd := Z.of_nat (List.length ds) in
  if dp <=? 0 then str_bytes "0." ++ zeros (- dp) ++ ds
  else if nd <=? dp then ds ++ zeros (dp - nd)
  else firstn (Z.to_nat dp) ds ++ str_bytes "." ++ skipn (Z.to_nat dp) ds.
Definition form_e (ds : bytes) (dp : Z) : bytes :=
  let e := Z.abs (dp - 1) in
  firstn 1 ds ++ (if (1 <? List.length ds)%nat then str_bytes "." ++ skipn 1 ds else []) ++
  str_bytes "e" ++ (if dp - 1 <? 0 then str_bytes "-" else str_bytes "+") ++
  (if e <? 10 then str_bytes "0" else []) ++ digits 20 e.
(** floatEncoder: e-09 becomes e-9. *)
Definition clean_exp (l : bytes) : bytes :=
  match rev l with
  | d :: z :: s :: e :: r =>
      if (b2z e =? 101) && ((b2z s =? 45) || (b2z s =? 43)) && (b2z z =? 48) then rev (d :: s :: e :: r) else l
  | _ => l
  end.
(** 1e-6 and 1e21 as float64. *)
Definition f64_micro : Z := 0x3EB0C6F7A0B5ED8D.
Definition f64_sextillion : Z := 0x444B1AE4D6E2EF50.

Definition fmt_mag (b : Z) : bytes :=
  if b =? 0 then str_bytes "0" else
  let (D, k) := shortest b in
  let ds := digits 40 D in
  let dp := Z.of_nat (List.length ds) + k in
  if (b <? f64_micro) || (f64_sextillion <=? b) then clean_exp (form_e ds dp) else form_f ds dp.
Definition fmt_float (x : Z) : string :=
  bytes_str (if 2 ^ 63 <=? x then "-"%char :: fmt_mag (x - 2 ^ 63) else fmt_mag x).

Definition go_floats : float_lib := mkFloatLib fmt_float parse_float.
