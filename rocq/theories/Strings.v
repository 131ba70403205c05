(** Model of const_strings.go: the String methods that stringer generated.

    The receivers are the unsigned integers behind the enumerations. *)
From Verif Require Import Base Codec.

(** The shape of the generated methods, e.g. const_strings.go:23-28: a test
    against the table length, then a substring between two table entries. *)
Definition stringer (typ name : string) (idx : list Z) (i : Z) : res string :=
  if zlen idx - 1 <=? i then Ok (typ ++ "(" ++ fmt_int i ++ ")")%string
  else
    lo <- index idx i ;;
    hi <- index idx (i + 1) ;;
    s <- slice_range (str_bytes name) lo hi ;;
    Ok (bytes_str s).

(** const_strings.go:19-28 *)
Definition ComponentType_String : Z -> res string :=
  stringer "ComponentType" "FLOATBYTEUNSIGNED_BYTESHORTUNSIGNED_SHORTUNSIGNED_INT" [0; 5; 9; 22; 27; 41; 53].
(** const_strings.go:42-51 *)
Definition AccessorType_String : Z -> res string :=
  stringer "AccessorType" "SCALARVEC2VEC3VEC4MAT2MAT3MAT4" [0; 6; 10; 14; 18; 22; 26; 30].
(** const_strings.go:65-74 *)
Definition PrimitiveMode_String : Z -> res string :=
  stringer "PrimitiveMode" "TRIANGLESPOINTSLINESLINE_LOOPLINE_STRIPTRIANGLE_STRIPTRIANGLE_FAN" [0; 9; 15; 20; 29; 39; 53; 65].
(** const_strings.go:84-93 *)
Definition AlphaMode_String : Z -> res string :=
  stringer "AlphaMode" "OPAQUEMASKBLEND" [0; 6; 10; 15].
(** const_strings.go:103-112 *)
Definition MagFilter_String : Z -> res string :=
  stringer "MagFilter" "UNDEFINEDLINEARNEAREST" [0; 9; 15; 22].
(** const_strings.go:126-135 *)
Definition MinFilter_String : Z -> res string :=
  stringer "MinFilter"
    "UNDEFINEDLINEARNEAREST_MIPMAP_LINEARNEARESTNEAREST_MIPMAP_NEARESTLINEAR_MIPMAP_NEARESTLINEAR_MIPMAP_LINEAR"
    [0; 9; 15; 36; 43; 65; 86; 106].
(** const_strings.go:145-154 *)
Definition WrappingMode_String : Z -> res string :=
  stringer "WrappingMode" "REPEATCLAMP_TO_EDGEMIRRORED_REPEAT" [0; 6; 19; 34].
(** const_strings.go:164-173 *)
Definition Interpolation_String : Z -> res string :=
  stringer "Interpolation" "LINEARSTEPCUBICSPLINE" [0; 6; 10; 21].
(** const_strings.go:183-202; [i -= 34962] on a uint16 does not wrap there. *)
Definition Target_String (i : Z) : res string :=
  if i =? 0 then Ok "NONE"%string
  else if (34962 <=? i) && (i <=? 34963) then
    let i := i - 34962 in
    lo <- index [0; 12; 32] i ;;
    hi <- index [0; 12; 32] (i + 1) ;;
    s <- slice_range (str_bytes "ARRAY_BUFFERELEMENT_ARRAY_BUFFER") lo hi ;;
    Ok (bytes_str s)
  else Ok ("Target(" ++ fmt_int i ++ ")")%string.
(** const_strings.go:213-222 *)
Definition TRSProperty_String : Z -> res string :=
  stringer "TRSProperty" "translationrotationscaleweights" [0; 11; 19; 24; 31].
