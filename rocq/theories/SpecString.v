(** What a JSON string literal stands for (RFC 8259, section 7): a sequence of
    Unicode scalar values.  Surrogates without a partner and bytes that are not
    UTF-8, whose meaning the RFC leaves open, stand for U+FFFD. *)
From Verif Require Import Base SpecText.

Definition digit_value (b : byte) (v : Z) : Prop :=
  0 <= v /\ (nth_error (str_bytes "0123456789abcdef") (Z.to_nat v) = Some b \/ nth_error (str_bytes "0123456789ABCDEF") (Z.to_nat v) = Some b).
(** Four digits and the UTF-16 code unit they give. *)
Definition code_unit (ds : bytes) (u : Z) : Prop :=
  exists a b c d x y z w, ds = [a; b; c; d] /\ digit_value a x /\ digit_value b y /\ digit_value c z /\ digit_value d w /\
    u = 4096 * x + 256 * y + 16 * z + w.
Definition u_esc (ds l : bytes) : bytes := z2b 92 :: "u"%char :: ds ++ l.
Definition high_surrogate (u : Z) : Prop := 0xD800 <= u <= 0xDBFF.
Definition low_surrogate (u : Z) : Prop := 0xDC00 <= u <= 0xDFFF.

(** The two-character escapes. *)
Definition escapes : list (byte * Z) :=
  [(z2b 34, 0x22); (z2b 92, 0x5C); ("/"%char, 0x2F); ("b"%char, 0x08); ("f"%char, 0x0C); ("n"%char, 0x0A); ("r"%char, 0x0D); ("t"%char, 0x09)].

(** The text between the quotes, and its meaning. *)
Inductive denotes : bytes -> list Z -> Prop :=
| dn_nil : denotes [] []
| dn_char r l rs : scalar r -> 32 <= r -> r <> 0x22 -> r <> 0x5C -> denotes l rs -> denotes (utf8 r ++ l) (r :: rs)
| dn_bad b l rs : 128 <= b2z b -> (forall r t, scalar r -> b :: l <> utf8 r ++ t) -> denotes l rs -> denotes (b :: l) (0xFFFD :: rs)
| dn_esc e r l rs : In (e, r) escapes -> denotes l rs -> denotes (z2b 92 :: e :: l) (r :: rs)
| dn_unit ds u l rs : code_unit ds u -> ~ high_surrogate u -> ~ low_surrogate u -> denotes l rs -> denotes (u_esc ds l) (u :: rs)
| dn_pair ds1 ds2 hi lo l rs : code_unit ds1 hi -> code_unit ds2 lo -> high_surrogate hi -> low_surrogate lo -> denotes l rs ->
    denotes (u_esc ds1 (u_esc ds2 l)) (0x10000 + 0x400 * (hi - 0xD800) + (lo - 0xDC00) :: rs)
| dn_lone ds u l rs : code_unit ds u -> high_surrogate u \/ low_surrogate u ->
    (forall ds' lo t, l = u_esc ds' t -> code_unit ds' lo -> high_surrogate u -> ~ low_surrogate lo) ->
    denotes l rs -> denotes (u_esc ds l) (0xFFFD :: rs).

(** Percent-encoding (RFC 3986, section 2.1): [e] stands for the bytes [p].
    The other characters stand for themselves; # ? : and control characters
    have to be escaped, and a backslash is not used. *)
Definition plain_char (b : byte) : Prop := 32 <= b2z b /\ b2z b <> 127 /\ ~ In b (str_bytes "%#?:") /\ b <> z2b 92.
Inductive pct_encodes : bytes -> bytes -> Prop :=
| pe_nil : pct_encodes [] []
| pe_char b e p : plain_char b -> pct_encodes e p -> pct_encodes (b :: e) (b :: p)
| pe_pct h g x y e p : digit_value h x -> digit_value g y -> pct_encodes e p -> pct_encodes ("%"%char :: h :: g :: e) (z2b (16 * x + y) :: p).
(** A relative path as it is usually written. *)
Definition simple_reference (e : bytes) : Prop :=
  (forall t, e <> "/"%char :: t) /\ (forall t, e <> str_bytes "./" ++ t) /\ (forall a t, e <> a ++ str_bytes "/./" ++ t).
