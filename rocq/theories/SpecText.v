(** Specification of JSON text (RFC 8259) and UTF-8 (RFC 3629), independent of
    the scanner and printer. *)
From Verif Require Import Base Doc.

(** Unicode scalar values and their UTF-8 form. *)
Definition scalar (r : Z) : Prop := 0 <= r < 0xD800 \/ 0xDFFF < r <= 0x10FFFF.

Definition utf8 (r : Z) : bytes :=
  if r <=? 0x7F then [z2b r]
  else if r <=? 0x7FF then [z2b (192 + r / 64); z2b (128 + r mod 64)]
  else if r <=? 0xFFFF then [z2b (224 + r / 64 / 64); z2b (128 + r / 64 mod 64); z2b (128 + r mod 64)]
  else [z2b (240 + r / 64 / 64 / 64); z2b (128 + r / 64 / 64 mod 64); z2b (128 + r / 64 mod 64);
        z2b (128 + r mod 64)].

Definition valid_utf8 (s : bytes) : Prop := exists rs, Forall scalar rs /\ s = flat_map utf8 rs.

(** Text between the quotes of a string: no quote, no control character, and
    a backslash only in the escapes of the grammar. *)
Definition hex (b : byte) : Prop := In b (str_bytes "0123456789abcdefABCDEF").
Inductive string_body : bytes -> Prop :=
| sb_nil : string_body []
| sb_char b l : 32 <= b2z b -> b2z b <> 34 -> b2z b <> 92 -> string_body l -> string_body (b :: l)
| sb_esc b l : In b (z2b 34 :: z2b 92 :: str_bytes "/bfnrt") -> string_body l -> string_body (z2b 92 :: b :: l)
| sb_u h1 h2 h3 h4 l : hex h1 -> hex h2 -> hex h3 -> hex h4 -> string_body l ->
    string_body (z2b 92 :: "u"%char :: h1 :: h2 :: h3 :: h4 :: l).

(** Numbers: -? (0 | [1-9][0-9]* ) (. [0-9]+)? ([eE] [+-]? [0-9]+)? *)
Definition digit (b : byte) : Prop := 48 <= b2z b <= 57.
Definition json_number (l : bytes) : Prop :=
  exists sg int frac exp, l = sg ++ int ++ frac ++ exp /\
    (sg = [] \/ sg = str_bytes "-") /\
    (int = str_bytes "0" \/ exists b t, int = b :: t /\ 49 <= b2z b <= 57 /\ Forall digit t) /\
    (frac = [] \/ exists t, frac = "."%char :: t /\ t <> [] /\ Forall digit t) /\
    (exp = [] \/ exists e s t, exp = e :: s ++ t /\ In e (str_bytes "eE") /\
       (s = [] \/ s = str_bytes "+" \/ s = str_bytes "-") /\ t <> [] /\ Forall digit t).

Definition space (b : byte) : Prop := In b [z2b 32; z2b 9; z2b 10; z2b 13].

(** Trees whose literals follow the grammar, nested at most [n] deep. *)
Inductive wf_json : nat -> json -> Prop :=
| wj_null n : wf_json n JNull
| wj_bool n b : wf_json n (JBool b)
| wj_num n s : json_number (str_bytes s) -> wf_json n (JNum s)
| wj_str n s : string_body (str_bytes s) -> wf_json n (JStr s)
| wj_arr n l : Forall (wf_json n) l -> wf_json (S n) (JArr l)
| wj_obj n m : Forall (fun p => string_body (str_bytes (fst p)) /\ wf_json n (snd p)) m ->
    wf_json (S n) (JObj m).

(** The texts of a tree: any amount of white space between tokens. *)
Definition ws (l : bytes) : Prop := Forall space l.
Inductive text_of : json -> bytes -> Prop :=
| to_null : text_of JNull (str_bytes "null")
| to_true : text_of (JBool true) (str_bytes "true")
| to_false : text_of (JBool false) (str_bytes "false")
| to_num s : text_of (JNum s) (str_bytes s)
| to_str s : text_of (JStr s) (z2b 34 :: str_bytes s ++ [z2b 34])
| to_arr l t : elems_of l t -> text_of (JArr l) ("["%char :: t ++ str_bytes "]")
| to_obj m t : members_of m t -> text_of (JObj m) ("{"%char :: t ++ str_bytes "}")
with elems_of : list json -> bytes -> Prop :=
| el_nil w : ws w -> elems_of [] w
| el_one v w1 t w2 : ws w1 -> ws w2 -> text_of v t -> elems_of [v] (w1 ++ t ++ w2)
| el_cons v v2 l w1 t w2 t2 : ws w1 -> ws w2 -> text_of v t -> elems_of (v2 :: l) t2 ->
    elems_of (v :: v2 :: l) (w1 ++ t ++ w2 ++ ","%char :: t2)
with members_of : list (string * json) -> bytes -> Prop :=
| mb_nil w : ws w -> members_of [] w
| mb_one k v w1 w2 w3 w4 t : ws w1 -> ws w2 -> ws w3 -> ws w4 -> text_of v t ->
    members_of [(k, v)] (w1 ++ (z2b 34 :: str_bytes k ++ [z2b 34]) ++ w2 ++ ":"%char :: w3 ++ t ++ w4)
| mb_cons k v p m w1 w2 w3 w4 t t2 : ws w1 -> ws w2 -> ws w3 -> ws w4 -> text_of v t ->
    members_of (p :: m) t2 ->
    members_of ((k, v) :: p :: m)
      (w1 ++ (z2b 34 :: str_bytes k ++ [z2b 34]) ++ w2 ++ ":"%char :: w3 ++ t ++ w4 ++ ","%char :: t2).

(** [repaired s s']: s' is s with each byte that does not begin the UTF-8
    form of a scalar value replaced by U+FFFD. *)
Inductive repaired : bytes -> bytes -> Prop :=
| rep_nil : repaired [] []
| rep_rune r s s' : scalar r -> repaired s s' -> repaired (utf8 r ++ s) (utf8 r ++ s')
| rep_bad b s s' : (forall r t, scalar r -> b :: s <> utf8 r ++ t) -> repaired s s' ->
    repaired (b :: s) (utf8 0xFFFD ++ s').
