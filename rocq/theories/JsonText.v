(** JSON text as encoding/json reads and writes it: strings, the scanner, the
    printer (compact and indented).

    Trees ([json], Doc.v) keep the text of numbers and the text between the
    quotes of strings and keys, so reading and writing text is separate from
    interpreting literals. *)
From Verif Require Import Base Types Doc.

(** ** UTF-8 (unicode/utf8).  Runes are Z. *)

Definition rune_error : Z := 0xFFFD.

(** utf8.AppendRune: surrogates and out-of-range runes become U+FFFD. *)
Definition encode_rune (r : Z) : bytes :=
  let r := if (r <? 0) || (0x10FFFF <? r) || (0xD800 <=? r) && (r <=? 0xDFFF) then rune_error else r in
  if r <? 0x80 then [z2b r]
  else if r <? 0x800 then [z2b (0xC0 + r / 64); z2b (0x80 + r mod 64)]
  else if r <? 0x10000 then
    [z2b (0xE0 + r / 4096); z2b (0x80 + r / 64 mod 64); z2b (0x80 + r mod 64)]
  else [z2b (0xF0 + r / 262144); z2b (0x80 + r / 4096 mod 64); z2b (0x80 + r / 64 mod 64);
        z2b (0x80 + r mod 64)].

Definition in_range (lo hi : Z) (b : byte) : bool := (lo <=? b2z b) && (b2z b <=? hi).
Definition cont (b : byte) : bool := in_range 0x80 0xBF b.

(** utf8.DecodeRune on a non-empty input: the rune and the bytes after it;
    an invalid sequence gives U+FFFD and consumes one byte. *)
Definition decode_rune (b : byte) (l : bytes) : Z * bytes :=
  let c := b2z b in
  if c <? 0x80 then (c, l)
  else if (0xC2 <=? c) && (c <=? 0xDF) then
    match l with
    | b1 :: l1 => if cont b1 then ((c - 0xC0) * 64 + (b2z b1 - 0x80), l1) else (rune_error, l)
    | _ => (rune_error, l)
    end
  else if (0xE0 <=? c) && (c <=? 0xEF) then
    match l with
    | b1 :: b2 :: l2 =>
        if in_range (if c =? 0xE0 then 0xA0 else 0x80) (if c =? 0xED then 0x9F else 0xBF) b1 && cont b2
        then ((c - 0xE0) * 4096 + (b2z b1 - 0x80) * 64 + (b2z b2 - 0x80), l2)
        else (rune_error, l)
    | _ => (rune_error, l)
    end
  else if (0xF0 <=? c) && (c <=? 0xF4) then
    match l with
    | b1 :: b2 :: b3 :: l3 =>
        if in_range (if c =? 0xF0 then 0x90 else 0x80) (if c =? 0xF4 then 0x8F else 0xBF) b1
           && cont b2 && cont b3
        then ((c - 0xF0) * 262144 + (b2z b1 - 0x80) * 4096 + (b2z b2 - 0x80) * 64 + (b2z b3 - 0x80), l3)
        else (rune_error, l)
    | _ => (rune_error, l)
    end
  else (rune_error, l).

(** ** Strings *)

Definition hexdigit (v : Z) : byte := if v <? 10 then z2b (48 + v) else z2b (97 + (v - 10)).
Definition bslash : byte := z2b 92.
Definition dquote : byte := z2b 34.

(** A \u escape of four hexadecimal digits. *)
Definition u_escape (r : Z) : bytes :=
  [bslash; "u"%char; hexdigit (r / 4096 mod 16); hexdigit (r / 256 mod 16);
   hexdigit (r / 16 mod 16); hexdigit (r mod 16)].

(** encoding/json encodeState.string with escapeHTML, between the quotes: the
    ASCII part (before Go 1.22, where \b and \f got short escapes). *)
Definition quote_ascii (b : byte) : bytes :=
  let c := b2z b in
  if (c =? 92) || (c =? 34) then [bslash; b]
  else if c =? 10 then [bslash; "n"%char]
  else if c =? 13 then [bslash; "r"%char]
  else if c =? 9 then [bslash; "t"%char]
  else if (c <? 32) || (c =? 60) || (c =? 62) || (c =? 38) then u_escape c
  else [b].

(** The rest: invalid UTF-8 is written as the escape of U+FFFD, the line
    separators U+2028 and U+2029 are escaped, other runes are copied.  The
    recursion is on the input; [skip] counts the remaining bytes of a rune
    that has been copied. *)
Fixpoint quote_from (skip : nat) (l : bytes) : bytes :=
  match l with
  | [] => []
  | b :: l' =>
      match skip with
      | S k => quote_from k l'
      | O =>
          if b2z b <? 0x80 then quote_ascii b ++ quote_from 0 l'
          else
            let '(r, rest) := decode_rune b l' in
            let size := (List.length l' - List.length rest)%nat in
            if (r =? rune_error) && (size =? 0)%nat then u_escape rune_error ++ quote_from 0 l'
            else if (r =? 0x2028) || (r =? 0x2029) then u_escape r ++ quote_from size l'
            else (b :: firstn size l') ++ quote_from size l'
      end
  end.
Definition quote (s : bytes) : bytes := quote_from 0 s.

Definition unhex4 (l : bytes) : option (Z * bytes) :=
  match l with
  | a :: b :: c :: d :: l' =>
      let h x := let v := b2z x in
        if (48 <=? v) && (v <=? 57) then Some (v - 48)
        else if (97 <=? v) && (v <=? 102) then Some (v - 97 + 10)
        else if (65 <=? v) && (v <=? 70) then Some (v - 65 + 10)
        else None in
      match h a, h b, h c, h d with
      | Some x, Some y, Some z, Some w => Some (x * 4096 + y * 256 + z * 16 + w, l')
      | _, _, _, _ => None
      end
  | _ => None
  end.

(** getu4: a full \uXXXX escape at the head of the input. *)
Definition getu4 (l : bytes) : option (Z * bytes) :=
  match l with
  | a :: b :: l' => if Ascii.eqb a bslash && Ascii.eqb b "u"%char then unhex4 l' else None
  | _ => None
  end.

(** unquoteBytes between the quotes.  [skip] counts input bytes already used.
    [None]: a malformed literal, which the scanner never lets through. *)
Fixpoint unquote_from (skip : nat) (l : bytes) : option bytes :=
  match l with
  | [] => Some []
  | b :: l' =>
      match skip with
      | S k => unquote_from k l'
      | O =>
          let out bs n := match unquote_from n l' with Some r => Some (bs ++ r) | None => None end in
          if Ascii.eqb b bslash then
            match l' with
            | [] => None
            | e :: l'' =>
                let c := b2z e in
                if (c =? 34) || (c =? 92) || (c =? 47) || (c =? 39) then out [e] 1%nat
                else if c =? 98 then out [z2b 8] 1%nat
                else if c =? 102 then out [z2b 12] 1%nat
                else if c =? 110 then out [z2b 10] 1%nat
                else if c =? 114 then out [z2b 13] 1%nat
                else if c =? 116 then out [z2b 9] 1%nat
                else if c =? 117 then
                  match unhex4 l'' with
                  | None => None
                  | Some (r, l4) =>
                      if (0xD800 <=? r) && (r <=? 0xDFFF) then
                        match getu4 l4 with
                        | Some (r1, _) =>
                            if (r <? 0xDC00) && (0xDC00 <=? r1) && (r1 <=? 0xDFFF)
                            then out (encode_rune ((r - 0xD800) * 1024 + (r1 - 0xDC00) + 0x10000)) 11%nat
                            else out (encode_rune rune_error) 5%nat
                        | None => out (encode_rune rune_error) 5%nat
                        end
                      else out (encode_rune r) 5%nat
                  end
                else None
            end
          else if (b2z b =? 34) || (b2z b <? 32) then None
          else if b2z b <? 0x80 then out [b] 0%nat
          else let '(r, rest) := decode_rune b l' in
               out (encode_rune r) (List.length l' - List.length rest)%nat
      end
  end.
Definition unquote (l : bytes) : option bytes := unquote_from 0 l.

(** The HTML escaping that json.Marshal applies to the text returned by a
    Marshaler (compact with escape = true); only string literals contain the
    affected characters. *)
Fixpoint html_escape (l : bytes) : bytes :=
  match l with
  | [] => []
  | b :: l' =>
      if (b2z b =? 60) || (b2z b =? 62) || (b2z b =? 38) then u_escape (b2z b) ++ html_escape l'
      else match l' with
           | c :: d :: l'' =>
               if (b2z b =? 0xE2) && (b2z c =? 0x80) && ((b2z d =? 0xA8) || (b2z d =? 0xA9))
               then u_escape (0x2000 + b2z d - 0x80) ++ html_escape l''
               else b :: html_escape l'
           | _ => b :: html_escape l'
           end
  end.

Definition html_str (s : string) : string := bytes_str (html_escape (str_bytes s)).

Fixpoint html_json (j : json) : json :=
  match j with
  | JStr s => JStr (html_str s)
  | JArr l => JArr (map html_json l)
  | JObj m => JObj (map (fun p => (html_str (fst p), html_json (snd p))) m)
  | _ => j
  end.

(** ** Printer.  [nl d] is written where json.Indent breaks a line at depth
    [d] and [sp] after the colon of a member. *)
Section Print.
Context (nl : nat -> bytes) (sp : bytes).

Definition str_text (raw : string) : bytes := dquote :: str_bytes raw ++ [dquote].

Fixpoint print (d : nat) (j : json) : bytes :=
  match j with
  | JNull => str_bytes "null"
  | JBool true => str_bytes "true"
  | JBool false => str_bytes "false"
  | JNum lit => str_bytes lit
  | JStr raw => str_text raw
  | JArr [] => str_bytes "[]"
  | JArr (v :: l) =>
      "["%char :: nl (S d) ++ print (S d) v
        ++ flat_map (fun v => ","%char :: nl (S d) ++ print (S d) v) l
        ++ nl d ++ ["]"%char]
  | JObj [] => str_bytes "{}"
  | JObj ((k, v) :: m) =>
      "{"%char :: nl (S d) ++ str_text k ++ ":"%char :: sp ++ print (S d) v
        ++ flat_map (fun p => ","%char :: nl (S d) ++ str_text (fst p) ++ ":"%char :: sp ++ print (S d) (snd p)) m
        ++ nl d ++ ["}"%char]
  end.
End Print.

(** json.Marshal and json.MarshalIndent on a tree. *)
Definition print_compact (j : json) : bytes := print (fun _ => []) [] 0 j.
Definition indent_nl (prefix indent : bytes) (d : nat) : bytes :=
  z2b 10 :: prefix ++ List.concat (repeat indent d).
Definition print_indent (prefix indent : bytes) (j : json) : bytes :=
  print (indent_nl prefix indent) [" "%char] 0 j.

(** ** Scanner (encoding/json/scanner.go) building the tree.  One byte at a
    time, so that input arriving in pieces needs no extra model. *)

Inductive numst : Type := NNeg | NZero | NInt | NDot | NFrac | NE | NESign | NExp.

Inductive lex : Type :=
| LVal                                   (* stateBeginValue *)
| LValOrEnd                              (* stateBeginValueOrEmpty *)
| LKeyOrEnd                              (* stateBeginStringOrEmpty *)
| LKey                                   (* stateBeginString *)
| LColon                                 (* stateEndValue after a key *)
| LEnd                                   (* stateEndValue after a value *)
| LStr (key : bool) (acc : bytes)        (* stateInString *)
| LEsc (key : bool) (acc : bytes)        (* stateInStringEsc *)
| LU (n : nat) (key : bool) (acc : bytes) (* stateInStringEscU..: [n] digits to go *)
| LNum (st : numst) (acc : bytes)
| LLit (todo : bytes) (v : json)         (* rest of true, false, null *)
| LTop (v : json).                       (* stateEndTop after a scalar *)

(** The open containers, innermost first: values so far in reverse; for an
    object also the pending key. *)
Inductive frame : Type :=
| FArr (acc : list json)
| FObj (acc : list (string * json)) (key : string).

Notation config := (list frame * lex)%type (only parsing).

Inductive outcome : Type :=
| Run (c : config)
| FinAfter (v : json)      (* value complete with this byte *)
| FinBefore (v : json)     (* value was complete before this byte *)
| Bad.                     (* syntax error *)

Definition is_space (b : byte) : bool :=
  let c := b2z b in (c =? 32) || (c =? 9) || (c =? 13) || (c =? 10).

Definition max_depth : Z := 10000.
Definition push (st : list frame) (f : frame) (l : lex) : outcome :=
  if zlen st + 1 <=? max_depth then Run (f :: st, l) else Bad.

(** A scalar has been completed. *)
Definition value_done (st : list frame) (v : json) : config :=
  match st with
  | [] => ([], LTop v)
  | FArr acc :: st' => (FArr (v :: acc) :: st', LEnd)
  | FObj acc k :: st' => (FObj ((k, v) :: acc) k :: st', LEnd)
  end.

(** A container has been closed. *)
Definition close (st : list frame) (v : json) : outcome :=
  match st with
  | [] => FinAfter v
  | _ => Run (value_done st v)
  end.

Definition num_ok (st : numst) : bool :=
  match st with NZero | NInt | NFrac | NExp => true | _ => false end.

Definition is_digit (b : byte) : bool := in_range 48 57 b.

(** stateNeg, state0, state1, stateDot, stateDot0, stateE, stateESign, stateE0:
    the next state when the byte continues the number. *)
Definition num_step (st : numst) (b : byte) : option numst :=
  let c := b2z b in
  match st with
  | NNeg => if c =? 48 then Some NZero else if in_range 49 57 b then Some NInt else None
  | NZero => if c =? 46 then Some NDot else if (c =? 101) || (c =? 69) then Some NE else None
  | NInt => if is_digit b then Some NInt else if c =? 46 then Some NDot
            else if (c =? 101) || (c =? 69) then Some NE else None
  | NDot => if is_digit b then Some NFrac else None
  | NFrac => if is_digit b then Some NFrac else if (c =? 101) || (c =? 69) then Some NE else None
  | NE => if (c =? 43) || (c =? 45) then Some NESign else if is_digit b then Some NExp else None
  | NESign => if is_digit b then Some NExp else None
  | NExp => if is_digit b then Some NExp else None
  end.

Definition step_end (st : list frame) (b : byte) : outcome :=
  let c := b2z b in
  if is_space b then Run (st, LEnd)
  else match st with
       | FArr acc :: st' =>
           if c =? 44 then Run (st, LVal)
           else if c =? 93 then close st' (JArr (rev acc))
           else Bad
       | FObj acc k :: st' =>
           if c =? 44 then Run (st, LKey)
           else if c =? 125 then close st' (JObj (rev acc))
           else Bad
       | [] => Bad
       end.

Definition step_value (st : list frame) (b : byte) : outcome :=
  let c := b2z b in
  if is_space b then Run (st, LVal)
  else if c =? 123 then push st (FObj [] "") LKeyOrEnd
  else if c =? 91 then push st (FArr []) LValOrEnd
  else if c =? 34 then Run (st, LStr false [])
  else if c =? 45 then Run (st, LNum NNeg [b])
  else if c =? 48 then Run (st, LNum NZero [b])
  else if c =? 116 then Run (st, LLit (str_bytes "rue") (JBool true))
  else if c =? 102 then Run (st, LLit (str_bytes "alse") (JBool false))
  else if c =? 110 then Run (st, LLit (str_bytes "ull") JNull)
  else if in_range 49 57 b then Run (st, LNum NInt [b])
  else Bad.

(** The closing quote of a string: a value, or the pending key. *)
Definition string_done (st : list frame) (key : bool) (acc : bytes) : outcome :=
  let s := bytes_str (rev acc) in
  if key then
    match st with
    | FObj m _ :: st' => Run (FObj m s :: st', LColon)
    | _ => Bad
    end
  else Run (value_done st (JStr s)).

Definition is_hex (b : byte) : bool := in_range 48 57 b || in_range 97 102 b || in_range 65 70 b.

Definition step (cf : config) (b : byte) : outcome :=
  let '(st, lx) := cf in
  let c := b2z b in
  match lx with
  | LVal => step_value st b
  | LValOrEnd =>
      if is_space b then Run (st, LValOrEnd)
      else if c =? 93 then match st with _ :: st' => close st' (JArr []) | [] => Bad end
      else step_value st b
  | LKeyOrEnd =>
      if is_space b then Run (st, LKeyOrEnd)
      else if c =? 125 then match st with _ :: st' => close st' (JObj []) | [] => Bad end
      else if c =? 34 then Run (st, LStr true [])
      else Bad
  | LKey =>
      if is_space b then Run (st, LKey)
      else if c =? 34 then Run (st, LStr true [])
      else Bad
  | LColon =>
      if is_space b then Run (st, LColon)
      else if c =? 58 then Run (st, LVal)
      else Bad
  | LEnd => step_end st b
  | LStr k acc =>
      if c =? 34 then string_done st k acc
      else if c =? 92 then Run (st, LEsc k (b :: acc))
      else if c <? 32 then Bad
      else Run (st, LStr k (b :: acc))
  | LEsc k acc =>
      if (c =? 98) || (c =? 102) || (c =? 110) || (c =? 114) || (c =? 116)
         || (c =? 92) || (c =? 47) || (c =? 34) then Run (st, LStr k (b :: acc))
      else if c =? 117 then Run (st, LU 4 k (b :: acc))
      else Bad
  | LU n k acc =>
      if is_hex b then
        Run (st, match n with
                 | S (S n') => LU (S n') k (b :: acc)
                 | _ => LStr k (b :: acc)
                 end)
      else Bad
  | LNum ns acc =>
      match num_step ns b with
      | Some ns' => Run (st, LNum ns' (b :: acc))
      | None =>
          if num_ok ns then
            let v := JNum (bytes_str (rev acc)) in
            match value_done st v with
            | (st', LEnd) => step_end st' b
            | _ => FinBefore v
            end
          else Bad
      end
  | LLit todo v =>
      match todo with
      | t :: todo' =>
          if Ascii.eqb b t then
            match todo' with
            | [] => Run (value_done st v)
            | _ => Run (st, LLit todo' v)
            end
          else Bad
      | [] => Bad
      end
  | LTop v => FinBefore v
  end.

Inductive scan_res : Type :=
| Done (v : json) (rest : bytes)
| More (c : config)
| Syntax.

Fixpoint scan (c : config) (l : bytes) : scan_res :=
  match l with
  | [] => More c
  | b :: l' =>
      match step c b with
      | Run c' => scan c' l'
      | FinAfter v => Done v l'
      | FinBefore v => Done v l
      | Bad => Syntax
      end
  end.

(** What is known when the input ends. *)
Definition at_eof (c : config) : option json :=
  match c with
  | ([], LTop v) => Some v
  | ([], LNum ns acc) => if num_ok ns then Some (JNum (bytes_str (rev acc))) else None
  | _ => None
  end.

Definition start : config := ([], LVal).
