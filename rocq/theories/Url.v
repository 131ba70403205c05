(** Buffer URIs: decoder.go:194-222 (validateBufferURI, sanitizeURI) and the
    parts of net/url, strings and path/filepath they call (Unix).

    Strings are byte lists.  Two things of net/url are parameters, fields of
    [url_lib]: whether parseAuthority accepts an authority, and the text
    URL.String prints after the scheme and its colon.  Everything else of
    url.Parse that decides acceptance and the scheme is concrete. *)
From Verif Require Import Base.

Definition slash : byte := "/"%char.
Definition dot : byte := "."%char.
Definition colon : byte := ":"%char.

(** strings.HasPrefix / strings.TrimPrefix *)
Fixpoint has_prefix (p l : bytes) : bool :=
  match p, l with
  | [], _ => true
  | a :: p', b :: l' => Ascii.eqb a b && has_prefix p' l'
  | _ :: _, [] => false
  end.
Definition trim_prefix (p l : bytes) : bytes :=
  if has_prefix p l then skipn (List.length p) l else l.

Definition contains (c : byte) (l : bytes) : bool := existsb (Ascii.eqb c) l.

(** strings.Cut at the first occurrence of a byte: the text before and, when
    the byte occurs, the text after it. *)
Fixpoint cut (c : byte) (l : bytes) : bytes * option bytes :=
  match l with
  | [] => ([], None)
  | x :: l' => if Ascii.eqb x c then ([], Some l')
               else let (a, b) := cut c l' in (x :: a, b)
  end.

(** Splitting at every occurrence, as the repeated strings.Cut of IsLocal. *)
Fixpoint split (c : byte) (l : bytes) : list bytes :=
  match l with
  | [] => [[]]
  | x :: l' => if Ascii.eqb x c then [] :: split c l'
               else match split c l' with
                    | s :: r => (x :: s) :: r
                    | [] => [[x]]
                    end
  end.

(** strings.Replace(s, "\\", "/", -1) and strings.Replace(s, "/./", "/", -1):
    leftmost, non-overlapping occurrences. *)
Definition backslash : byte := z2b 92.
Definition fix_backslash (l : bytes) : bytes :=
  map (fun c => if Ascii.eqb c backslash then slash else c) l.
Fixpoint drop_dots (l : bytes) : bytes :=
  match l with
  | a :: (b :: c :: l') as tl =>
      if Ascii.eqb a slash && Ascii.eqb b dot && Ascii.eqb c slash
      then slash :: drop_dots l'
      else a :: drop_dots tl
  | a :: tl => a :: drop_dots tl
  | [] => []
  end.

(** ** net/url *)

Definition is_alpha (b : byte) : bool :=
  let c := b2z b in (97 <=? c) && (c <=? 122) || (65 <=? c) && (c <=? 90).
Definition is_scheme_rest (b : byte) : bool :=
  let c := b2z b in (48 <=? c) && (c <=? 57) || (c =? 43) || (c =? 45) || (c =? 46).
Definition unhex (b : byte) : option Z :=
  let c := b2z b in
  if (48 <=? c) && (c <=? 57) then Some (c - 48)
  else if (97 <=? c) && (c <=? 102) then Some (c - 97 + 10)
  else if (65 <=? c) && (c <=? 70) then Some (c - 65 + 10)
  else None.
Definition to_lower (l : bytes) : bytes :=
  map (fun b => if (65 <=? b2z b) && (b2z b <=? 90) then z2b (b2z b + 32) else b) l.

Definition ErrURL : error := ErrMsg "parse url".

(** url.unescape in the modes encodePath, encodePathSegment and
    encodeFragment: only percent escapes matter, and a percent sign without
    two hexadecimal digits is an error. *)
Fixpoint unescape (l : bytes) : res bytes :=
  match l with
  | [] => Ok []
  | a :: l' =>
      if Ascii.eqb a "%"%char then
        match l' with
        | h :: g :: l'' =>
            match unhex h, unhex g with
            | Some x, Some y => r <- unescape l'' ;; Ok (z2b (16 * x + y) :: r)
            | _, _ => Err ErrURL
            end
        | _ => Err ErrURL
        end
      else r <- unescape l' ;; Ok (a :: r)
  end.

(** stringContainsCTLByte *)
Definition has_ctl (l : bytes) : bool := existsb (fun b => (b2z b <? 32) || (b2z b =? 127)) l.

(** getScheme: scheme and rest. *)
Fixpoint get_scheme_from (i : nat) (l : bytes) : res (option (bytes * bytes)) :=
  match l with
  | [] => Ok None
  | c :: l' =>
      if is_alpha c then
        s <- get_scheme_from (S i) l' ;;
        Ok (match s with Some (a, b) => Some (c :: a, b) | None => None end)
      else if is_scheme_rest c then
        match i with
        | O => Ok None
        | _ => s <- get_scheme_from (S i) l' ;;
               Ok (match s with Some (a, b) => Some (c :: a, b) | None => None end)
        end
      else if Ascii.eqb c colon then
        match i with
        | O => Err ErrURL
        | _ => Ok (Some ([], l'))
        end
      else Ok None
  end.
Definition get_scheme (l : bytes) : res (bytes * bytes) :=
  s <- get_scheme_from 0 l ;;
  Ok (match s with Some p => p | None => ([], l) end).

Record url_lib : Type := mkUrlLib {
  authority_ok : bytes -> bool;      (* parseAuthority accepts *)
  url_text : bytes -> bytes          (* URL.String of the parsed URL, without its "scheme:" *)
}.

Section Url.
Context (U : url_lib).

(** url.parse(rawURL, viaRequest = false): its scheme, or an error. *)
Definition parse_nofrag (l : bytes) : res bytes :=
  if has_ctl l then Err ErrURL else
  if has_prefix ["*"%char] l && (List.length l =? 1)%nat then Ok [] else
  '(scheme, rest) <- get_scheme l ;;
  (* cut off the query *)
  let rest := fst (cut "?"%char rest) in
  if negb (has_prefix [slash] rest) && negb (List.length scheme =? 0)%nat
  then Ok (to_lower scheme)                            (* opaque *)
  else if negb (has_prefix [slash] rest) && contains colon (fst (cut slash rest))
  then Err ErrURL              (* first path segment in URL cannot contain colon *)
  else
  let has_authority :=
    (negb (List.length scheme =? 0)%nat || negb (has_prefix [slash; slash; slash] rest))
    && has_prefix [slash; slash] rest in
  if has_authority then
    let '(auth, path) := cut slash (skipn 2 rest) in
    if negb (authority_ok U auth) then Err ErrURL else
    _ <- unescape (match path with Some p => slash :: p | None => [] end) ;;
    Ok (to_lower scheme)
  else
    _ <- unescape rest ;; Ok (to_lower scheme).

(** url.Parse: the fragment must unescape; the result is the scheme. *)
Definition url_parse (l : bytes) : res bytes :=
  let '(u, frag) := cut "#"%char l in
  s <- parse_nofrag u ;;
  match frag with
  | None => Ok s
  | Some f => _ <- unescape f ;; Ok s
  end.

(** ** path/filepath (Unix) *)

Definition is_dot (s : bytes) : bool :=
  match s with [a] => Ascii.eqb a dot | _ => false end.
Definition is_dotdot (s : bytes) : bool :=
  match s with [a; b] => Ascii.eqb a dot && Ascii.eqb b dot | _ => false end.

(** filepath.Clean of a path that is not rooted, on its elements: [stack] is
    the output so far, last element first; an empty result means ".". *)
Fixpoint clean_elems (stack elems : list bytes) : list bytes :=
  match elems with
  | [] => rev stack
  | e :: elems' =>
      if (List.length e =? 0)%nat || is_dot e then clean_elems stack elems'
      else if is_dotdot e then
        match stack with
        | t :: stack' => if is_dotdot t then clean_elems (e :: stack) elems'
                         else clean_elems stack' elems'
        | [] => clean_elems [e] elems'
        end
      else clean_elems (e :: stack) elems'
  end.

(** filepath.IsLocal.  After Clean, the path is ".." or begins with "../" when
    its first element is "..". *)
Definition IsLocal (p : bytes) : bool :=
  if has_prefix [slash] p || (List.length p =? 0)%nat then false else
  let elems := split slash p in
  let elems := if existsb (fun e => is_dot e || is_dotdot e) elems
               then clean_elems [] elems else elems in
  match elems with
  | e :: _ => negb (is_dotdot e)
  | [] => true
  end.

(** ** decoder.go *)

(** decoder.go:194-202, validateBufferURI *)
Definition validateBufferURI (uri : bytes) : res unit :=
  match url_parse uri with
  | Ok (_ :: _) => Ok tt
  | _ => if IsLocal uri then Ok tt else Err (ErrMsg "gltf: Invalid buffer.uri value")
  end.

(** decoder.go:204-222, sanitizeURI; [None] is the result false. *)
Definition sanitizeURI (uri : bytes) : option bytes :=
  let uri := trim_prefix [dot; slash] (drop_dots (fix_backslash uri)) in
  match url_parse uri with
  | Ok [] => match unescape uri with Ok r => Some r | _ => None end
  | Ok scheme => Some (scheme ++ colon :: url_text U uri)
  | _ => None
  end.

End Url.
