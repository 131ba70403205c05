(** net/url of Go 1.20: Parse and URL.String, in full.  [Url] has only what
    sanitizeURI (decoder.go:204-222) and validateBufferURI (decoder.go:194-202)
    need of it, with two parameters; here they get their values.  Error values
    are not distinguished, and fields that nothing reads are left out. *)
From Verif Require Import Base Url.

(** The modes of url.escape and url.unescape that Parse and String use. *)
Inductive mode : Type := encodePath | encodeHost | encodeZone | encodeUserPassword | encodeFragment.
Definition hostlike (m : mode) : bool := match m with encodeHost | encodeZone => true | _ => false end.

Definition is_alnum (c : byte) : bool := is_alpha c || ((48 <=? b2z c) && (b2z c <=? 57)).
Definition one_of (s : string) (c : byte) : bool := contains c (list_ascii_of_string s).
Definition quote_char : byte := z2b 34.

(** url.shouldEscape *)
Definition shouldEscape (m : mode) (c : byte) : bool :=
  if is_alnum c then false
  else if hostlike m && (one_of "!$&'()*+,;=:[]<>" c || Ascii.eqb c quote_char) then false
  else if one_of "-_.~" c then false
  else if one_of "$&+,/:;=?@" c && negb (hostlike m) then
    match m with
    | encodePath => Ascii.eqb c "?"%char
    | encodeUserPassword => one_of "@/?:" c
    | _ => false                                    (* encodeFragment *)
    end
  else match m with encodeFragment => negb (one_of "!()*" c) | _ => true end.

(** url.escape *)
Definition hex_upper (n : Z) : byte := if n <? 10 then z2b (48 + n) else z2b (55 + n).
Definition escape (m : mode) (l : bytes) : bytes :=
  flat_map (fun c => if shouldEscape m c then ["%"%char; hex_upper (b2z c / 16); hex_upper (b2z c mod 16)] else [c]) l.

(** url.unescape in the modes encodeHost and encodeZone; in the other three it
    is [unescape]. *)
Fixpoint unescape_host (m : mode) (l : bytes) : res bytes :=
  match l with
  | [] => Ok []
  | a :: l' =>
      if Ascii.eqb a "%"%char then
        match l' with
        | h :: g :: l'' =>
            match unhex h, unhex g with
            | Some x, Some y =>
                let percent := Ascii.eqb h "2"%char && Ascii.eqb g "5"%char in
                let v := z2b (16 * x + y) in
                let bad := match m with
                  | encodeHost => (x <? 8) && negb percent
                  | encodeZone => negb percent && negb (Ascii.eqb v " "%char) && shouldEscape encodeHost v
                  | _ => false end in
                if bad then Err ErrURL else r <- unescape_host m l'' ;; Ok (v :: r)
            | _, _ => Err ErrURL
            end
        | _ => Err ErrURL
        end
      else if (b2z a <? 128) && shouldEscape m a then Err ErrURL
      else r <- unescape_host m l' ;; Ok (a :: r)
  end.

(** strings.LastIndex of a byte: the text before its last occurrence and the
    text from it on. *)
Fixpoint last_cut (c : byte) (l : bytes) : option (bytes * bytes) :=
  match l with
  | [] => None
  | x :: l' =>
      match last_cut c l' with
      | Some (a, b) => Some (x :: a, b)
      | None => if Ascii.eqb x c then Some ([], l) else None
      end
  end.
(** strings.Index of "%25": the text before and the text from it on. *)
Fixpoint zone_cut (l : bytes) : option (bytes * bytes) :=
  match l with
  | [] => None
  | x :: l' =>
      if has_prefix ["%"%char; "2"%char; "5"%char] l then Some ([], l)
      else match zone_cut l' with Some (a, b) => Some (x :: a, b) | None => None end
  end.

(** url.validOptionalPort *)
Definition validOptionalPort (l : bytes) : bool :=
  match l with
  | [] => true
  | c :: l' => Ascii.eqb c colon && forallb (fun b => (48 <=? b2z b) && (b2z b <=? 57)) l'
  end.

(** url.parseHost *)
Definition parseHost (host : bytes) : res bytes :=
  if has_prefix ["["%char] host then
    match last_cut "]"%char host with
    | None => Err ErrURL
    | Some (before, from) =>
        if negb (validOptionalPort (tl from)) then Err ErrURL
        else match zone_cut before with
             | Some (h1, zone) =>
                 a <- unescape_host encodeHost h1 ;; b <- unescape_host encodeZone zone ;;
                 c <- unescape_host encodeHost from ;; Ok (a ++ b ++ c)
             | None => unescape_host encodeHost host
             end
    end
  else match last_cut colon host with
       | Some (_, port) => if negb (validOptionalPort port) then Err ErrURL else unescape_host encodeHost host
       | None => unescape_host encodeHost host
       end.

(** url.validUserinfo *)
Definition validUserinfo (l : bytes) : bool :=
  forallb (fun c => is_alnum c || one_of "-._:~!$&'()*+,;=%@" c) l.

(** url.Userinfo: user name, and password if there is one. *)
Definition userinfo : Type := (bytes * option bytes)%type.
(** url.parseAuthority *)
Definition parseAuthority (l : bytes) : res (option userinfo * bytes) :=
  match last_cut "@"%char l with
  | None => h <- parseHost l ;; Ok (None, h)
  | Some (u, at_host) =>
      h <- parseHost (tl at_host) ;;
      if negb (validUserinfo u) then Err ErrURL
      else match cut colon u with
           | (name, None) => n <- unescape name ;; Ok (Some (n, None), h)
           | (name, Some pass) => n <- unescape name ;; p <- unescape pass ;; Ok (Some (n, Some p), h)
           end
  end.
(** Userinfo.String *)
Definition user_string (u : userinfo) : bytes :=
  match u with
  | (n, Some p) => escape encodeUserPassword n ++ colon :: escape encodeUserPassword p
  | (n, None) => escape encodeUserPassword n
  end.

(** url.URL *)
Record URL : Type := mkURL {
  u_Scheme : bytes; u_Opaque : bytes; u_User : option userinfo; u_Host : bytes;
  u_Path : bytes; u_RawPath : bytes; u_OmitHost : bool;
  u_ForceQuery : bool; u_RawQuery : bytes;
  u_Fragment : bytes; u_RawFragment : bytes
}.

(** URL.setPath and URL.setFragment: the decoded text, and the given text if it
    is not the default encoding. *)
Definition set_escaped (m : mode) (p : bytes) : res (bytes * bytes) :=
  q <- unescape p ;; Ok (q, if list_eq_dec ascii_dec p (escape m q) then [] else p).
(** url.validEncoded *)
Definition validEncoded (m : mode) (l : bytes) : bool :=
  forallb (fun c => one_of "!$&'()*+,;=:@[]%" c || negb (shouldEscape m c)) l.
(** URL.EscapedPath and URL.EscapedFragment *)
Definition escaped (m : mode) (text raw : bytes) : bytes :=
  let default := match m, text with
    | encodePath, ["*"%char] => ["*"%char]
    | _, _ => escape m text end in
  match raw with
  | [] => default
  | _ => if validEncoded m raw then
           match unescape raw with
           | Ok q => if list_eq_dec ascii_dec q text then raw else default
           | _ => default end
         else default
  end.

(** The query of url.parse: the rest, ForceQuery and RawQuery. *)
Definition cut_query (l : bytes) : bytes * bool * bytes :=
  match cut "?"%char l with
  | (a, None) => (a, false, [])
  | (a, Some []) => (a, true, [])
  | (a, Some q) => (a, false, q)
  end.

(** url.parse(rawURL, false) *)
Definition parse (l : bytes) : res URL :=
  if has_ctl l then Err ErrURL else
  if list_eq_dec ascii_dec l ["*"%char] then Ok (mkURL [] [] None [] ["*"%char] [] false false [] [] []) else
  '(scheme, rest) <- get_scheme l ;;
  let scheme := to_lower scheme in
  let '(rest, force, query) := cut_query rest in
  let has_scheme := negb (List.length scheme =? 0)%nat in
  if negb (has_prefix [slash] rest) && has_scheme
  then Ok (mkURL scheme rest None [] [] [] false force query [] [])
  else if negb (has_prefix [slash] rest) && contains colon (fst (cut slash rest)) then Err ErrURL
  else if (has_scheme || negb (has_prefix [slash; slash; slash] rest)) && has_prefix [slash; slash] rest then
    let '(authority, path) := cut slash (skipn 2 rest) in
    let path := match path with Some p => slash :: p | None => [] end in
    '(user, host) <- parseAuthority authority ;;
    '(p, raw) <- set_escaped encodePath path ;;
    Ok (mkURL scheme [] user host p raw false force query [] [])
  else
    '(p, raw) <- set_escaped encodePath rest ;;
    Ok (mkURL scheme [] None [] p raw (has_scheme && has_prefix [slash] rest) force query [] []).

(** url.Parse *)
Definition Parse (l : bytes) : res URL :=
  let '(l, frag) := cut "#"%char l in
  u <- parse l ;;
  match frag with
  | None | Some [] => Ok u
  | Some f =>
      '(t, raw) <- set_escaped encodeFragment f ;;
      Ok (mkURL (u_Scheme u) (u_Opaque u) (u_User u) (u_Host u) (u_Path u) (u_RawPath u) (u_OmitHost u)
            (u_ForceQuery u) (u_RawQuery u) t raw)
  end.

(** URL.String: what comes before the path, if nothing is opaque. *)
Definition authority_string (u : URL) : bytes :=
  let some l := negb (List.length l =? 0)%nat in
  let user := match u_User u with Some _ => true | None => false end in
  if some (u_Scheme u) || some (u_Host u) || user then
    if u_OmitHost u && negb (some (u_Host u)) && negb user then []
    else (if some (u_Host u) || some (u_Path u) || user then [slash; slash] else []) ++
         (match u_User u with Some ui => user_string ui ++ ["@"%char] | None => [] end) ++
         escape encodeHost (u_Host u)
  else [].
(** URL.String after the scheme and its colon. *)
Definition string_rest (u : URL) : bytes :=
  (match u_Opaque u with
   | [] =>
       let path := escaped encodePath (u_Path u) (u_RawPath u) in
       let before := authority_string u in
       before ++
       (if negb (List.length path =? 0)%nat && negb (has_prefix [slash] path) && negb (List.length (u_Host u) =? 0)%nat then [slash] else []) ++
       (match u_Scheme u, before, u_Host u with
        | [], [], [] => if contains colon (fst (cut slash path)) then [dot; slash] else []
        | _, _, _ => [] end) ++ path
   | o => o
   end) ++
  (if u_ForceQuery u || negb (List.length (u_RawQuery u) =? 0)%nat then "?"%char :: u_RawQuery u else []) ++
  (match u_Fragment u with [] => [] | _ => "#"%char :: escaped encodeFragment (u_Fragment u) (u_RawFragment u) end).
Definition URL_String (u : URL) : bytes :=
  (match u_Scheme u with [] => [] | s => s ++ [colon] end) ++ string_rest u.

(** The library that [Url] takes as a parameter. *)
Definition go_url : url_lib := mkUrlLib
  (fun a => match parseAuthority a with Ok _ => true | _ => false end)
  (fun l => match Parse l with Ok u => string_rest u | _ => [] end).

(** decoder.go:194-222 with this net/url, as written there. *)
Definition go_validateBufferURI (uri : bytes) : res unit :=
  match Parse uri with
  | Ok u => if negb (List.length (u_Scheme u) =? 0)%nat then Ok tt
            else if IsLocal uri then Ok tt else Err (ErrMsg "gltf: Invalid buffer.uri value")
  | _ => if IsLocal uri then Ok tt else Err (ErrMsg "gltf: Invalid buffer.uri value")
  end.
Definition go_sanitizeURI (uri : bytes) : option bytes :=
  let uri := trim_prefix [dot; slash] (drop_dots (fix_backslash uri)) in
  match Parse uri with
  | Ok u => if (List.length (u_Scheme u) =? 0)%nat
            then match unescape uri with Ok r => Some r | _ => None end
            else Some (URL_String u)
  | _ => None
  end.
