(** The absolute URIs of RFC 3986 that URIs in glTF files are, with a host by
    name or by IPv6 literal, or without host; without user information and
    without percent escapes in the host. *)
From Verif Require Import Base.

Definition chars (s : string) (c : byte) : Prop := In c (list_ascii_of_string s).
Definition alpha (c : byte) : Prop := 97 <= b2z c <= 122 \/ 65 <= b2z c <= 90.
Definition digit (c : byte) : Prop := 48 <= b2z c <= 57.
Definition hexdig (c : byte) : Prop := digit c \/ 97 <= b2z c <= 102 \/ 65 <= b2z c <= 70.
(** Section 2 *)
Definition unreserved (c : byte) : Prop := alpha c \/ digit c \/ chars "-._~" c.
Definition sub_delims (c : byte) : Prop := chars "!$&'()*+,;=" c.

(** Sequences of characters of a class and percent-encoded bytes (2.1). *)
Inductive encoded (ok : byte -> Prop) : bytes -> Prop :=
| enc_nil : encoded ok []
| enc_char c l : ok c -> encoded ok l -> encoded ok (c :: l)
| enc_pct h g l : hexdig h -> hexdig g -> encoded ok l -> encoded ok ("%"%char :: h :: g :: l).

(** 3.3: pchar without the percent-encoded ones, and with slashes. *)
Definition pchar (c : byte) : Prop := unreserved c \/ sub_delims c \/ chars ":@" c.
Definition path_char (c : byte) : Prop := pchar c \/ chars "/" c.
(** 3.4 and 3.5 *)
Definition query_char (c : byte) : Prop := pchar c \/ chars "/?" c.

(** 3.1, in lower case *)
Definition scheme (l : bytes) : Prop :=
  exists c r, l = c :: r /\ 97 <= b2z c <= 122 /\ Forall (fun c => 97 <= b2z c <= 122 \/ digit c \/ chars "+-." c) r.
(** 3.2.2 and 3.2.3 *)
Definition host (l : bytes) : Prop :=
  Forall (fun c => unreserved c \/ sub_delims c) l \/
  exists r, l = "["%char :: r ++ ["]"%char] /\ Forall (fun c => hexdig c \/ chars ":." c) r.
Definition port (l : bytes) : Prop := l = [] \/ exists r, l = ":"%char :: r /\ Forall digit r.

(** 3: what stands between the colon of the scheme and the query.  An authority
    may be empty if there is a path. *)
Inductive hier_part : bytes -> Prop :=
| hp_authority h p path : host h -> port p -> h ++ p <> [] \/ path <> [] ->
    path = [] \/ (exists r, path = "/"%char :: r) -> encoded path_char path ->
    hier_part ("/"%char :: "/"%char :: h ++ p ++ path)
| hp_absolute r : encoded path_char r -> (forall t, r <> "/"%char :: t) -> hier_part ("/"%char :: r)
| hp_rootless c r : encoded path_char (c :: r) -> c <> "/"%char -> hier_part (c :: r).
Definition query (l : bytes) : Prop := l = [] \/ exists q, l = "?"%char :: q /\ encoded query_char q.
Definition fragment (l : bytes) : Prop := l = [] \/ exists f, l = "#"%char :: f /\ f <> [] /\ encoded query_char f.

Definition absolute_uri (l : bytes) : Prop :=
  exists s h q f, l = s ++ ":"%char :: h ++ q ++ f /\ scheme s /\ hier_part h /\ query q /\ fragment f.

(** Without dot segments: the library removes "/./" anywhere in the text. *)
Definition no_dot_segment (l : bytes) : Prop := forall p q, l <> p ++ "/"%char :: "."%char :: "/"%char :: q.
