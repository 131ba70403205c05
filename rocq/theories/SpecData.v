(** Specification of base64 text (RFC 4648, section 4), independent of the
    encoder and decoder: the bits of the data, most significant first, in
    groups of six, each group naming a character of the alphabet. *)
From Verif Require Import Base.

Definition alphabet : bytes :=
  str_bytes "ABCDEFGHIJKLMNOPQRSTUVWXYZabcdefghijklmnopqrstuvwxyz0123456789+/".

(** Bits of a byte, most significant first. *)
Definition byte_bits (b : byte) : list bool :=
  match b with Ascii b0 b1 b2 b3 b4 b5 b6 b7 => [b7; b6; b5; b4; b3; b2; b1; b0] end.

Definition data_bits (l : bytes) : list bool := List.concat (map byte_bits l).

(** The number written in binary, most significant bit first. *)
Definition bits_num (l : list bool) : nat :=
  fold_left (fun (n : nat) (b : bool) => (2 * n + (if b then 1 else 0))%nat) l 0%nat.

(** Groups of six bits, the last one filled with zeros on the right. *)
Fixpoint sextets (l : list bool) : list (list bool) :=
  match l with
  | b5 :: b4 :: b3 :: b2 :: b1 :: b0 :: l' => [b5; b4; b3; b2; b1; b0] :: sextets l'
  | [] => []
  | _ => [firstn 6 (l ++ repeat false 6)]
  end.

Definition sextet_char (g : list bool) : byte := nth (bits_num g) alphabet "="%char.

(** Base64 text of the data: the characters of its sextets, then as many
    padding characters as are needed to reach a multiple of four. *)
Definition base64_text (l : bytes) : bytes :=
  let cs := map sextet_char (sextets (data_bits l)) in
  cs ++ repeat "="%char ((4 - List.length cs mod 4) mod 4)%nat.

(** The data URI of RFC 2397 with base64 content. *)
Definition data_uri (mime : string) (data : bytes) : string :=
  "data:" ++ mime ++ ";base64," ++ bytes_str (base64_text data).
