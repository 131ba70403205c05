(** encoding/base64.StdEncoding, and the data URIs of buffers and images:
    gltf.go:122-145 and 402-422.

    Strings are byte lists here; [string] values of the document are converted
    with [str_bytes] and [bytes_str].  An error of DecodeString is an [Err];
    the bytes decoded before the error (returned next to the error by Go) are
    not modelled. *)
From Verif Require Import Base Types Doc.

(** ** Alphabet of StdEncoding: A-Z a-z 0-9 + / (encodeStd). *)
Definition enc6 (v : Z) : byte :=
  if v <? 26 then z2b (65 + v)
  else if v <? 52 then z2b (97 + (v - 26))
  else if v <? 62 then z2b (48 + (v - 52))
  else if v =? 62 then z2b 43
  else z2b 47.

(** The decode map: [None] is the 0xff entry. *)
Definition dec6 (b : byte) : option Z :=
  let c := b2z b in
  if (65 <=? c) && (c <=? 90) then Some (c - 65)
  else if (97 <=? c) && (c <=? 122) then Some (c - 97 + 26)
  else if (48 <=? c) && (c <=? 57) then Some (c - 48 + 52)
  else if c =? 43 then Some 62
  else if c =? 47 then Some 63
  else None.

Definition pad : byte := "="%char.
Definition is_nl (b : byte) : bool := (b2z b =? 10) || (b2z b =? 13).

(** EncodeToString: three bytes to four characters, the last group padded. *)
Fixpoint b64_encode (l : bytes) : bytes :=
  match l with
  | a :: b :: c :: l' =>
      let v := b2z a * 65536 + b2z b * 256 + b2z c in
      enc6 (v / 262144) :: enc6 (v / 4096 mod 64) :: enc6 (v / 64 mod 64)
        :: enc6 (v mod 64) :: b64_encode l'
  | [a; b] =>
      let v := b2z a * 65536 + b2z b * 256 in
      [enc6 (v / 262144); enc6 (v / 4096 mod 64); enc6 (v / 64 mod 64); pad]
  | [a] =>
      let v := b2z a * 65536 in
      [enc6 (v / 262144); enc6 (v / 4096 mod 64); pad; pad]
  | [] => []
  end.

Fixpoint skip_nl (l : bytes) : bytes :=
  match l with
  | c :: l' => if is_nl c then skip_nl l' else l
  | [] => []
  end.

Definition ErrCorrupt : error := ErrMsg "illegal base64 data".

(** The bytes of a quantum of sextets [acc] (2, 3 or 4 of them): decodeQuantum
    converts 4x6 bits to 3 bytes and keeps [length acc - 1] of them; trailing
    bits are ignored because StdEncoding is not strict. *)
Definition quantum (acc : list Z) : bytes :=
  match acc with
  | [a; b; c; d] =>
      let v := a * 262144 + b * 4096 + c * 64 + d in
      [z2b (v / 65536); z2b (v / 256); z2b v]
  | [a; b; c] =>
      let v := a * 262144 + b * 4096 + c * 64 in
      [z2b (v / 65536); z2b (v / 256)]
  | [a; b] => let v := a * 262144 + b * 4096 in [z2b (v / 65536)]
  | _ => []
  end.

(** DecodeString: decodeQuantum over the input; [acc] holds the sextets of the
    current quantum.  Newlines are skipped everywhere; the fast paths of
    Decode, which handle runs of alphabet characters, agree with this loop. *)
Fixpoint b64_loop (acc : list Z) (l : bytes) : res bytes :=
  match l with
  | [] => match acc with [] => Ok [] | _ => Err ErrCorrupt end
  | c :: l' =>
      match dec6 c with
      | Some v =>
          if (List.length acc =? 3)%nat
          then out <- b64_loop [] l' ;; Ok (quantum (acc ++ [v]) ++ out)
          else b64_loop (acc ++ [v]) l'
      | None =>
          if is_nl c then b64_loop acc l'
          else if negb (Ascii.eqb c pad) then Err ErrCorrupt
          else match List.length acc with
               | 2%nat =>
                   match skip_nl l' with
                   | [] => Err ErrCorrupt
                   | c2 :: l2 =>
                       if Ascii.eqb c2 pad
                       then match skip_nl l2 with
                            | [] => Ok (quantum acc)
                            | _ => Err ErrCorrupt
                            end
                       else Err ErrCorrupt
                   end
               | 3%nat =>
                   match skip_nl l' with
                   | [] => Ok (quantum acc)
                   | _ => Err ErrCorrupt
                   end
               | _ => Err ErrCorrupt
               end
      end
  end.

Definition b64_decode (l : bytes) : res bytes := b64_loop [] l.

(** ** Data URIs *)

(** const.go:431-435 *)
Definition mimetypeApplicationOctet : string := "data:application/octet-stream;base64".
Definition mimetypeImagePNG : string := "data:image/png;base64".
Definition mimetypeImageJPG : string := "data:image/jpeg;base64".

(** gltf.go:122-125, Buffer.IsEmbeddedResource; strings.HasPrefix. *)
Definition buf_IsEmbeddedResource (b : Buffer) : bool :=
  String.prefix mimetypeApplicationOctet (buf_URI b).

(** gltf.go:127-130, Buffer.EmbeddedResource *)
Definition buf_EmbeddedResource (b : Buffer) : Buffer :=
  set_buf_URI (bytes_str (str_bytes mimetypeApplicationOctet ++ ","%char :: b64_encode (buf_Data b))) b.

(** The tail s[start:] of a string, with Go's bound check. *)
Definition str_from (s : string) (start : Z) : res bytes :=
  slice_from (str_bytes s) start.

(** gltf.go:132-146, Buffer.marshalData; nil and empty results coincide. *)
Definition buf_marshalData (b : Buffer) : res bytes :=
  if negb (buf_IsEmbeddedResource b) then Ok [] else
  let startPos := zlen (str_bytes mimetypeApplicationOctet) + 1 in
  if zlen (str_bytes (buf_URI b)) <? startPos then Err (ErrMsg "gltf: Invalid base64 content") else
  tl <- str_from (buf_URI b) startPos ;; b64_decode tl.

(** gltf.go:403-406, Image.IsEmbeddedResource *)
Definition img_IsEmbeddedResource (im : Image) : bool :=
  String.prefix mimetypeImagePNG (img_URI im) || String.prefix mimetypeImageJPG (img_URI im).

(** gltf.go:409-422, Image.MarshalData *)
Definition img_MarshalData (im : Image) : res bytes :=
  if negb (img_IsEmbeddedResource im) then Ok [] else
  let mimetype := if String.prefix mimetypeImageJPG (img_URI im)
                  then mimetypeImageJPG else mimetypeImagePNG in
  let startPos := zlen (str_bytes mimetype) + 1 in
  if zlen (str_bytes (img_URI im)) <? startPos then Err (ErrMsg "gltf: Invalid base64 content") else
  tl <- str_from (img_URI im) startPos ;; b64_decode tl.
