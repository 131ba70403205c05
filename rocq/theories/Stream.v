(** Reading: io.Reader, bufio.Reader (Peek, Read), io.LimitedReader,
    io.ReadFull and the buffering of json.Decoder.  Library code of Go 1.20;
    used by decoder.go:59-185. *)
From Verif Require Import Base Types Doc JsonText.

(** An io.Reader.  Each Read hands out the next piece, or as much of it as
    fits, and when the pieces are used up it returns the final error, every
    time.  [rd_with]: the last piece comes together with the final error, as
    the io.Reader contract allows.  Reads of zero bytes without an error,
    which the contract discourages, happen only for empty pieces, and
    [pieces_ok] excludes those. *)
Record reader : Type := mkReader {
  rd_pieces : list bytes;
  rd_err : error;
  rd_with : bool
}.
Definition pieces_ok (r : reader) : Prop := Forall (fun p => p <> []) (rd_pieces r).

Definition rd_read (k : Z) (r : reader) : bytes * option error * reader :=
  match rd_pieces r with
  | [] => ([], Some (rd_err r), r)
  | p :: ps =>
      if zlen p <=? k then
        (p, match ps with [] => if rd_with r then Some (rd_err r) else None | _ => None end,
         mkReader ps (rd_err r) (rd_with r))
      else (firstn (Z.to_nat k) p, None, mkReader (skipn (Z.to_nat k) p :: ps) (rd_err r) (rd_with r))
  end.

(** bufio.Reader: the bytes buffered and not yet read, the pending error, and
    the underlying reader.  The buffer has 4096 bytes (bufio.NewReader). *)
Record bufio : Type := mkBufio {
  bf_buf : bytes;
  bf_err : option error;
  bf_rd : reader
}.
Definition buf_size : Z := 4096.
Definition NewReader (r : reader) : bufio := mkBufio [] None r.

(** bufio.go, fill: slides the buffered bytes to the front and reads once into
    the free space (a reader without empty pieces makes progress). *)
Definition fill (b : bufio) : bufio :=
  let '(d, e, r) := rd_read (buf_size - zlen (bf_buf b)) (bf_rd b) in
  mkBufio (bf_buf b ++ d) e r.

(** bufio.go, Peek(n) for n <= 4096: fill until n bytes are there or an error
    is pending.  A short result takes the pending error away. *)
Fixpoint peek_fill (fuel : nat) (n : Z) (b : bufio) : bufio :=
  match fuel with
  | O => b
  | S f =>
      if (zlen (bf_buf b) <? n) && match bf_err b with None => true | _ => false end
      then peek_fill f n (fill b) else b
  end.
Definition Peek (n : Z) (b : bufio) : option bytes * bufio :=
  let b := peek_fill (Z.to_nat n) n b in
  if zlen (bf_buf b) <? n then (None, mkBufio (bf_buf b) None (bf_rd b))
  else (Some (firstn (Z.to_nat n) (bf_buf b)), b).

(** bufio.go, Read(p) with len(p) = k > 0. *)
Definition b_read (k : Z) (b : bufio) : bytes * option error * bufio :=
  match bf_buf b with
  | [] =>
      match bf_err b with
      | Some e => ([], Some e, mkBufio [] None (bf_rd b))
      | None =>
          if buf_size <=? k then
            let '(d, e, r) := rd_read k (bf_rd b) in (d, e, mkBufio [] None r)
          else
            let '(d, e, r) := rd_read buf_size (bf_rd b) in
            match d with
            | [] => ([], e, mkBufio [] None r)
            | _ => (firstn (Z.to_nat k) d, None, mkBufio (skipn (Z.to_nat k) d) e r)
            end
      end
  | buf => (firstn (Z.to_nat k) buf, None, mkBufio (skipn (Z.to_nat k) buf) (bf_err b) (bf_rd b))
  end.

(** What json.NewDecoder reads from (decoder.go:104-110): the bufio.Reader, or
    an io.LimitedReader on it with some bytes still allowed. *)
Record source : Type := mkSource {
  src_lim : option Z;
  src_buf : bufio
}.
Definition src_read (k : Z) (s : source) : bytes * option error * source :=
  match src_lim s with
  | None => let '(d, e, b) := b_read k (src_buf s) in (d, e, mkSource None b)
  | Some n =>
      if n <=? 0 then ([], Some ErrEOF, s)
      else let '(d, e, b) := b_read (if n <? k then n else k) (src_buf s) in
           (d, e, mkSource (Some (n - zlen d)) b)
  end.

(** encoding/json/stream.go, refill and readValue for the first value: [len]
    and [cap] of the buffer, the scanner, whether only white space was seen.
    The scanner looks at every byte of the buffer before an error of the last
    read counts.  Fuel: every turn without an error reads a byte. *)
Fixpoint readValue (fuel : nat) (len cap : Z) (c : config) (blank : bool) (s : source) : res json * source :=
  match fuel with
  | O => (Err (ErrMsg "out of fuel"), s)
  | S f =>
      let cap := if cap - len <? 512 then 2 * cap + 512 else cap in
      let '(d, e, s) := src_read (cap - len) s in
      match scan c d with
      | Done v _ => (Ok v, s)
      | Syntax => (Err (ErrMsg "invalid character"), s)
      | More c =>
          let blank := blank && forallb is_space d in
          match e with
          | None => readValue f (len + zlen d) cap c blank s
          | Some ErrEOF =>
              match at_eof c with
              | Some v => (Ok v, s)
              | None => (Err (if blank then ErrEOF else ErrUnexpectedEOF), s)
              end
          | Some e => (Err e, s)
          end
      end
  end.

(** The bytes a bufio.Reader will still deliver. *)
Definition remaining (b : bufio) : bytes := bf_buf b ++ List.concat (rd_pieces (bf_rd b)).
Definition read_json (s : source) : res json * source :=
  readValue (S (S (List.length (remaining (src_buf s))))) 0 0 start true s.

(** io.ReadFull(r, p) with len(p) = n; [got]: bytes read so far, reversed
    pieces joined. *)
Fixpoint read_full_from (fuel : nat) (n : Z) (got : bytes) (b : bufio) : res bytes * bufio :=
  match fuel with
  | O => (Err (ErrMsg "out of fuel"), b)
  | S f =>
      if n <=? zlen got then (Ok got, b) else
      let '(d, e, b) := b_read (n - zlen got) b in
      let got := got ++ d in
      if n <=? zlen got then (Ok got, b) else
      match e with
      | None => read_full_from f n got b
      | Some ErrEOF => (Err (match got with [] => ErrEOF | _ => ErrUnexpectedEOF end), b)
      | Some e => (Err e, b)
      end
  end.
Definition ReadFull (n : Z) (b : bufio) : res bytes * bufio :=
  read_full_from (S (S (List.length (remaining b)))) n [] b.
