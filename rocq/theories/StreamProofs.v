(** Facts about the readers of Stream.v. *)
From Verif Require Import Base BaseFacts Types Doc JsonText JsonTextProofs Stream.

Ltac sp := repeat match goal with |- _ /\ _ => split end.

(** A pending error means the reader is used up. *)
Definition binv (b : bufio) : Prop :=
  pieces_ok (bf_rd b) /\ forall e, bf_err b = Some e -> e = rd_err (bf_rd b) /\ rd_pieces (bf_rd b) = [].

Lemma zlen_firstn {A} (l : list A) k : 0 <= k -> zlen (firstn (Z.to_nat k) l) = Z.min k (zlen l).
Proof. intros H. unfold zlen. rewrite firstn_length. lia. Qed.
Lemma zlen_skipn {A} (l : list A) k : 0 <= k -> zlen (skipn (Z.to_nat k) l) = Z.max 0 (zlen l - k).
Proof. intros H. unfold zlen. rewrite skipn_length. lia. Qed.
Lemma zlen_pos {A} (l : list A) : l <> [] -> 1 <= zlen l.
Proof. destruct l; [congruence|]. intros _. rewrite zlen_cons. pose proof (zlen_nonneg l). lia. Qed.
Lemma zlen_0 {A} (l : list A) : zlen l <= 0 -> l = [].
Proof. destruct l; [reflexivity|]. rewrite zlen_cons. pose proof (zlen_nonneg l). lia. Qed.

Lemma rd_read_spec k r d e r' : 0 < k -> pieces_ok r -> rd_read k r = (d, e, r') ->
  List.concat (rd_pieces r) = d ++ List.concat (rd_pieces r') /\ zlen d <= k /\ pieces_ok r' /\
  rd_err r' = rd_err r /\ rd_with r' = rd_with r /\
  (forall x, e = Some x -> x = rd_err r /\ rd_pieces r' = []) /\
  (e = None -> d <> []) /\ (d = [] -> rd_pieces r = []).
Proof.
  intros Hk O. unfold rd_read. destruct r as [[|p ps] er wi]; cbn [rd_pieces rd_err rd_with].
  - intros [= <- <- <-]. cbn. sp; intros; sp; try assumption; try lia; try congruence. 
  - pose proof (Forall_inv O) as Hp. pose proof (Forall_inv_tail O) as Hps. cbn beta in Hp.
    destruct (zlen p <=? k) eqn:E; intros [= <- <- <-]; cbn [rd_pieces rd_err rd_with List.concat].
    + split; [reflexivity|]. split; [lia|]. split; [exact Hps|]. split; [reflexivity|]. split; [reflexivity|].
      split; [|split; [intros _; exact Hp|intros ->; congruence]].
      intros x Hx. destruct ps; [|discriminate]. destruct wi; [|discriminate]. injection Hx as <-. split; reflexivity.
    + split; [rewrite app_assoc, firstn_skipn; reflexivity|]. split; [rewrite zlen_firstn; lia|].
      assert (N1 : firstn (Z.to_nat k) p <> []). { intros H. apply (f_equal zlen) in H. rewrite zlen_firstn, zlen_nil in H by lia. pose proof (zlen_pos p Hp). lia. }
      assert (N2 : skipn (Z.to_nat k) p <> []). { intros H. apply (f_equal zlen) in H. rewrite zlen_skipn in H by lia. change (zlen (@nil ascii)) with 0 in H. lia. }
      split; [constructor; [exact N2|exact Hps]|]. split; [reflexivity|]. split; [reflexivity|].
      split; [discriminate|]. split; [intros _; exact N1|intros H; contradiction].
Qed.

Definition endof (b : bufio) : error := rd_err (bf_rd b).

Lemma b_read_spec k b d e b' : 0 < k -> binv b -> b_read k b = (d, e, b') ->
  remaining b = d ++ remaining b' /\ zlen d <= k /\ binv b' /\ endof b' = endof b /\
  (forall x, e = Some x -> x = endof b /\ remaining b' = []) /\ (e = None -> d <> []).
Proof.
  intros Hk [O P]. unfold b_read, remaining, endof, binv. destruct b as [[|c buf] er rd]; cbn [bf_buf bf_err bf_rd] in *.
  - destruct er as [x|].
    + intros [= <- <- <-]. cbn. destruct (P x eq_refl) as [-> E]. rewrite E. cbn.
      sp; intros; sp; try assumption; try lia; try congruence.
    + destruct (buf_size <=? k) eqn:B.
      * destruct (rd_read k rd) as [[d0 e0] r0] eqn:R. intros [= <- <- <-]. cbn [bf_buf bf_err bf_rd app].
        pose proof (rd_read_spec k rd d0 e0 r0 Hk O R) as (A1 & A2 & A3 & A4 & A5 & A6 & A7 & A8).
        split; [exact A1|]. split; [exact A2|]. split; [split; [exact A3|discriminate]|]. split; [exact A4|].
        split; [|exact A7]. intros x Hx. destruct (A6 x Hx) as [-> E]. rewrite E. split; reflexivity.
      * destruct (rd_read buf_size rd) as [[d0 e0] r0] eqn:R.
        pose proof (rd_read_spec buf_size rd d0 e0 r0 ltac:(unfold buf_size; lia) O R) as (A1 & A2 & A3 & A4 & A5 & A6 & A7 & A8).
        destruct d0 as [|c d0].
        -- intros [= <- <- <-]. cbn [bf_buf bf_err bf_rd app]. rewrite zlen_nil.
           split; [exact A1|]. split; [lia|]. split; [split; [exact A3|discriminate]|]. split; [exact A4|].
           split; [|exact A7]. intros x Hx. destruct (A6 x Hx) as [-> E]. rewrite E. split; reflexivity.
        -- intros [= <- <- <-]. cbn [bf_buf bf_err bf_rd app].
           split; [rewrite app_assoc, firstn_skipn; exact A1|]. split; [rewrite zlen_firstn; lia|].
           split; [split; [exact A3|]|]. { intros x Hx. destruct (A6 x Hx) as [-> E]. rewrite A4. split; [reflexivity|exact E]. }
           split; [exact A4|]. split; [discriminate|]. intros _ H. apply (f_equal zlen) in H. rewrite zlen_firstn, zlen_nil, zlen_cons in H by lia.
           pose proof (zlen_nonneg d0). lia.
  - intros [= <- <- <-]. cbn [bf_buf bf_err bf_rd].
    split; [rewrite app_assoc, firstn_skipn; reflexivity|]. split; [rewrite zlen_firstn; lia|].
    split; [split; assumption|]. split; [reflexivity|]. split; [discriminate|].
    intros _ H. apply (f_equal zlen) in H. rewrite zlen_firstn, zlen_nil, zlen_cons in H by lia. pose proof (zlen_nonneg buf). lia.
Qed.

(** ** Sources *)
Definition sinv (s : source) : Prop := binv (src_buf s) /\ match src_lim s with Some n => 0 <= n | None => True end.
Definition avail (s : source) : bytes :=
  match src_lim s with None => remaining (src_buf s) | Some n => firstn (Z.to_nat n) (remaining (src_buf s)) end.
Definition src_end (s : source) : error := endof (src_buf s).

Lemma firstn_after {A} (d l : list A) n : zlen d <= n ->
  firstn (Z.to_nat n) (d ++ l) = d ++ firstn (Z.to_nat (n - zlen d)) l.
Proof.
  intros H. rewrite firstn_app, firstn_all2 by (unfold zlen in H; lia). f_equal. f_equal. unfold zlen in *. lia.
Qed.

Lemma src_read_spec k s d e s' : 0 < k -> sinv s -> src_read k s = (d, e, s') ->
  avail s = d ++ avail s' /\ remaining (src_buf s) = d ++ remaining (src_buf s') /\ zlen d <= k /\ sinv s' /\ src_end s' = src_end s /\
  (src_lim s' = option_map (fun n => n - zlen d) (src_lim s)) /\
  (forall x, e = Some x -> (x = src_end s \/ x = ErrEOF) /\ avail s' = []) /\ (e = None -> d <> []).
Proof.
  intros Hk [B L]. unfold src_read, avail, src_end. destruct s as [[n|] b]; cbn [src_lim src_buf] in *.
  - destruct (n <=? 0) eqn:N.
    + intros [= <- <- <-]. cbn [src_lim src_buf app option_map]. replace n with 0 by lia. cbn.
      sp; intros; sp; try assumption; try lia; try congruence; [split; [exact B|cbn; lia]|right; congruence].
    + destruct (b_read (if n <? k then n else k) b) as [[d0 e0] b0] eqn:R. intros [= <- <- <-].
      assert (Hk' : 0 < (if n <? k then n else k) <= n) by (destruct (n <? k) eqn:?; lia).
      pose proof (b_read_spec _ b d0 e0 b0 (proj1 Hk') B R) as (A1 & A2 & A3 & A4 & A5 & A6). cbn [src_lim src_buf option_map].
      split; [rewrite A1; apply firstn_after; lia|]. split; [exact A1|]. split; [destruct (n <? k) eqn:?; lia|].
      split; [split; [exact A3|cbn; lia]|]. split; [exact A4|]. split; [reflexivity|].
      split; [|exact A6]. intros x Hx. destruct (A5 x Hx) as [-> E]. rewrite E, firstn_nil. split; [left|]; reflexivity.
  - destruct (b_read k b) as [[d0 e0] b0] eqn:R. intros [= <- <- <-].
    pose proof (b_read_spec _ b d0 e0 b0 Hk B R) as (A1 & A2 & A3 & A4 & A5 & A6). cbn [src_lim src_buf option_map].
    split; [exact A1|]. split; [exact A1|]. split; [exact A2|]. split; [split; [exact A3|exact I]|]. split; [exact A4|]. split; [reflexivity|].
    split; [|exact A6]. intros x Hx. destruct (A5 x Hx) as [-> E]. split; [left; reflexivity|exact E].
Qed.

(** What readValue returns depends on the bytes only. *)
Definition whole (c : config) (blank : bool) (l : bytes) : res json :=
  match scan c l with
  | Done v _ => Ok v
  | Syntax => Err (ErrMsg "invalid character")
  | More c' =>
      match at_eof c' with
      | Some v => Ok v
      | None => Err (if blank && forallb is_space l then ErrEOF else ErrUnexpectedEOF)
      end
  end.

Lemma readValue_spec fuel : forall len cap c blank s r s', sinv s -> src_end s = ErrEOF -> 0 <= len <= cap ->
  (List.length (avail s) < fuel)%nat -> readValue fuel len cap c blank s = (r, s') ->
  r = whole c blank (avail s) /\ sinv s' /\ src_end s' = ErrEOF /\
  (exists used, avail s = used ++ avail s' /\ remaining (src_buf s) = used ++ remaining (src_buf s') /\
     src_lim s' = option_map (fun n => n - zlen used) (src_lim s)) /\
  forall v, r = Ok v ->
    (exists t, scan c (avail s) = Done v (t ++ avail s')) \/
    (avail s' = [] /\ exists c', scan c (avail s) = More c' /\ at_eof c' = Some v).
Proof.
  induction fuel as [|f IH]; intros len cap c blank s r s' I E L Fu; [lia|]. cbn [readValue].
  set (cap' := if cap - len <? 512 then 2 * cap + 512 else cap).
  assert (Lc : len < cap') by (unfold cap'; destruct (cap - len <? 512) eqn:?; lia).
  destruct (src_read (cap' - len) s) as [[d e] s1] eqn:R.
  pose proof (src_read_spec (cap' - len) s d e s1 ltac:(lia) I R) as (A1 & A2 & A3 & A4 & A5 & A6 & A7 & A8).
  unfold whole. rewrite A1, scan_app. destruct (scan c d) as [v t|c1|] eqn:S.
  - intros [= <- <-]. split; [reflexivity|]. split; [exact A4|]. split; [congruence|]. split; [exists d; auto|].
    intros v' [= <-]. left. exists t. reflexivity.
  - destruct e as [x|].
    + destruct (A7 x eq_refl) as [Hx Z]. rewrite Z, app_nil_r. cbn [scan].
      assert (x = ErrEOF) as -> by (destruct Hx; congruence). destruct (at_eof c1) as [v|] eqn:EA; intros [= <- <-].
      * split; [reflexivity|]. split; [exact A4|]. split; [congruence|]. split; [exists d; auto|].
        { rewrite Z, app_nil_r. auto. }
        intros v' [= <-]. right. split; [exact Z|]. exists c1. auto.
      * split; [reflexivity|]. split; [exact A4|]. split; [congruence|]. split; [exists d|discriminate].
        rewrite Z, app_nil_r. auto.
    + intros H. pose proof (A8 eq_refl) as Nd. pose proof (zlen_pos d Nd) as Pd. pose proof (f_equal zlen A1) as LA. rewrite zlen_app in LA.
      pose proof (IH (len + zlen d) cap' c1 (blank && forallb is_space d)%bool s1 r s' A4 ltac:(congruence) ltac:(lia) ltac:(unfold zlen in *; lia) H) as (B1 & B2 & B3 & (used & B4 & B5 & B6) & B7).
      split; [rewrite B1; unfold whole; rewrite forallb_app, andb_assoc; reflexivity|]. split; [exact B2|]. split; [exact B3|].
      split; [|exact B7]. exists (d ++ used). rewrite <- !app_assoc, <- B4, A2, B5. split; [reflexivity|]. split; [reflexivity|].
      rewrite B6, A6. destruct (src_lim s); cbn [option_map]; [|reflexivity]. rewrite zlen_app. f_equal. lia.
  - intros [= <- <-]. split; [reflexivity|]. split; [exact A4|]. split; [congruence|]. split; [exists d; auto|discriminate].
Qed.

Lemma read_json_spec s r s' : sinv s -> src_end s = ErrEOF -> read_json s = (r, s') ->
  r = whole start true (avail s) /\ sinv s' /\ src_end s' = ErrEOF /\
  (exists used, avail s = used ++ avail s' /\ remaining (src_buf s) = used ++ remaining (src_buf s') /\
     src_lim s' = option_map (fun n => n - zlen used) (src_lim s)) /\
  forall v, r = Ok v ->
    (exists t, scan start (avail s) = Done v (t ++ avail s')) \/
    (avail s' = [] /\ exists c', scan start (avail s) = More c' /\ at_eof c' = Some v).
Proof.
  intros I E H. refine (readValue_spec _ 0 0 start true s r s' I E ltac:(lia) _ H).
  assert (List.length (avail s) <= List.length (remaining (src_buf s)))%nat; [|lia].
  unfold avail. destruct (src_lim s); [rewrite firstn_length|]; lia.
Qed.

(** ** ReadFull *)
Definition taken (n : Z) (got l : bytes) : res bytes :=
  if n <=? zlen got + zlen l then Ok (got ++ firstn (Z.to_nat (n - zlen got)) l)
  else Err (match got ++ l with [] => ErrEOF | _ => ErrUnexpectedEOF end).

Lemma read_full_spec fuel : forall n got b r b', binv b -> endof b = ErrEOF -> (zlen got < n \/ got = []) ->
  (List.length (remaining b) < fuel)%nat -> read_full_from fuel n got b = (r, b') ->
  r = taken n got (remaining b) /\ binv b' /\ endof b' = ErrEOF /\
  (n <= zlen got + zlen (remaining b) -> zlen got < n -> remaining b' = skipn (Z.to_nat (n - zlen got)) (remaining b)).
Proof.
  induction fuel as [|f IH]; intros n got b r b' I E G Fu; [lia|]. cbn [read_full_from]. unfold taken.
  pose proof (zlen_nonneg (remaining b)) as NR.
  destruct (n <=? zlen got) eqn:Hn.
  { intros [= <- <-]. destruct G as [G| ->]; [lia|]. rewrite zlen_nil in *. replace (n <=? 0 + zlen (remaining b)) with true by lia.
    replace (Z.to_nat (n - 0)) with 0%nat by lia. split; [reflexivity|]. split; [exact I|]. split; [exact E|]. intros _ H. lia. }
  destruct (b_read (n - zlen got) b) as [[d e] b1] eqn:R.
  pose proof (b_read_spec (n - zlen got) b d e b1 ltac:(lia) I R) as (A1 & A2 & A3 & A4 & A5 & A6).
  rewrite A1, !zlen_app. destruct (n <=? zlen got + zlen d) eqn:Hd.
  - intros [= <- <-]. pose proof (zlen_nonneg (remaining b1)). replace (n <=? zlen got + (zlen d + zlen (remaining b1))) with true by lia.
    replace (n - zlen got) with (zlen d) by lia. unfold zlen. rewrite Nat2Z.id.
    rewrite firstn_app, firstn_all, Nat.sub_diag, app_nil_r. split; [reflexivity|]. split; [exact A3|]. split; [congruence|].
    intros _ _. rewrite skipn_app, skipn_all, Nat.sub_diag. reflexivity.
  - destruct e as [x|].
    + destruct (A5 x eq_refl) as [Hx Z]. assert (x = ErrEOF) as -> by congruence. rewrite Z, zlen_nil, app_nil_r.
      replace (n <=? zlen got + (zlen d + 0)) with false by lia. intros [= <- <-].
      split; [reflexivity|]. split; [exact A3|]. split; [congruence|]. lia.
    + intros H. pose proof (zlen_pos d (A6 eq_refl)) as Pd. pose proof (f_equal zlen A1) as LA. rewrite zlen_app in LA.
      pose proof (IH n (got ++ d) b1 r b' A3 ltac:(congruence) ltac:(left; rewrite zlen_app; lia) ltac:(unfold zlen in *; lia) H) as (B1 & B2 & B3 & B4).
      rewrite zlen_app in *. unfold taken in B1. rewrite zlen_app in B1.
      split; [|split; [exact B2|split; [exact B3|]]].
      * rewrite B1, Z.add_assoc. destruct (n <=? zlen got + zlen d + zlen (remaining b1)).
        -- f_equal. rewrite <- app_assoc. f_equal. rewrite firstn_after by lia. f_equal. f_equal. f_equal. lia.
        -- rewrite <- app_assoc. reflexivity.
      * intros H1 H2. rewrite B4 by lia. rewrite skipn_app, (skipn_all2 d) by (unfold zlen in *; lia). cbn [app]. f_equal. unfold zlen in *. lia.
Qed.

Lemma ReadFull_spec n b r b' : binv b -> endof b = ErrEOF -> ReadFull n b = (r, b') ->
  r = taken n [] (remaining b) /\ binv b' /\ endof b' = ErrEOF /\
  (0 < n <= zlen (remaining b) -> remaining b' = skipn (Z.to_nat n) (remaining b)).
Proof.
  intros I E H. pose proof (read_full_spec (S (S (List.length (remaining b)))) n [] b r b' I E (or_intror eq_refl) ltac:(lia) H) as (A1 & A2 & A3 & A4).
  rewrite zlen_nil in A4. rewrite Z.sub_0_r in A4. split; [exact A1|]. split; [exact A2|]. split; [exact A3|]. intros L. apply A4; lia.
Qed.

(** ** Peek *)
Lemma fill_spec b : binv b -> bf_err b = None -> zlen (bf_buf b) < buf_size ->
  remaining (fill b) = remaining b /\ binv (fill b) /\ endof (fill b) = endof b /\
  zlen (bf_buf (fill b)) <= buf_size /\ (bf_err (fill b) = None -> zlen (bf_buf b) < zlen (bf_buf (fill b))).
Proof.
  intros [O P] E L. unfold fill. destruct (rd_read (buf_size - zlen (bf_buf b)) (bf_rd b)) as [[d e] r] eqn:R.
  pose proof (rd_read_spec (buf_size - zlen (bf_buf b)) (bf_rd b) d e r ltac:(lia) O R) as (A1 & A2 & A3 & A4 & A5 & A6 & A7 & A8).
  unfold remaining, binv, endof. cbn [bf_buf bf_err bf_rd]. rewrite zlen_app.
  split; [rewrite A1, app_assoc; reflexivity|]. split; [split; [exact A3|]|].
  { intros x Hx. destruct (A6 x Hx) as [-> H]. split; [congruence|exact H]. }
  split; [exact A4|]. split; [lia|]. intros N. pose proof (zlen_pos d (A7 N)). lia.
Qed.
Lemma peek_fill_spec n fuel : forall b, n <= buf_size -> binv b -> zlen (bf_buf b) <= buf_size -> (n - zlen (bf_buf b) <= Z.of_nat fuel) ->
  let b' := peek_fill fuel n b in
  remaining b' = remaining b /\ binv b' /\ endof b' = endof b /\ zlen (bf_buf b') <= buf_size /\
  (zlen (bf_buf b') < n -> rd_pieces (bf_rd b') = []).
Proof.
  induction fuel as [|f IH]; intros b Hn I L Fu; cbn [peek_fill]; cbv zeta.
  - split; [reflexivity|]. split; [exact I|]. split; [reflexivity|]. split; [exact L|]. lia.
  - destruct ((zlen (bf_buf b) <? n) && match bf_err b with None => true | _ => false end) eqn:C.
    + apply andb_prop in C. destruct C as [C1 C2]. destruct (bf_err b) as [|] eqn:E; [discriminate|].
      pose proof (fill_spec b I E ltac:(lia)) as (A1 & A2 & A3 & A4 & A5).
      destruct (bf_err (fill b)) as [x|] eqn:E2.
      * assert (Z : peek_fill f n (fill b) = fill b). { destruct f; [reflexivity|]. cbn [peek_fill]. rewrite E2, andb_false_r. reflexivity. }
        rewrite Z. sp; try assumption. intros _. destruct A2 as [_ P]. exact (proj2 (P x E2)).
      * pose proof (IH (fill b) Hn A2 A4 ltac:(pose proof (A5 eq_refl); lia)) as (B1 & B2 & B3 & B4 & B5).
        split; [congruence|]. split; [exact B2|]. split; [congruence|]. split; assumption.
    + split; [reflexivity|]. split; [exact I|]. split; [reflexivity|]. split; [exact L|]. intros H.
      destruct (bf_err b) as [x|] eqn:E; [|lia]. destruct I as [_ P]. exact (proj2 (P x E)).
Qed.
Lemma Peek_spec n b c b' : 0 <= n <= buf_size -> binv b -> bf_buf b = [] -> Peek n b = (c, b') ->
  remaining b' = remaining b /\ binv b' /\ endof b' = endof b /\
  (match c with
   | None => zlen (remaining b) < n
   | Some l => n <= zlen (bf_buf b') /\ n <= zlen (remaining b) /\ l = firstn (Z.to_nat n) (remaining b)
   end).
Proof.
  intros Hn I E. unfold Peek. cbv zeta.
  pose proof (peek_fill_spec n (Z.to_nat n) b (proj2 Hn) I ltac:(rewrite E, zlen_nil; unfold buf_size; lia) ltac:(rewrite E, zlen_nil; lia)) as (A1 & A2 & A3 & A4 & A5).
  cbv zeta in *. set (b1 := peek_fill (Z.to_nat n) n b) in *. destruct (zlen (bf_buf b1) <? n) eqn:C; intros [= <- <-].
  - split; [exact A1|]. split; [split; [exact (proj1 A2)|discriminate]|]. split; [exact A3|].
    rewrite <- A1. unfold remaining. rewrite (A5 ltac:(lia)). cbn [List.concat]. rewrite app_nil_r. lia.
  - split; [exact A1|]. split; [exact A2|]. split; [exact A3|]. split; [lia|]. rewrite <- A1. unfold remaining. rewrite zlen_app.
    pose proof (zlen_nonneg (List.concat (rd_pieces (bf_rd b1)))). split; [lia|]. rewrite firstn_app.
    replace (Z.to_nat n - List.length (bf_buf b1))%nat with 0%nat by (unfold zlen in *; lia). rewrite firstn_O, app_nil_r. reflexivity.
Qed.

(** ** Alignment *)
Definition r_aligned (r : reader) : Prop := Forall (fun p => zlen p mod 4 = 0) (rd_pieces r).
Definition b_aligned (b : bufio) : Prop := zlen (bf_buf b) mod 4 = 0 /\ r_aligned (bf_rd b).
Definition s_aligned (s : source) : Prop :=
  b_aligned (src_buf s) /\ match src_lim s with Some n => n mod 4 = 0 | None => True end.

Lemma rd_aligned k r d e r' : 0 < k -> k mod 4 = 0 -> r_aligned r -> rd_read k r = (d, e, r') -> zlen d mod 4 = 0 /\ r_aligned r'.
Proof.
  intros Hk K A. unfold rd_read, r_aligned in *. destruct r as [[|p ps] er wi]; cbn [rd_pieces] in *.
  - intros [= <- <- <-]. split; [reflexivity|exact A].
  - pose proof (Forall_inv A) as Ap. pose proof (Forall_inv_tail A) as As. cbn beta in Ap.
    destruct (zlen p <=? k) eqn:E; intros [= <- <- <-]; cbn [rd_pieces]; [split; assumption|].
    split; [rewrite zlen_firstn by lia; lia|]. constructor; [|exact As]. rewrite zlen_skipn by lia. lia.
Qed.
Lemma b_aligned_read k b d e b' : 0 < k -> k mod 4 = 0 -> b_aligned b -> b_read k b = (d, e, b') -> zlen d mod 4 = 0 /\ b_aligned b'.
Proof.
  intros Hk K [A1 A2]. unfold b_read, b_aligned. destruct b as [[|c buf] er rd]; cbn [bf_buf bf_err bf_rd] in *.
  - destruct er as [x|]; [intros [= <- <- <-]; split; [reflexivity|split; [reflexivity|exact A2]]|].
    destruct (buf_size <=? k) eqn:B.
    + destruct (rd_read k rd) as [[d0 e0] r0] eqn:R. intros [= <- <- <-]. destruct (rd_aligned k rd _ _ _ Hk K A2 R). split; [assumption|]. split; [reflexivity|assumption].
    + destruct (rd_read buf_size rd) as [[d0 e0] r0] eqn:R. destruct (rd_aligned buf_size rd _ _ _ ltac:(unfold buf_size; lia) ltac:(reflexivity) A2 R) as [H1 H2].
      destruct d0; intros [= <- <- <-]; cbn [bf_buf bf_rd]; [split; [reflexivity|split; [reflexivity|exact H2]]|].
      rewrite zlen_firstn, zlen_skipn by lia. split; [lia|]. split; [lia|exact H2].
  - intros [= <- <- <-]. cbn [bf_buf bf_rd]. rewrite zlen_firstn, zlen_skipn by lia. split; [lia|]. split; [lia|exact A2].
Qed.
Lemma s_aligned_read k s d e s' : 0 < k -> k mod 4 = 0 -> s_aligned s -> src_read k s = (d, e, s') -> zlen d mod 4 = 0 /\ s_aligned s'.
Proof.
  intros Hk K [A B]. unfold src_read, s_aligned. destruct s as [[n|] b]; cbn [src_lim src_buf] in *.
  - destruct (n <=? 0) eqn:N; [intros [= <- <- <-]; split; [reflexivity|split; assumption]|].
    destruct (b_read (if n <? k then n else k) b) as [[d0 e0] b0] eqn:R. intros [= <- <- <-]. cbn [src_lim src_buf].
    destruct (b_aligned_read (if n <? k then n else k) b d0 e0 b0 ltac:(destruct (n <? k); lia) ltac:(destruct (n <? k); lia) A R). split; [assumption|]. split; [assumption|]. lia.
  - destruct (b_read k b) as [[d0 e0] b0] eqn:R. intros [= <- <- <-]. cbn [src_lim src_buf].
    destruct (b_aligned_read _ b d0 e0 b0 Hk K A R). split; [assumption|]. split; [assumption|exact I].
Qed.
Lemma readValue_aligned fuel : forall len cap c blank s r s', 0 <= len <= cap -> len mod 4 = 0 -> cap mod 4 = 0 -> sinv s -> s_aligned s ->
  readValue fuel len cap c blank s = (r, s') -> s_aligned s'.
Proof.
  induction fuel as [|f IH]; intros len cap c blank s r s' L M1 M2 I A; cbn [readValue]; [intros [= <- <-]; exact A|].
  set (cap' := if cap - len <? 512 then 2 * cap + 512 else cap).
  assert (Lc : len < cap') by (unfold cap'; destruct (cap - len <? 512) eqn:?; lia).
  assert (M3 : cap' mod 4 = 0) by (unfold cap'; destruct (cap - len <? 512); lia).
  destruct (src_read (cap' - len) s) as [[d e] s1] eqn:R.
  destruct (s_aligned_read (cap' - len) s d e s1 ltac:(lia) ltac:(lia) A R) as [D S].
  pose proof (src_read_spec (cap' - len) s d e s1 ltac:(lia) I R) as (A1 & A2 & A3 & A4 & _).
  destruct (scan c d) as [v t|c1|]; [intros [= <- <-]; exact S| |intros [= <- <-]; exact S].
  destruct e as [[]|]; try (intros [= <- <-]; exact S).
  - destruct (at_eof c1); intros [= <- <-]; exact S.
  - intros H. refine (IH _ _ _ _ _ _ _ _ _ M3 A4 S H); [pose proof (zlen_nonneg d)|]; lia.
Qed.
Lemma read_json_aligned s r s' : sinv s -> s_aligned s -> read_json s = (r, s') -> s_aligned s'.
Proof. intros I A H. refine (readValue_aligned _ 0 0 start true s r s' _ _ _ I A H); [lia|reflexivity|reflexivity]. Qed.
Lemma fill_aligned b : bf_err b = None -> zlen (bf_buf b) < buf_size -> b_aligned b -> b_aligned (fill b).
Proof.
  intros E L [A1 A2]. unfold fill. destruct (rd_read (buf_size - zlen (bf_buf b)) (bf_rd b)) as [[d e] r] eqn:R.
  destruct (rd_aligned (buf_size - zlen (bf_buf b)) (bf_rd b) d e r ltac:(lia) ltac:(unfold buf_size; lia) A2 R). split; [cbn [bf_buf]; rewrite zlen_app; lia|assumption].
Qed.
Lemma Peek_aligned n b c b' : 0 <= n <= buf_size -> b_aligned b -> Peek n b = (c, b') -> b_aligned b'.
Proof.
  intros Hn A. unfold Peek. cbv zeta.
  assert (G : forall f b, b_aligned b -> b_aligned (peek_fill f n b)).
  { induction f as [|f IH]; intros b0 A0; cbn [peek_fill]; [exact A0|].
    destruct ((zlen (bf_buf b0) <? n) && match bf_err b0 with None => true | _ => false end) eqn:C; [|exact A0].
    apply andb_prop in C. destruct C as [C1 C2]. apply IH. apply fill_aligned; [destruct (bf_err b0); [discriminate|reflexivity]|lia|exact A0]. }
  specialize (G (Z.to_nat n) b A). destruct (zlen (bf_buf (peek_fill (Z.to_nat n) n b)) <? n); intros [= <- <-]; exact G.
Qed.
