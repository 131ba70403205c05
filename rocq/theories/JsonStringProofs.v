(** Proofs about string literals: quoting, unquoting, HTML escaping. *)
From Verif Require Import Base BaseFacts Base64Proofs Types Doc JsonText SpecText JsonTextProofs.

Lemma encode_utf8 r : scalar r -> encode_rune r = utf8 r.
Proof.
  intros H. unfold encode_rune, utf8, scalar in *.
  replace ((r <? 0) || (0x10FFFF <? r) || (0xD800 <=? r) && (r <=? 0xDFFF)) with false by lia.
  cbv zeta.
  replace (r <? 0x80) with (r <=? 0x7F) by lia. replace (r <? 0x800) with (r <=? 0x7FF) by lia.
  replace (r <? 0x10000) with (r <=? 0xFFFF) by lia.
  rewrite !Z.div_div by lia. reflexivity.
Qed.

Lemma utf8_cases r : scalar r ->
  (r <= 0x7F /\ utf8 r = [z2b r]) \/
  (0x80 <= r <= 0x7FF /\ utf8 r = [z2b (192 + r / 64); z2b (128 + r mod 64)]) \/
  (0x800 <= r <= 0xFFFF /\ utf8 r = [z2b (224 + r / 4096); z2b (128 + r / 64 mod 64); z2b (128 + r mod 64)]) \/
  (0x10000 <= r <= 0x10FFFF /\ utf8 r = [z2b (240 + r / 262144); z2b (128 + r / 4096 mod 64); z2b (128 + r / 64 mod 64);
        z2b (128 + r mod 64)]).
Proof.
  intros H. unfold utf8, scalar in *. rewrite !Z.div_div by lia. cbn [Z.mul Pos.mul].
  destruct (r <=? 0x7F) eqn:E1; [left; split; [lia|reflexivity]|].
  destruct (r <=? 0x7FF) eqn:E2; [right; left; split; [lia|reflexivity]|].
  destruct (r <=? 0xFFFF) eqn:E3; [right; right; left; split; [lia|reflexivity]|].
  right; right; right; split; [lia|reflexivity].
Qed.

Lemma cons_inj {A} (a b : A) l m : a :: l = b :: m -> a = b /\ l = m.
Proof. intros H. injection H as H1 H2. split; assumption. Qed.

Definition high (b : byte) : Prop := 128 <= b2z b.

(** A rune is decoded from its UTF-8 form, whatever follows. *)
Lemma decode_utf8 r b p t : scalar r -> utf8 r = b :: p ->
  decode_rune b (p ++ t) = (r, t) /\ (128 <= r -> high b) /\ Forall (fun c => cont c = true) p.
Proof.
  intros S E. destruct (utf8_cases r S) as [[H U]|[[H U]|[[H U]|[H U]]]]; rewrite U in E;
    apply cons_inj in E; destruct E as [<- <-]; cbn [app]; unfold decode_rune, cont, in_range, high; unfold scalar in S.
  - rewrite b2z_z2b by lia. replace (r <? 128) with true by lia. repeat split; [lia|constructor].
  - rewrite !b2z_z2b by lia. replace (192 + r / 64 <? 128) with false by lia.
    replace ((194 <=? 192 + r / 64) && (192 + r / 64 <=? 223)) with true by lia.
    replace ((128 <=? 128 + r mod 64) && (128 + r mod 64 <=? 191)) with true by lia.
    split; [f_equal; lia|]. split; [lia|]. repeat constructor. rewrite b2z_z2b by lia. lia.
  - rewrite !b2z_z2b by lia. replace (224 + r / 4096 <? 128) with false by lia.
    replace ((194 <=? 224 + r / 4096) && (224 + r / 4096 <=? 223)) with false by lia.
    replace ((224 <=? 224 + r / 4096) && (224 + r / 4096 <=? 239)) with true by lia.
    replace ((if 224 + r / 4096 =? 224 then 160 else 128) <=? 128 + r / 64 mod 64) with true
      by (destruct (224 + r / 4096 =? 224) eqn:?; lia).
    replace (128 + r / 64 mod 64 <=? (if 224 + r / 4096 =? 237 then 159 else 191)) with true
      by (destruct (224 + r / 4096 =? 237) eqn:?; lia).
    replace ((128 <=? 128 + r mod 64) && (128 + r mod 64 <=? 191)) with true by lia.
    cbn [andb]. split; [f_equal; lia|]. split; [lia|]. repeat constructor; rewrite b2z_z2b by lia; lia.
  - rewrite !b2z_z2b by lia. replace (240 + r / 262144 <? 128) with false by lia.
    replace ((194 <=? 240 + r / 262144) && (240 + r / 262144 <=? 223)) with false by lia.
    replace ((224 <=? 240 + r / 262144) && (240 + r / 262144 <=? 239)) with false by lia.
    replace ((240 <=? 240 + r / 262144) && (240 + r / 262144 <=? 244)) with true by lia.
    replace ((if 240 + r / 262144 =? 240 then 144 else 128) <=? 128 + r / 4096 mod 64) with true
      by (destruct (240 + r / 262144 =? 240) eqn:?; lia).
    replace (128 + r / 4096 mod 64 <=? (if 240 + r / 262144 =? 244 then 143 else 191)) with true
      by (destruct (240 + r / 262144 =? 244) eqn:?; lia).
    replace ((128 <=? 128 + r mod 64) && (128 + r mod 64 <=? 191)) with true by lia.
    replace ((128 <=? 128 + r / 64 mod 64) && (128 + r / 64 mod 64 <=? 191)) with true by lia.
    cbn [andb]. split; [f_equal; lia|]. split; [lia|]. repeat constructor; rewrite b2z_z2b by lia; lia.
Qed.

(** Decoding either recognises a rune or rejects one byte. *)
Lemma decode_inv b l r rest : high b -> decode_rune b l = (r, rest) ->
  (r = rune_error /\ rest = l /\ forall r' t, scalar r' -> b :: l <> utf8 r' ++ t) \/
  (exists p, l = p ++ rest /\ p <> [] /\ utf8 r = b :: p /\ scalar r /\ 128 <= r).
Proof.
  intros Hb D.
  assert (Bad : r = rune_error -> rest = l ->
     (r = rune_error /\ rest = l /\ forall r' t, scalar r' -> b :: l <> utf8 r' ++ t) \/
     (exists p, l = p ++ rest /\ p <> [] /\ utf8 r = b :: p /\ scalar r /\ 128 <= r)).
  { intros -> ->.
    left. split; [reflexivity|]. split; [reflexivity|]. intros r' t S E.
    destruct (utf8 r') as [|b' p] eqn:U.
    { destruct (utf8_cases r' S) as [[_ X]|[[_ X]|[[_ X]|[_ X]]]]; rewrite X in U; discriminate. }
    injection E as <- ->. destruct (decode_utf8 r' b p t S U) as (D' & _ & _).
    rewrite D' in D. injection D as -> K.
    assert (p = []).
    { destruct p; [reflexivity|]. exfalso.
      assert (List.length t = List.length ((a :: p) ++ t)) by (f_equal; exact K).
      rewrite app_length in H. cbn in H. lia. }
    subst p. destruct (utf8_cases rune_error S) as [[H _]|[[_ X]|[[_ X]|[_ X]]]];
      [unfold rune_error in H; lia|..]; rewrite X in U; discriminate. }
  unfold decode_rune in D. unfold high in Hb. pose proof (b2z_bound b) as Bb.
  replace (b2z b <? 128) with false in D by lia.
  destruct ((194 <=? b2z b) && (b2z b <=? 223)) eqn:C2.
  { destruct l as [|b1 l1]; [injection D as <- <-; apply Bad; reflexivity|].
    destruct (cont b1) eqn:K1; [|injection D as <- <-; apply Bad; reflexivity].
    injection D as <- <-. right. exists [b1]. split; [reflexivity|]. split; [discriminate|].
    unfold cont, in_range in K1. pose proof (b2z_bound b1).
    set (r := (b2z b - 192) * 64 + (b2z b1 - 128)).
    assert (S : scalar r) by (unfold scalar; lia). split; [|split; [exact S|lia]].
    destruct (utf8_cases r S) as [[H0 _]|[[_ U]|[[H0 _]|[H0 _]]]]; try lia. rewrite U.
    f_equal; [apply z2b_eq; lia|]. f_equal. apply z2b_eq; lia. }
  destruct ((224 <=? b2z b) && (b2z b <=? 239)) eqn:C3.
  { destruct l as [|b1 [|b2 l2]]; [injection D as <- <-; apply Bad; reflexivity..|].
    destruct (in_range _ _ b1 && cont b2) eqn:K; [|injection D as <- <-; apply Bad; reflexivity].
    injection D as <- <-. right. exists [b1; b2]. split; [reflexivity|]. split; [discriminate|].
    unfold cont, in_range in K. pose proof (b2z_bound b1). pose proof (b2z_bound b2).
    set (r := (b2z b - 224) * 4096 + (b2z b1 - 128) * 64 + (b2z b2 - 128)).
    assert (S : scalar r /\ 2048 <= r <= 65535)
      by (unfold scalar; destruct (b2z b =? 224) eqn:?; destruct (b2z b =? 237) eqn:?; lia).
    destruct S as [S Hr]. split; [|split; [exact S|lia]].
    destruct (utf8_cases r S) as [[H1 _]|[[H1 _]|[[_ U]|[H1 _]]]]; try lia. rewrite U.
    assert (128 <= b2z b1 <= 191 /\ 128 <= b2z b2 <= 191)
      by (destruct (b2z b =? 224) eqn:?; destruct (b2z b =? 237) eqn:?; lia).
    f_equal; [apply z2b_eq; lia|]. f_equal; [apply z2b_eq; lia|]. f_equal. apply z2b_eq; lia. }
  destruct ((240 <=? b2z b) && (b2z b <=? 244)) eqn:C4; [|injection D as <- <-; apply Bad; reflexivity].
  destruct l as [|b1 [|b2 [|b3 l3]]]; [injection D as <- <-; apply Bad; reflexivity..|].
  destruct (in_range _ _ b1 && cont b2 && cont b3) eqn:K; [|injection D as <- <-; apply Bad; reflexivity].
  injection D as <- <-. right. exists [b1; b2; b3]. split; [reflexivity|]. split; [discriminate|].
  unfold cont, in_range in K. pose proof (b2z_bound b1). pose proof (b2z_bound b2). pose proof (b2z_bound b3).
  set (r := (b2z b - 240) * 262144 + (b2z b1 - 128) * 4096 + (b2z b2 - 128) * 64 + (b2z b3 - 128)).
  assert (S : scalar r /\ 65536 <= r <= 1114111)
    by (unfold scalar; destruct (b2z b =? 240) eqn:?; destruct (b2z b =? 244) eqn:?; lia).
  destruct S as [S Hr]. split; [|split; [exact S|lia]].
  destruct (utf8_cases r S) as [[HX _]|[[HX _]|[[HX _]|[_ U]]]]; try lia. rewrite U.
  assert (128 <= b2z b1 <= 191 /\ 128 <= b2z b2 <= 191 /\ 128 <= b2z b3 <= 191)
    by (destruct (b2z b =? 240) eqn:?; destruct (b2z b =? 244) eqn:?; lia).
  f_equal; [apply z2b_eq; lia|]. f_equal; [apply z2b_eq; lia|]. f_equal; [apply z2b_eq; lia|].
  f_equal. apply z2b_eq; lia.
Qed.

Lemma quote_from_skip k l : quote_from k l = quote_from 0 (skipn k l).
Proof.
  revert k. induction l as [|b l IH]; intros k; [destruct k; reflexivity|].
  destruct k; [reflexivity|]. cbn [quote_from skipn]. apply IH.
Qed.

Lemma unquote_from_skip k l : unquote_from k l = unquote_from 0 (skipn k l).
Proof.
  revert k. induction l as [|b l IH]; intros k; [destruct k; reflexivity|].
  destruct k; [reflexivity|]. cbn [unquote_from skipn]. apply IH.
Qed.

Lemma skipn_app_len {A} (p l : list A) : skipn (List.length (p ++ l) - List.length l) (p ++ l) = l.
Proof.
  rewrite app_length. replace (List.length p + List.length l - List.length l)%nat with (List.length p) by lia.
  rewrite skipn_app, Nat.sub_diag, skipn_all. reflexivity.
Qed.
Lemma firstn_app_len {A} (p l : list A) : firstn (List.length (p ++ l) - List.length l) (p ++ l) = p.
Proof.
  rewrite app_length. replace (List.length p + List.length l - List.length l)%nat with (List.length p) by lia.
  rewrite firstn_app, Nat.sub_diag, firstn_all, firstn_O, app_nil_r. reflexivity.
Qed.

(** Equations for [quote]. *)
Lemma quote_nil : quote [] = [].
Proof. reflexivity. Qed.
Lemma quote_low b l : b2z b < 128 -> quote (b :: l) = quote_ascii b ++ quote l.
Proof. intros H. unfold quote. cbn [quote_from]. replace (b2z b <? 128) with true by lia. reflexivity. Qed.
Lemma quote_bad b l : high b -> decode_rune b l = (rune_error, l) ->
  quote (b :: l) = u_escape rune_error ++ quote l.
Proof.
  intros H D. unfold quote, high in *. cbn [quote_from]. replace (b2z b <? 128) with false by lia.
  rewrite D, Nat.sub_diag. reflexivity.
Qed.
Lemma quote_rune r b p l : scalar r -> utf8 r = b :: p -> p <> [] -> high b ->
  quote (b :: p ++ l) = (if (r =? 0x2028) || (r =? 0x2029) then u_escape r else b :: p) ++ quote l.
Proof.
  intros S U N H. destruct (decode_utf8 r b p l S U) as (D & _ & _).
  unfold quote, high in *. cbn [quote_from]. replace (b2z b <? 128) with false by lia.
  rewrite D. rewrite (quote_from_skip (List.length (p ++ l) - List.length l)), skipn_app_len, firstn_app_len.
  replace (List.length (p ++ l) - List.length l =? 0)%nat with false.
  2:{ symmetry. apply Nat.eqb_neq. rewrite app_length. destruct p; [contradiction|]. cbn [List.length]. lia. }
  rewrite andb_false_r. destruct ((r =? 0x2028) || (r =? 0x2029)); reflexivity.
Qed.

(** Equations for [unquote]. *)
Definition prep (bs : bytes) (o : option bytes) : option bytes :=
  match o with Some r => Some (bs ++ r) | None => None end.

Lemma unquote_plain b l : 32 <= b2z b < 128 -> b2z b <> 34 -> b2z b <> 92 ->
  unquote (b :: l) = prep [b] (unquote l).
Proof.
  intros H N1 N2. unfold unquote. cbn [unquote_from].
  destruct (Ascii.eqb_spec b bslash) as [->|_]; [exfalso; apply N2; reflexivity|].
  replace ((b2z b =? 34) || (b2z b <? 32)) with false by lia.
  replace (b2z b <? 128) with true by lia. reflexivity.
Qed.

Lemma high_not_bslash b : high b -> Ascii.eqb b bslash = false.
Proof.
  intros H. destruct (Ascii.eqb_spec b bslash) as [->|]; [|reflexivity].
  unfold high in H. vm_compute in H. destruct H. reflexivity.
Qed.

Lemma unquote_high b l r rest : high b -> decode_rune b l = (r, rest) ->
  unquote (b :: l) = prep (encode_rune r) (unquote rest).
Proof.
  intros H D. unfold unquote. cbn [unquote_from]. rewrite (high_not_bslash b H), D.
  pose proof H as H'. unfold high in H'.
  replace ((b2z b =? 34) || (b2z b <? 32)) with false by lia.
  replace (b2z b <? 128) with false by lia. rewrite unquote_from_skip.
  destruct (decode_inv b l r rest H D) as [(_ & -> & _)|(p & -> & _)].
  - rewrite Nat.sub_diag. reflexivity.
  - rewrite skipn_app_len. reflexivity.
Qed.

Definition simple_escape (e : byte) : option byte :=
  let c := b2z e in
  if (c =? 34) || (c =? 92) || (c =? 47) || (c =? 39) then Some e
  else if c =? 98 then Some (z2b 8)
  else if c =? 102 then Some (z2b 12)
  else if c =? 110 then Some (z2b 10)
  else if c =? 114 then Some (z2b 13)
  else if c =? 116 then Some (z2b 9)
  else None.

Lemma unquote_esc e c l : simple_escape e = Some c ->
  unquote (bslash :: e :: l) = prep [c] (unquote l).
Proof.
  intros H. unfold unquote. cbn [unquote_from]. change (Ascii.eqb bslash bslash) with true. cbv iota.
  unfold simple_escape in H. cbv zeta in *.
  repeat match type of H with (if ?x then _ else _) = _ => destruct x; [injection H as <-; reflexivity|] end.
  discriminate.
Qed.

Lemma unquote_u r l l4 : unhex4 l = Some (r, l4) -> (r < 0xD800 \/ 0xDFFF < r) ->
  unquote (bslash :: "u"%char :: l) = prep (encode_rune r) (unquote l4).
Proof.
  intros H Hr. unfold unquote. cbn [unquote_from]. change (Ascii.eqb bslash bslash) with true. cbv iota.
  change (b2z "u"%char) with 117. cbn [Z.eqb Pos.eqb orb]. rewrite H.
  replace ((55296 <=? r) && (r <=? 57343)) with false by lia.
  destruct l as [|a [|b [|c [|d l]]]]; try discriminate. cbn [unquote_from].
  unfold unhex4 in H. repeat match type of H with (match ?x with _ => _ end) = _ => destruct x; try discriminate end.
  injection H as _ <-. reflexivity.
Qed.

Lemma hexdigit_val v : 0 <= v < 16 -> b2z (hexdigit v) = if v <? 10 then 48 + v else 87 + v.
Proof.
  intros H. unfold hexdigit. destruct (v <? 10) eqn:E; rewrite b2z_z2b by lia; lia.
Qed.

Lemma unhex4_escape r l : 0 <= r < 65536 ->
  unhex4 (skipn 2 (u_escape r) ++ l) = Some (r, l).
Proof.
  intros H. unfold u_escape. cbn [skipn app unhex4].
  assert (X : forall v, 0 <= v < 16 ->
    (if (48 <=? b2z (hexdigit v)) && (b2z (hexdigit v) <=? 57) then Some (b2z (hexdigit v) - 48)
     else if (97 <=? b2z (hexdigit v)) && (b2z (hexdigit v) <=? 102) then Some (b2z (hexdigit v) - 97 + 10)
     else if (65 <=? b2z (hexdigit v)) && (b2z (hexdigit v) <=? 70) then Some (b2z (hexdigit v) - 65 + 10)
     else None) = Some v).
  { intros v Hv. rewrite (hexdigit_val v Hv). destruct (v <? 10) eqn:E.
    - replace ((48 <=? 48 + v) && (48 + v <=? 57)) with true by lia. f_equal. lia.
    - replace ((48 <=? 87 + v) && (87 + v <=? 57)) with false by lia.
      replace ((97 <=? 87 + v) && (87 + v <=? 102)) with true by lia. f_equal. lia. }
  rewrite !X by lia. f_equal. f_equal. lia.
Qed.

Lemma unquote_u_escape r l : scalar r -> r < 65536 ->
  unquote (u_escape r ++ l) = prep (utf8 r) (unquote l).
Proof.
  intros S H. rewrite <- encode_utf8 by exact S. unfold scalar in S.
  change (u_escape r ++ l) with (bslash :: "u"%char :: skipn 2 (u_escape r) ++ l).
  apply unquote_u; [apply unhex4_escape; lia|lia].
Qed.

Lemma unquote_quote_ascii b l : b2z b < 128 ->
  unquote (quote_ascii b ++ l) = prep [b] (unquote l).
Proof.
  intros H. pose proof (b2z_bound b). unfold quote_ascii.
  destruct ((b2z b =? 92) || (b2z b =? 34)) eqn:E1.
  { cbn [app]. apply unquote_esc. unfold simple_escape.
    replace ((b2z b =? 34) || (b2z b =? 92) || (b2z b =? 47) || (b2z b =? 39)) with true by lia. reflexivity. }
  destruct (b2z b =? 10) eqn:E2.
  { cbn [app]. replace b with (z2b 10) by (apply z2b_eq; cbn; lia). apply unquote_esc. reflexivity. }
  destruct (b2z b =? 13) eqn:E3.
  { cbn [app]. replace b with (z2b 13) by (apply z2b_eq; cbn; lia). apply unquote_esc. reflexivity. }
  destruct (b2z b =? 9) eqn:E4.
  { cbn [app]. replace b with (z2b 9) by (apply z2b_eq; cbn; lia). apply unquote_esc. reflexivity. }
  destruct ((b2z b <? 32) || (b2z b =? 60) || (b2z b =? 62) || (b2z b =? 38)) eqn:E5.
  { rewrite unquote_u_escape by (unfold scalar; lia).
    unfold utf8. replace (b2z b <=? 127) with true by lia. f_equal. f_equal. apply z2b_eq. lia. }
  cbn [app]. apply unquote_plain; lia.
Qed.

Lemma utf8_low r : 0 <= r < 128 -> utf8 r = [z2b r].
Proof. intros H. unfold utf8. replace (r <=? 127) with true by lia. reflexivity. Qed.

(** Reading back a quoted string gives the string with invalid bytes replaced. *)
Lemma unquote_quote s : exists s', repaired s s' /\ unquote (quote s) = Some s'.
Proof.
  assert (G : forall n s, (List.length s <= n)%nat -> exists s', repaired s s' /\ unquote (quote s) = Some s').
  { clear s. induction n as [|n IH]; intros s Hn.
    { destruct s; [|cbn in Hn; lia]. exists []. split; [constructor|reflexivity]. }
    destruct s as [|b l]; [exists []; split; [constructor|reflexivity]|].
    destruct (Z_lt_dec (b2z b) 128) as [L|L].
    - destruct (IH l ltac:(cbn in Hn; lia)) as (s' & R & U).
      exists (b :: s'). pose proof (b2z_bound b).
      assert (Eb : [b] = utf8 (b2z b)) by (rewrite utf8_low by lia; f_equal; symmetry; apply z2b_eq; lia).
      split.
      + change (b :: l) with ([b] ++ l). change (b :: s') with ([b] ++ s'). rewrite Eb. apply rep_rune; [unfold scalar; lia|exact R].
      + rewrite quote_low by lia. rewrite unquote_quote_ascii by lia. rewrite U. reflexivity.
    - assert (Hb : high b) by (unfold high; lia).
      destruct (decode_rune b l) as [r rest] eqn:D.
      destruct (decode_inv b l r rest Hb D) as [(-> & -> & NB)|(p & -> & Np & U & S & Hr)].
      + destruct (IH l ltac:(cbn in Hn; lia)) as (s' & R & U).
        exists (utf8 0xFFFD ++ s'). split; [apply rep_bad; assumption|].
        rewrite (quote_bad b l Hb D), unquote_u_escape by (unfold scalar, rune_error; lia).
        rewrite U. reflexivity.
      + destruct (IH rest) as (s' & R & Un).
        { cbn [List.length] in Hn. rewrite app_length in Hn. lia. }
        exists (utf8 r ++ s'). split.
        * rewrite app_comm_cons, <- U. apply rep_rune; assumption.
        * rewrite (quote_rune r b p rest S U Np Hb).
          destruct ((r =? 0x2028) || (r =? 0x2029)) eqn:E.
          -- rewrite unquote_u_escape by (exact S || lia). rewrite Un. reflexivity.
          -- cbn [app]. destruct (decode_utf8 r b p (quote rest) S U) as (D' & _ & _).
             rewrite (unquote_high b _ _ _ Hb D'), Un. rewrite encode_utf8 by exact S. reflexivity. }
  apply (G (List.length s)). lia.
Qed.

Lemma utf8_nonnil r : utf8 r <> [].
Proof. unfold utf8. repeat (destruct (_ <=? _); [discriminate|]). discriminate. Qed.

Lemma utf8_inj_app r1 r2 t1 t2 : scalar r1 -> scalar r2 -> utf8 r1 ++ t1 = utf8 r2 ++ t2 -> r1 = r2 /\ t1 = t2.
Proof.
  intros S1 S2 E. destruct (utf8 r1) as [|b p] eqn:U1; [destruct (utf8_nonnil r1 U1)|].
  destruct (utf8 r2) as [|b' p'] eqn:U2; [destruct (utf8_nonnil r2 U2)|].
  injection E as <- E. destruct (decode_utf8 _ _ _ t1 S1 U1) as (D1 & _).
  destruct (decode_utf8 _ _ _ t2 S2 U2) as (D2 & _). rewrite E in D1. rewrite D1 in D2.
  injection D2 as -> ->. split; reflexivity.
Qed.

Lemma repaired_valid_eq rs s' : Forall scalar rs -> repaired (flat_map utf8 rs) s' -> s' = flat_map utf8 rs.
Proof.
  intros H. revert s'. induction H as [|r rs Hr Hrs IH]; intros s' R; cbn [flat_map] in *.
  - inversion R as [E|r t t' S' R' E1 E2|]; [reflexivity|].
    exfalso. destruct (utf8 r) eqn:U; [exact (utf8_nonnil r U)|discriminate].
  - inversion R as [E|r' t t' S' R' E1 E2|b t t' NB R' E1 E2].
    + exfalso. destruct (utf8 r) eqn:U; [exact (utf8_nonnil r U)|discriminate].
    + destruct (utf8_inj_app _ _ _ _ S' Hr E1) as [-> ->]. rewrite (IH _ R'). reflexivity.
    + exfalso. exact (NB r (flat_map utf8 rs) Hr E1).
Qed.

Lemma unquote_quote_valid s : valid_utf8 s -> unquote (quote s) = Some s.
Proof.
  intros (rs & Hr & ->). destruct (unquote_quote (flat_map utf8 rs)) as (s' & R & U).
  rewrite U. f_equal. apply repaired_valid_eq; assumption.
Qed.

Lemma repaired_is_valid s s' : repaired s s' -> valid_utf8 s'.
Proof.
  intros H. induction H as [|r s s' Hr _ (rs & F & ->)|b s s' _ _ (rs & F & ->)].
  - exists []. split; constructor.
  - exists (r :: rs). split; [constructor; assumption|reflexivity].
  - exists (0xFFFD :: rs). split; [constructor; [unfold scalar; lia|assumption]|reflexivity].
Qed.

(** ** Quoted strings are string literals *)
Lemma hexdigit_hex v : 0 <= v < 16 -> hex (hexdigit v).
Proof.
  intros H. assert (E : forallb (fun n => if in_dec ascii_dec (hexdigit (Z.of_nat n)) (str_bytes "0123456789abcdefABCDEF") then true else false) (seq 0 16) = true)
    by (vm_compute; reflexivity).
  rewrite forallb_forall in E. specialize (E (Z.to_nat v)). rewrite in_seq in E. specialize (E ltac:(lia)).
  rewrite Z2Nat.id in E by lia. unfold hex. destruct (in_dec _ _ _); [assumption|discriminate].
Qed.

Lemma body_u_escape r l : string_body l -> string_body (u_escape r ++ l).
Proof.
  intros H. unfold u_escape. cbn [app]. apply sb_u; try (apply hexdigit_hex; lia). exact H.
Qed.

Lemma body_high p l : Forall high p -> string_body l -> string_body (p ++ l).
Proof.
  intros H Hl. induction H as [|b p Hb Hp IH]; [exact Hl|]. cbn [app]. unfold high in Hb.
  apply sb_char; [lia..|exact IH].
Qed.

Lemma cont_high b : cont b = true -> high b.
Proof. unfold cont, in_range, high. lia. Qed.

Lemma quote_body s : string_body (quote s).
Proof.
  assert (G : forall n s, (List.length s <= n)%nat -> string_body (quote s)).
  { clear s. induction n as [|n IH]; intros s Hn; [destruct s; [constructor|cbn in Hn; lia]|].
    destruct s as [|b l]; [constructor|].
    destruct (Z_lt_dec (b2z b) 128) as [L|L].
    - specialize (IH l ltac:(cbn in Hn; lia)). rewrite quote_low by lia. unfold quote_ascii.
      destruct ((b2z b =? 92) || (b2z b =? 34)) eqn:E1.
      { cbn [app]. apply sb_esc; [|exact IH]. cbn [In].
        assert (K : b2z b = 34 \/ b2z b = 92) by lia.
        destruct K as [K|K]; [left|right; left]; apply z2b_eq; rewrite K; reflexivity. }
      destruct (b2z b =? 10); [apply (sb_esc "n"%char); [cbn; tauto|exact IH]|].
      destruct (b2z b =? 13); [apply (sb_esc "r"%char); [cbn; tauto|exact IH]|].
      destruct (b2z b =? 9); [apply (sb_esc "t"%char); [cbn; tauto|exact IH]|].
      destruct ((b2z b <? 32) || _ || _ || _) eqn:E; [apply body_u_escape; exact IH|].
      cbn [app]. apply sb_char; [lia..|exact IH].
    - assert (Hb : high b) by (unfold high; lia).
      destruct (decode_rune b l) as [r rest] eqn:D.
      destruct (decode_inv b l r rest Hb D) as [(-> & -> & NB)|(p & -> & Np & U & S & Hr)].
      + rewrite (quote_bad b l Hb D). apply body_u_escape. apply IH. cbn in Hn; lia.
      + rewrite (quote_rune r b p rest S U Np Hb).
        assert (IHr : string_body (quote rest)).
        { apply IH. cbn [List.length] in Hn. rewrite app_length in Hn. lia. }
        destruct ((r =? 0x2028) || (r =? 0x2029)); [apply body_u_escape; exact IHr|].
        apply body_high; [|exact IHr]. constructor; [exact Hb|].
        destruct (decode_utf8 r b p [] S U) as (_ & _ & F). eapply Forall_impl; [|exact F]. apply cont_high. }
  apply (G (List.length s)). lia.
Qed.

(** ** HTML escaping keeps literals well formed and keeps their meaning *)
Lemma sb_inv b l : string_body (b :: l) ->
  (32 <= b2z b /\ b2z b <> 34 /\ b2z b <> 92 /\ string_body l) \/
  (b = z2b 92 /\ exists e l', l = e :: l' /\ In e (z2b 34 :: z2b 92 :: str_bytes "/bfnrt") /\ string_body l') \/
  (b = z2b 92 /\ exists h1 h2 h3 h4 l', l = "u"%char :: h1 :: h2 :: h3 :: h4 :: l' /\
     hex h1 /\ hex h2 /\ hex h3 /\ hex h4 /\ string_body l').
Proof.
  intros H. inversion H; subst.
  - left. tauto.
  - right; left. split; [reflexivity|]. eexists _, _. split; [reflexivity|]. tauto.
  - right; right. split; [reflexivity|]. do 5 eexists. split; [reflexivity|]. tauto.
Qed.

Lemma sb_high b l : high b -> string_body (b :: l) -> string_body l.
Proof.
  intros Hb H. destruct (sb_inv b l H) as [(_ & _ & _ & S)|[(-> & _)|(-> & _)]]; [exact S|..];
    unfold high in Hb; vm_compute in Hb; destruct Hb; reflexivity.
Qed.
Lemma sb_high_app p l : Forall high p -> string_body (p ++ l) -> string_body l.
Proof.
  intros H. induction H as [|b p Hb Hp IH]; [tauto|]. intros S. apply IH. exact (sb_high b _ Hb S).
Qed.

Definition special (b : byte) : bool := (b2z b =? 60) || (b2z b =? 62) || (b2z b =? 38).
Lemma html_special b l : special b = true -> html_escape (b :: l) = u_escape (b2z b) ++ html_escape l.
Proof. unfold special. intros H. cbn [html_escape]. rewrite H. reflexivity. Qed.
Lemma html_not_e2 b l : special b = false -> b2z b <> 0xE2 -> html_escape (b :: l) = b :: html_escape l.
Proof.
  unfold special. intros H N. cbn [html_escape]. rewrite H.
  destruct l as [|c [|d l]]; try reflexivity. replace (b2z b =? 226) with false by lia. reflexivity.
Qed.
Lemma html_e2 b l : b2z b = 0xE2 ->
  (exists c d l', l = c :: d :: l' /\ b2z c = 0x80 /\ (b2z d = 0xA8 \/ b2z d = 0xA9) /\
     html_escape (b :: l) = u_escape (0x2000 + b2z d - 0x80) ++ html_escape l') \/
  html_escape (b :: l) = b :: html_escape l.
Proof.
  intros E. cbn [html_escape]. rewrite E. cbn [Z.eqb Pos.eqb orb].
  destruct l as [|c [|d l]]; [right; reflexivity..|]. cbn [andb].
  destruct ((b2z c =? 128) && ((b2z d =? 168) || (b2z d =? 169))) eqn:K; [|right; reflexivity].
  left. exists c, d, l. split; [reflexivity|]. split; [lia|]. split; [lia|]. reflexivity.
Qed.
Lemma cont_plain b : cont b = true -> special b = false /\ b2z b <> 0xE2.
Proof. unfold cont, in_range, special. lia. Qed.
Lemma html_cont p l : Forall (fun c => cont c = true) p -> html_escape (p ++ l) = p ++ html_escape l.
Proof.
  intros H. induction H as [|b p Hb Hp IH]; [reflexivity|]. cbn [app].
  destruct (cont_plain b Hb). rewrite html_not_e2, IH by assumption. reflexivity.
Qed.
Lemma html_prefix p l x : Forall (fun c => cont c = true) p -> html_escape l = p ++ x ->
  exists y, l = p ++ y /\ x = html_escape y.
Proof.
  intros H. revert l. induction H as [|b p Hb Hp IH]; intros l E; [exists l; split; [reflexivity|symmetry; exact E]|].
  assert (Nb : b <> bslash) by (intros ->; vm_compute in Hb; discriminate).
  destruct l as [|a l]; [discriminate|].
  destruct (special a) eqn:Sa.
  { rewrite html_special in E by exact Sa. unfold u_escape in E. cbn [app] in E. apply cons_inj in E. destruct E. congruence. }
  destruct (Z.eq_dec (b2z a) 0xE2) as [Ea|Ea].
  { destruct (html_e2 a l Ea) as [(c & d & l' & _ & _ & _ & X)|X]; rewrite X in E.
    - unfold u_escape in E. cbn [app] in E. apply cons_inj in E. destruct E. congruence.
    - cbn [app] in E. apply cons_inj in E. destruct E as [-> E]. destruct (IH l E) as (y & -> & ->).
      exists y. split; reflexivity. }
  rewrite html_not_e2 in E by assumption. cbn [app] in E. apply cons_inj in E.
  destruct E as [-> E]. destruct (IH l E) as (y & -> & ->). exists y. split; reflexivity.
Qed.

Lemma html_decode b l r rest : high b -> decode_rune b l = (r, rest) ->
  decode_rune b (html_escape l) = (r, html_escape rest).
Proof.
  intros Hb D. destruct (decode_inv b l r rest Hb D) as [(-> & -> & NB)|(p & -> & _ & U & S & _)].
  - destruct (decode_rune b (html_escape l)) as [r' rest'] eqn:D'.
    destruct (decode_inv _ _ _ _ Hb D') as [(-> & -> & _)|(p & E & _ & U & S & _)]; [reflexivity|].
    destruct (decode_utf8 r' b p [] S U) as (_ & _ & F).
    destruct (html_prefix p l rest' F E) as (y & -> & _). exfalso. apply (NB r' y S). rewrite U. reflexivity.
  - destruct (decode_utf8 r b p (html_escape rest) S U) as (D' & _ & F).
    rewrite (html_cont p rest F). exact D'.
Qed.

Lemma unquote_u_gen r l l4 : unhex4 l = Some (r, l4) ->
  unquote (bslash :: "u"%char :: l) =
    if (0xD800 <=? r) && (r <=? 0xDFFF) then
      match getu4 l4 with
      | Some (r1, l10) =>
          if (r <? 0xDC00) && (0xDC00 <=? r1) && (r1 <=? 0xDFFF)
          then prep (encode_rune ((r - 0xD800) * 1024 + (r1 - 0xDC00) + 0x10000)) (unquote l10)
          else prep (encode_rune rune_error) (unquote l4)
      | None => prep (encode_rune rune_error) (unquote l4)
      end
    else prep (encode_rune r) (unquote l4).
Proof.
  intros H. unfold unquote. cbn [unquote_from]. change (Ascii.eqb bslash bslash) with true. cbv iota.
  change (b2z "u"%char) with 117. cbn [Z.eqb Pos.eqb orb]. rewrite H.
  assert (E : l4 = skipn 4 l).
  { destruct l as [|a [|b [|c [|d l]]]]; try discriminate. unfold unhex4 in H.
    repeat match type of H with (match ?x with _ => _ end) = _ => destruct x; try discriminate end.
    injection H as _ <-. reflexivity. }
  assert (E5 : unquote_from 4 l = unquote_from 0 l4).
  { rewrite unquote_from_skip, E. reflexivity. }
  rewrite !E5. destruct ((55296 <=? r) && (r <=? 57343)); [|reflexivity].
  destruct (getu4 l4) as [[r1 l10]|] eqn:G; [|reflexivity].
  destruct ((r <? 56320) && (56320 <=? r1) && (r1 <=? 57343)); [|reflexivity].
  assert (E11 : unquote_from 10 l = unquote_from 0 l10).
  { rewrite unquote_from_skip. f_equal.
    destruct l as [|a1 [|b1 [|c1 [|d1 l]]]]; try discriminate. cbn [skipn] in *. subst l4.
    unfold getu4 in G. destruct l as [|q [|u l]]; try discriminate.
    destruct (_ && _); [|discriminate]. unfold unhex4 in G.
    destruct l as [|a [|b [|c [|d l]]]]; try discriminate.
    repeat match type of G with (match ?x with _ => _ end) = _ => destruct x; try discriminate end.
    injection G as _ <-. reflexivity. }
  rewrite E11. reflexivity.
Qed.

Lemma hex_ascii b : hex b -> 32 <= b2z b < 128 /\ special b = false /\ b2z b <> 0xE2.
Proof.
  unfold hex. intros H. apply In_nth with (d := "0"%char) in H. destruct H as (n & Hn & <-).
  do 22 (destruct n; [vm_compute; intuition congruence|]). cbn in Hn. lia.
Qed.
Lemma hex_unhex h1 h2 h3 h4 : hex h1 -> hex h2 -> hex h3 -> hex h4 ->
  exists r, forall l, unhex4 (h1 :: h2 :: h3 :: h4 :: l) = Some (r, l).
Proof.
  intros H1 H2 H3 H4. unfold unhex4. cbv zeta.
  assert (X : forall b, hex b -> exists v,
   (if (48 <=? b2z b) && (b2z b <=? 57) then Some (b2z b - 48)
    else if (97 <=? b2z b) && (b2z b <=? 102) then Some (b2z b - 97 + 10)
    else if (65 <=? b2z b) && (b2z b <=? 70) then Some (b2z b - 65 + 10) else None) = Some v).
  { intros b H. unfold hex in H. apply In_nth with (d := "0"%char) in H. destruct H as (n & Hn & <-).
    do 22 (destruct n; [eexists; vm_compute; reflexivity|]). cbn in Hn. lia. }
  destruct (X h1 H1) as (v1 & ->). destruct (X h2 H2) as (v2 & ->). destruct (X h3 H3) as (v3 & ->).
  destruct (X h4 H4) as (v4 & ->). eexists. reflexivity.
Qed.

Lemma html_u h1 h2 h3 h4 l : hex h1 -> hex h2 -> hex h3 -> hex h4 ->
  html_escape (z2b 92 :: "u"%char :: h1 :: h2 :: h3 :: h4 :: l) =
  z2b 92 :: "u"%char :: h1 :: h2 :: h3 :: h4 :: html_escape l.
Proof.
  intros H1 H2 H3 H4. destruct (hex_ascii h1 H1) as (_ & ? & ?). destruct (hex_ascii h2 H2) as (_ & ? & ?).
  destruct (hex_ascii h3 H3) as (_ & ? & ?). destruct (hex_ascii h4 H4) as (_ & ? & ?).
  rewrite 6 html_not_e2 by (assumption || reflexivity || discriminate). reflexivity.
Qed.
Lemma esc_ascii e : In e (z2b 34 :: z2b 92 :: str_bytes "/bfnrt") ->
  special e = false /\ b2z e <> 0xE2 /\ (exists c, simple_escape e = Some c) /\ e <> "u"%char.
Proof.
  cbn. intros H. repeat destruct H as [<-|H]; try contradiction;
    (split; [reflexivity|]; split; [discriminate|]; split; [eexists; reflexivity|discriminate]).
Qed.
Lemma html_esc e l : In e (z2b 34 :: z2b 92 :: str_bytes "/bfnrt") ->
  html_escape (z2b 92 :: e :: l) = z2b 92 :: e :: html_escape l.
Proof.
  intros H. destruct (esc_ascii e H) as (? & ? & _).
  rewrite 2 html_not_e2 by (assumption || reflexivity || discriminate). reflexivity.
Qed.

(** A following escape, seen through the escaping. *)
Lemma getu4_html l : string_body l ->
  match getu4 l with
  | Some (r1, l10) => getu4 (html_escape l) = Some (r1, html_escape l10) /\ string_body l10 /\ (List.length l10 <= List.length l)%nat
  | None => getu4 (html_escape l) = None \/ exists r1 l10, getu4 (html_escape l) = Some (r1, l10) /\ r1 < 0xDC00
  end.
Proof.
  intros H. destruct l as [|b l]; [left; reflexivity|].
  destruct (sb_inv b l H) as [(B1 & B2 & B3 & S)|[(-> & e & l' & -> & He & S)|(-> & h1 & h2 & h3 & h4 & l' & -> & H1 & H2 & H3 & H4 & S)]].
  - assert (Nb : Ascii.eqb b bslash = false).
    { destruct (Ascii.eqb_spec b bslash) as [->|]; [exfalso; apply B3; reflexivity|reflexivity]. }
    replace (getu4 (b :: l)) with (@None (Z * bytes)) by (unfold getu4; destruct l; [reflexivity|rewrite Nb; reflexivity]).
    assert (P : forall l', getu4 (b :: l') = None) by (intros l'; unfold getu4; destruct l'; [reflexivity|rewrite Nb; reflexivity]).
    assert (E : forall r l', 0 <= r < 0xD800 -> exists r1 l10, getu4 (u_escape r ++ l') = Some (r1, l10) /\ r1 < 0xDC00).
    { intros r l' Hr. exists r, l'. split; [|lia].
      change (u_escape r ++ l') with (bslash :: "u"%char :: skipn 2 (u_escape r) ++ l'). cbn [getu4].
      change (Ascii.eqb bslash bslash && Ascii.eqb "u" "u") with true. cbv iota. apply unhex4_escape. lia. }
    destruct (special b) eqn:Sb.
    { right. rewrite html_special by exact Sb. apply E. unfold special in Sb. lia. }
    destruct (Z.eq_dec (b2z b) 0xE2) as [Eb|Eb]; [|left; rewrite html_not_e2 by assumption; apply P].
    destruct (html_e2 b l Eb) as [(c & d & l' & -> & _ & D & ->)| ->]; [right; apply E; lia|left; apply P].
  - destruct (esc_ascii e He) as (_ & _ & _ & Nu).
    assert (P : forall l', getu4 (z2b 92 :: e :: l') = None).
    { intros l0. unfold getu4. destruct (Ascii.eqb_spec e "u"%char); [contradiction|]. rewrite andb_false_r. reflexivity. }
    rewrite P. left. rewrite html_esc by exact He. apply P.
  - destruct (hex_unhex h1 h2 h3 h4 H1 H2 H3 H4) as (r & X). rewrite html_u by assumption.
    unfold getu4. change (Ascii.eqb (z2b 92) bslash && Ascii.eqb "u" "u") with true. cbv iota. rewrite !X.
    split; [reflexivity|]. split; [exact S|]. cbn [List.length]. lia.
Qed.

Lemma html_string l : string_body l -> string_body (html_escape l) /\ unquote (html_escape l) = unquote l.
Proof.
  assert (G : forall n l, (List.length l <= n)%nat -> string_body l ->
    string_body (html_escape l) /\ unquote (html_escape l) = unquote l).
  { clear l. induction n as [|n IH]; intros l Hn H.
    { destruct l; [split; [constructor|reflexivity]|cbn in Hn; lia]. }
    destruct l as [|b l]; [split; [constructor|reflexivity]|]. cbn [List.length] in Hn.
    destruct (sb_inv b l H) as [(B1 & B2 & B3 & S)|[(-> & e & l' & -> & He & S)|(-> & h1 & h2 & h3 & h4 & l' & -> & H1 & H2 & H3 & H4 & S)]].
    - pose proof (b2z_bound b) as Bb. destruct (IH l ltac:(lia) S) as [IH1 IH2].
      destruct (special b) eqn:Sb.
      { rewrite html_special by exact Sb. unfold special in Sb. split; [apply body_u_escape; exact IH1|].
        rewrite unquote_u_escape by (unfold scalar; lia). rewrite utf8_low by lia.
        rewrite (z2b_eq b (b2z b)) by lia. rewrite IH2. symmetry. apply unquote_plain; lia. }
      destruct (Z_lt_dec (b2z b) 128) as [L|L].
      { rewrite html_not_e2 by (assumption || lia). split; [apply sb_char; assumption|].
        rewrite !unquote_plain by lia. rewrite IH2. reflexivity. }
      assert (Hb : high b) by (unfold high; lia).
      assert (Plain : html_escape (b :: l) = b :: html_escape l ->
        string_body (html_escape (b :: l)) /\ unquote (html_escape (b :: l)) = unquote (b :: l)).
      { intros ->. split; [apply sb_char; assumption|].
        destruct (decode_rune b l) as [r rest] eqn:D.
        rewrite (unquote_high b l r rest Hb D), (unquote_high b _ r (html_escape rest) Hb (html_decode b l r rest Hb D)).
        f_equal. destruct (decode_inv b l r rest Hb D) as [(_ & -> & _)|(p & -> & _ & U & Sr & _)]; [exact IH2|].
        destruct (decode_utf8 r b p [] Sr U) as (_ & _ & F).
        apply IH; [rewrite app_length in Hn; lia|].
        apply (sb_high_app p); [eapply Forall_impl; [|exact F]; apply cont_high|exact S]. }
      destruct (Z.eq_dec (b2z b) 0xE2) as [Eb|Eb]; [|apply Plain; apply html_not_e2; assumption].
      destruct (html_e2 b l Eb) as [(c & d & l' & -> & Ec & Ed & ->)|X]; [|apply Plain; exact X].
      clear Plain. set (r := 0x2000 + b2z d - 128).
      assert (Sr : scalar r) by (unfold scalar, r; lia).
      assert (U : utf8 r = [b; c; d]).
      { assert (Er : r = 0x2028 /\ b2z d = 0xA8 \/ r = 0x2029 /\ b2z d = 0xA9) by lia.
        destruct Er as [[-> Ed']|[-> Ed']]; unfold utf8; cbn [Z.leb Z.compare Pos.compare Pos.compare_cont];
          (f_equal; [apply z2b_eq; rewrite Eb; reflexivity|]; f_equal; [apply z2b_eq; rewrite Ec; reflexivity|];
           f_equal; apply z2b_eq; rewrite Ed'; reflexivity). }
      assert (S' : string_body l').
      { apply (sb_high_app [c; d]); [|exact S]. constructor; [unfold high; lia|]. constructor; [unfold high; lia|constructor]. }
      destruct (IH l' ltac:(cbn [List.length] in Hn; lia) S') as [IH1' IH2'].
      split; [apply body_u_escape; exact IH1'|].
      rewrite unquote_u_escape by (exact Sr || lia). rewrite IH2'. symmetry.
      destruct (decode_utf8 r b [c; d] l' Sr U) as (D & _ & _).
      change (b :: c :: d :: l') with (b :: [c; d] ++ l'). rewrite (unquote_high b _ r l' Hb D), encode_utf8 by exact Sr. reflexivity.
    - destruct (IH l' ltac:(cbn [List.length] in Hn; lia) S) as [IH1 IH2]. rewrite html_esc by exact He.
      split; [apply sb_esc; assumption|]. destruct (esc_ascii e He) as (_ & _ & (c & X) & _).
      change (z2b 92) with bslash. rewrite !(unquote_esc e c) by exact X. rewrite IH2. reflexivity.
    - destruct (IH l' ltac:(cbn [List.length] in Hn; lia) S) as [IH1 IH2]. rewrite html_u by assumption.
      split; [apply sb_u; assumption|]. destruct (hex_unhex h1 h2 h3 h4 H1 H2 H3 H4) as (r & X).
      change (z2b 92) with bslash.
      rewrite (unquote_u_gen r _ _ (X (html_escape l'))), (unquote_u_gen r _ _ (X l')). rewrite IH2.
      destruct ((0xD800 <=? r) && (r <=? 0xDFFF)); [|reflexivity].
      pose proof (getu4_html l' S) as Gu. destruct (getu4 l') as [[r1 l10]|].
      + destruct Gu as (-> & S10 & L10). destruct (_ && _); [|reflexivity]. f_equal.
        apply IH; [cbn [List.length] in Hn; lia|exact S10].
      + destruct Gu as [-> |(r1 & l10 & -> & Hr)]; [reflexivity|].
        replace ((r <? 0xDC00) && (0xDC00 <=? r1) && (r1 <=? 0xDFFF)) with false by lia. reflexivity. }
  apply (G (List.length l)). lia.
Qed.

(** Escaping twice is escaping once. *)
Lemma html_hexdigit v l : 0 <= v < 16 -> html_escape (hexdigit v :: l) = hexdigit v :: html_escape l.
Proof. intros H. destruct (hex_ascii _ (hexdigit_hex v H)) as (_ & ? & ?). apply html_not_e2; assumption. Qed.
Lemma html_u_escape r l : html_escape (u_escape r ++ l) = u_escape r ++ html_escape l.
Proof.
  unfold u_escape. cbn [app]. apply html_u; apply hexdigit_hex; lia.
Qed.
Lemma html_idem l : html_escape (html_escape l) = html_escape l.
Proof.
  assert (G : forall n l, (List.length l <= n)%nat -> html_escape (html_escape l) = html_escape l).
  { clear l. induction n as [|n IH]; intros l Hn; [destruct l; [reflexivity|cbn in Hn; lia]|].
    destruct l as [|b l]; [reflexivity|]. cbn [List.length] in Hn.
    destruct (special b) eqn:Sb.
    { rewrite html_special by exact Sb. rewrite html_u_escape, IH by lia. reflexivity. }
    destruct (Z.eq_dec (b2z b) 0xE2) as [Eb|Eb].
    2:{ rewrite html_not_e2 by assumption. rewrite html_not_e2, IH by (assumption || lia). reflexivity. }
    destruct (html_e2 b l Eb) as [(c & d & l' & -> & _ & _ & ->)|X].
    { rewrite html_u_escape, IH by (cbn [List.length] in Hn; lia). reflexivity. }
    rewrite X. destruct (html_e2 b (html_escape l) Eb) as [(c & d & l' & E & Ec & Ed & _)|X2].
    - exfalso. destruct (html_prefix [c; d] l l') as (y & -> & _);
        [repeat constructor; unfold cont, in_range; lia|exact E|].
      assert (Y : html_escape (b :: [c; d] ++ y) = u_escape (0x2000 + b2z d - 0x80) ++ html_escape y).
      { cbn [app html_escape]. unfold special in Sb. rewrite Sb, Eb, Ec.
        replace ((b2z d =? 168) || (b2z d =? 169)) with true by lia. reflexivity. }
      rewrite Y in X. unfold u_escape in X. cbn [app] in X. apply cons_inj in X. destruct X as [X _].
      rewrite <- X in Eb. discriminate.
    - rewrite X2, IH by lia. reflexivity. }
  apply (G (List.length l)). lia.
Qed.

(** ** Trees *)
Section JsonInd.
Context (P : json -> Prop) (Hnull : P JNull) (Hbool : forall b, P (JBool b)) (Hnum : forall s, P (JNum s))
  (Hstr : forall s, P (JStr s)) (Harr : forall l, Forall P l -> P (JArr l))
  (Hobj : forall m, Forall (fun p => P (snd p)) m -> P (JObj m)).
Fixpoint json_ind' (j : json) : P j :=
  match j with
  | JNull => Hnull
  | JBool b => Hbool b
  | JNum s => Hnum s
  | JStr s => Hstr s
  | JArr l => Harr l ((fix go l := match l return Forall P l with
       | [] => Forall_nil _ | v :: l' => Forall_cons _ (json_ind' v) (go l') end) l)
  | JObj m => Hobj m ((fix go m := match m return Forall (fun p => P (snd p)) m with
       | [] => Forall_nil _ | p :: m' => Forall_cons _ (json_ind' (snd p)) (go m') end) m)
  end.
End JsonInd.

Lemma str_bytes_str l : str_bytes (bytes_str l) = l.
Proof. apply list_ascii_of_string_of_list_ascii. Qed.

Lemma html_wf j : forall n, wf_json n j -> wf_json n (html_json j).
Proof.
  induction j as [|b|s|s|l IH|m IH] using json_ind'; intros n W; try exact W.
  - inversion W as [| | |n' s' H| |]; subst. cbn [html_json]. constructor. unfold html_str. rewrite str_bytes_str.
    apply html_string. exact H.
  - inversion W as [| | | |n' l' H|]; subst. cbn [html_json]. constructor. clear W.
    induction l as [|v l IHl]; [constructor|]. cbn [map].
    constructor; [exact (Forall_inv IH n' (Forall_inv H))|exact (IHl (Forall_inv_tail IH) (Forall_inv_tail H))].
  - inversion W as [| | | | |n' m' H]; subst. cbn [html_json]. constructor. clear W.
    induction m as [|v l IHl]; [constructor|]. cbn [map].
    constructor; [|exact (IHl (Forall_inv_tail IH) (Forall_inv_tail H))].
    cbn [fst snd]. destruct (Forall_inv H) as [Hk Hv]. split; [|exact (Forall_inv IH n' Hv)].
    unfold html_str. rewrite str_bytes_str. apply html_string. exact Hk.
Qed.

Lemma html_json_idem j : html_json (html_json j) = html_json j.
Proof.
  induction j as [|b|s|s|l IH|m IH] using json_ind'; try reflexivity; cbn [html_json].
  - unfold html_str. rewrite str_bytes_str, html_idem. reflexivity.
  - f_equal. rewrite map_map. apply map_ext_Forall. exact IH.
  - f_equal. rewrite map_map. apply map_ext_Forall. eapply Forall_impl; [|exact IH].
    intros [k v] H. cbn [fst snd] in *. rewrite H. unfold html_str. rewrite str_bytes_str, html_idem. reflexivity.
Qed.

(** ** Printed trees are texts of the tree *)
Section PrintText.
Context (nl : nat -> bytes) (sp : bytes) (Hnl : forall d, ws (nl d)) (Hsp : ws sp).

Lemma print_arr d v l :
  print nl sp d (JArr (v :: l)) = "["%char :: (nl (S d) ++ print nl sp (S d) v
    ++ flat_map (fun v => ","%char :: nl (S d) ++ print nl sp (S d) v) l ++ nl d) ++ str_bytes "]".
Proof. cbn [print]. rewrite <- !app_assoc. reflexivity. Qed.
Lemma print_obj d k v m :
  print nl sp d (JObj ((k, v) :: m)) = "{"%char :: (nl (S d) ++ str_text k ++ ":"%char :: sp ++ print nl sp (S d) v
    ++ flat_map (fun p => ","%char :: nl (S d) ++ str_text (fst p) ++ ":"%char :: sp ++ print nl sp (S d) (snd p)) m
    ++ nl d) ++ str_bytes "}".
Proof.
  cbn [print]. f_equal. rewrite <- !app_assoc. f_equal. f_equal. rewrite <- app_comm_cons. f_equal.
  rewrite <- !app_assoc. reflexivity.
Qed.

Lemma print_text j : forall d, text_of j (print nl sp d j).
Proof.
  induction j as [|b|s|s|l IH|m IH] using json_ind'; intros d.
  - apply to_null.
  - destruct b; [apply to_true|apply to_false].
  - apply to_num.
  - apply to_str.
  - destruct l as [|v l]; [apply (to_arr [] []); constructor; constructor|].
    rewrite print_arr. apply to_arr. revert v IH.
    induction l as [|v2 l IHl]; intros v IH.
    + cbn [flat_map]. apply el_one; [apply Hnl|apply Hnl|exact (Forall_inv IH _)].
    + cbn [flat_map].
      pose proof (el_cons v v2 l (nl (S d)) (print nl sp (S d) v) [] _ (Hnl _) (Forall_nil _)
        (Forall_inv IH _) (IHl v2 (Forall_inv_tail IH))) as G.
      cbn [app] in G. cbn [app]. rewrite <- !app_assoc. exact G.
  - destruct m as [|[k v] m]; [apply (to_obj [] []); constructor; constructor|].
    rewrite print_obj. apply to_obj. revert k v IH.
    induction m as [|[k2 v2] m IHm]; intros k v IH.
    + cbn [flat_map]. apply (mb_one k v (nl (S d)) [] sp (nl d)); try apply Hnl; try exact Hsp; [constructor|exact (Forall_inv IH _)].
    + cbn [flat_map fst snd].
      pose proof (mb_cons k v (k2, v2) m (nl (S d)) [] sp [] (print nl sp (S d) v) _
        (Hnl _) (Forall_nil _) Hsp (Forall_nil _) (Forall_inv IH _) (IHm k2 v2 (Forall_inv_tail IH))) as G.
      cbn [app] in G. rewrite <- !app_assoc in G. unfold str_text in *. cbn [app] in *.
      rewrite <- !app_assoc in *. cbn [app] in *. rewrite <- !app_assoc in *. cbn [app] in *.
      rewrite <- !app_assoc in *. exact G.
Qed.
End PrintText.

Lemma ws_concat_repeat s n : ws s -> ws (List.concat (repeat s n)).
Proof.
  intros H. induction n; [constructor|]. cbn [repeat List.concat]. apply Forall_app. split; assumption.
Qed.
Lemma indent_ws prefix indent d : ws prefix -> ws indent -> ws (indent_nl prefix indent d).
Proof.
  intros Hp Hi. unfold indent_nl. constructor; [cbn; tauto|]. apply Forall_app. split; [exact Hp|].
  apply ws_concat_repeat. exact Hi.
Qed.
Lemma print_compact_text j : text_of j (print_compact j).
Proof. apply print_text; [intros; constructor|constructor]. Qed.
Lemma print_indent_text prefix indent j : ws prefix -> ws indent -> text_of j (print_indent prefix indent j).
Proof.
  intros Hp Hi. apply print_text; [intros d; apply indent_ws; assumption|].
  constructor; [cbn; tauto|constructor].
Qed.
