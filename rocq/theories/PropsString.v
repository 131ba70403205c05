(** Properties of JSON string literals: C65. *)
From Verif Require Import Base BaseFacts Types Doc F64 SpecText JsonText JsonStringProofs Codec SpecString CodecProofs MarshalProofs PropsJson PropsFile.

Definition hexv (x : byte) : option Z :=
  let v := b2z x in
  if (48 <=? v) && (v <=? 57) then Some (v - 48)
  else if (97 <=? v) && (v <=? 102) then Some (v - 97 + 10)
  else if (65 <=? v) && (v <=? 70) then Some (v - 65 + 10)
  else None.
Lemma hexv_digit b v : hexv b = Some v <-> digit_value b v.
Proof.
  split.
  - intros H. assert (K : hex b).
    { unfold hexv in H. cbv zeta in H.
      assert (B : b = z2b (b2z b)) by (symmetry; apply z2b_b2z). rewrite B. unfold hex.
      assert (C : 48 <= b2z b <= 57 \/ 97 <= b2z b <= 102 \/ 65 <= b2z b <= 70).
      { destruct ((48 <=? b2z b) && (b2z b <=? 57)) eqn:E1; [lia|]. destruct ((97 <=? b2z b) && (b2z b <=? 102)) eqn:E2; [lia|].
        destruct ((65 <=? b2z b) && (b2z b <=? 70)) eqn:E3; [lia|discriminate]. }
      clear H B. assert (G : forall lo k x, Z.of_nat k + lo = x -> (k < 10)%nat -> x = lo + Z.of_nat k) by lia.
      destruct C as [C|[C|C]].
      - assert (E : exists k, b2z b = 48 + Z.of_nat k /\ (k < 10)%nat) by (exists (Z.to_nat (b2z b - 48)); lia). destruct E as (k & -> & L).
        do 10 (destruct k; [vm_compute; tauto|]). lia.
      - assert (E : exists k, b2z b = 97 + Z.of_nat k /\ (k < 6)%nat) by (exists (Z.to_nat (b2z b - 97)); lia). destruct E as (k & -> & L).
        do 6 (destruct k; [vm_compute; tauto|]). lia.
      - assert (E : exists k, b2z b = 65 + Z.of_nat k /\ (k < 6)%nat) by (exists (Z.to_nat (b2z b - 65)); lia). destruct E as (k & -> & L).
        do 6 (destruct k; [vm_compute; tauto|]). lia. }
    unfold hex in K. apply In_nth with (d := "0"%char) in K. destruct K as (n & Hn & <-).
    do 22 (destruct n; [vm_compute in H; injection H as <-; split; [discriminate|]; first [left; reflexivity|right; reflexivity]|]). cbn in Hn. lia.
  - intros (N & H). assert (E : v = Z.of_nat (Z.to_nat v)) by lia. rewrite E. generalize (Z.to_nat v), H. clear. intros n H.
    do 16 (destruct n; [destruct H as [H|H]; injection H as <-; vm_compute; reflexivity|]). destruct H as [H|H]; cbn in H; destruct n; discriminate.
Qed.
Lemma unhex4_hexv a b c d l : unhex4 (a :: b :: c :: d :: l) =
  match hexv a, hexv b, hexv c, hexv d with Some x, Some y, Some z, Some w => Some (x * 4096 + y * 256 + z * 16 + w, l) | _, _, _, _ => None end.
Proof. reflexivity. Qed.
Lemma unhex4_unit ds u l : code_unit ds u -> unhex4 (ds ++ l) = Some (u, l) /\ 0 <= u < 65536.
Proof.
  intros (a & b & c & d & x & y & z & w & -> & Ha & Hb & Hc & Hd & ->). cbn [app].
  assert (R : forall h v, digit_value h v -> 0 <= v < 16).
  { intros h v H. apply hexv_digit in H. unfold hexv in H. cbv zeta in H. destruct (_ && _) eqn:E1 in H; [injection H; lia|].
    destruct (_ && _) eqn:E2 in H; [injection H; lia|]. destruct (_ && _) eqn:E3 in H; [injection H; lia|discriminate]. }
  pose proof (R _ _ Ha). pose proof (R _ _ Hb). pose proof (R _ _ Hc). pose proof (R _ _ Hd).
  apply hexv_digit in Ha, Hb, Hc, Hd. rewrite unhex4_hexv, Ha, Hb, Hc, Hd. split; [f_equal; f_equal; lia|lia].
Qed.
Lemma unhex4_inv l u l' : unhex4 l = Some (u, l') -> exists ds, l = ds ++ l' /\ code_unit ds u.
Proof.
  destruct l as [|a [|b [|c [|d l]]]]; try discriminate. rewrite unhex4_hexv.
  destruct (hexv a) as [x|] eqn:Ha; [|discriminate]. destruct (hexv b) as [y|] eqn:Hb; [|discriminate].
  destruct (hexv c) as [z|] eqn:Hc; [|discriminate]. destruct (hexv d) as [w|] eqn:Hd; [|discriminate].
  intros [= <- <-]. exists [a; b; c; d]. split; [reflexivity|]. apply hexv_digit in Ha, Hb, Hc, Hd.
  exists a, b, c, d, x, y, z, w. repeat (split; [assumption || reflexivity|]). lia.
Qed.
Lemma getu4_esc l u l' : getu4 l = Some (u, l') <-> exists ds, l = u_esc ds l' /\ code_unit ds u.
Proof.
  split.
  - unfold getu4. destruct l as [|a [|b l]]; try discriminate. destruct (Ascii.eqb_spec a bslash) as [->|]; [|discriminate].
    destruct (Ascii.eqb_spec b "u"%char) as [->|]; [|discriminate]. cbn [andb]. intros H. destruct (unhex4_inv _ _ _ H) as (ds & -> & C). exists ds. split; [reflexivity|exact C].
  - intros (ds & -> & C). unfold getu4, u_esc. change (Ascii.eqb (z2b 92) bslash && Ascii.eqb "u" "u") with true. cbv iota. exact (proj1 (unhex4_unit ds u l' C)).
Qed.

(** Every meaning is what unquoting gives. *)
Lemma denotes_unquote l rs : denotes l rs -> unquote l = Some (flat_map utf8 rs) /\ Forall scalar rs.
Proof.
  assert (FF : scalar 0xFFFD) by (unfold scalar; lia).
  induction 1 as [|r l rs S L N1 N2 _ [IH IS]|b l rs B NU _ [IH IS]|e r l rs I _ [IH IS]|ds u l rs C NH NL _ [IH IS]
    |ds1 ds2 hi lo l rs C1 C2 HH HL _ [IH IS]|ds u l rs C HS NP _ [IH IS]]; cbn [flat_map].
  - split; [reflexivity|constructor].
  - split; [|constructor; assumption]. destruct (utf8 r) as [|b p] eqn:U; [destruct (utf8_nonnil r U)|].
    destruct (Z_lt_ge_dec r 128) as [Lr|Lr].
    + rewrite utf8_low in U by (unfold scalar in S; lia). injection U as <- <-. cbn [app]. rewrite unquote_plain; rewrite ?b2z_z2b by lia; try lia. rewrite IH. reflexivity.
    + destruct (decode_utf8 r b p l S U) as (D & Hb & _). cbn [app]. rewrite (unquote_high b (p ++ l) r l (Hb ltac:(lia)) D), encode_utf8, U, IH by exact S. reflexivity.
  - split; [|constructor; assumption]. destruct (decode_rune b l) as [r rest] eqn:D.
    destruct (decode_inv b l r rest B D) as [(-> & -> & _)|(p & -> & _ & U & S & _)].
    + rewrite (unquote_high b l _ _ B D), IH. reflexivity.
    + destruct (NU r rest S). rewrite U. reflexivity.
  - assert (K : simple_escape e = Some (z2b r) /\ 0 <= r < 128).
    { cbn in I. repeat (destruct I as [I|I]; [injection I as <- <-; split; [reflexivity|lia]|]). destruct I. }
    destruct K as [K R]. split; [|constructor; [unfold scalar; lia|exact IS]]. change (z2b 92) with bslash. rewrite (unquote_esc e _ l K), IH, utf8_low by lia. reflexivity.
  - destruct (unhex4_unit ds u l C) as [E R]. assert (S : scalar u) by (unfold scalar, high_surrogate, low_surrogate in *; lia).
    split; [|constructor; assumption]. unfold u_esc. change (z2b 92) with bslash. rewrite (unquote_u _ _ _ E), encode_utf8, IH by (assumption || (unfold scalar in S; lia)). reflexivity.
  - destruct (unhex4_unit ds1 hi (u_esc ds2 l) C1) as [E R]. assert (G : getu4 (u_esc ds2 l) = Some (lo, l)) by (apply getu4_esc; exists ds2; split; [reflexivity|exact C2]).
    unfold high_surrogate, low_surrogate in *. assert (S : scalar (0x10000 + 0x400 * (hi - 0xD800) + (lo - 0xDC00))) by (unfold scalar; lia).
    split; [|constructor; assumption]. unfold u_esc at 1. change (z2b 92) with bslash. rewrite (unquote_u_gen _ _ _ E), G.
    replace ((0xD800 <=? hi) && (hi <=? 0xDFFF)) with true by lia. replace ((hi <? 0xDC00) && (0xDC00 <=? lo) && (lo <=? 0xDFFF)) with true by lia.
    replace ((hi - 0xD800) * 1024 + (lo - 0xDC00) + 0x10000) with (0x10000 + 0x400 * (hi - 0xD800) + (lo - 0xDC00)) by lia.
    rewrite encode_utf8, IH by exact S. reflexivity.
  - destruct (unhex4_unit ds u l C) as [E R]. unfold high_surrogate, low_surrogate in *. split; [|constructor; assumption].
    unfold u_esc. change (z2b 92) with bslash. rewrite (unquote_u_gen _ _ _ E). replace ((0xD800 <=? u) && (u <=? 0xDFFF)) with true by lia.
    destruct (getu4 l) as [[lo l']|] eqn:G; [|rewrite IH; reflexivity].
    apply getu4_esc in G. destruct G as (ds' & -> & C'). specialize (NP ds' lo l' eq_refl C').
    replace ((u <? 0xDC00) && (0xDC00 <=? lo) && (lo <=? 0xDFFF)) with false by lia. rewrite IH. reflexivity.
Qed.
(** Every literal has a meaning. *)
Lemma body_denotes l : string_body l -> exists rs, denotes l rs.
Proof.
  assert (G : forall n l, (List.length l <= n)%nat -> string_body l -> exists rs, denotes l rs).
  { clear l. induction n as [|n IH]; intros l Hn B; [destruct l; [exists []; constructor|cbn in Hn; lia]|].
    destruct l as [|b l]; [exists []; constructor|]. cbn [List.length] in Hn.
    destruct (sb_inv b l B) as [(B1 & B2 & B3 & Bl)|[(-> & e & l' & -> & I & Bl)|(-> & h1 & h2 & h3 & h4 & l' & -> & H1 & H2 & H3 & H4 & Bl)]].
    - destruct (Z_lt_ge_dec (b2z b) 128) as [L|L].
      + destruct (IH l ltac:(lia) Bl) as (rs & D). exists (b2z b :: rs). pose proof (b2z_range b).
        replace (b :: l) with (utf8 (b2z b) ++ l) by (rewrite utf8_low, z2b_b2z by lia; reflexivity). apply dn_char; try assumption. unfold scalar. lia.
      + destruct (decode_rune b l) as [r rest] eqn:D. destruct (decode_inv b l r rest ltac:(unfold high; lia) D) as [(-> & -> & NU)|(p & -> & _ & U & S & L')].
        * destruct (IH l ltac:(lia) Bl) as (rs & Dl). exists (0xFFFD :: rs). apply dn_bad; [lia|exact NU|exact Dl].
        * assert (HP : Forall high p). { destruct (decode_utf8 r b p rest S U) as (_ & _ & Fc). eapply Forall_impl; [|exact Fc]. apply cont_high. }
          destruct (IH rest ltac:(rewrite app_length in Hn; lia) (sb_high_app p rest HP Bl)) as (rs & Dr). exists (r :: rs).
          replace (b :: p ++ rest) with (utf8 r ++ rest) by (rewrite U; reflexivity). apply dn_char; [exact S|lia|lia|lia|exact Dr].
    - cbn [List.length] in Hn. destruct (IH l' ltac:(lia) Bl) as (rs & D).
      assert (E : exists r, In (e, r) escapes). { cbn in I. repeat (destruct I as [<-|I]; [eexists; cbn; tauto|]). destruct I. }
      destruct E as (r & E). exists (r :: rs). apply dn_esc; assumption.
    - cbn [List.length] in Hn. destruct (hex_unhex h1 h2 h3 h4 H1 H2 H3 H4) as (u & Hu).
      assert (C : code_unit [h1; h2; h3; h4] u).
      { destruct (unhex4_inv _ _ _ (Hu [])) as (ds & E & C). rewrite app_nil_r in E. rewrite E. exact C. }
      change (z2b 92 :: "u"%char :: h1 :: h2 :: h3 :: h4 :: l') with (u_esc [h1; h2; h3; h4] l').
      assert (DS : (high_surrogate u \/ low_surrogate u) \/ ~ high_surrogate u /\ ~ low_surrogate u) by (unfold high_surrogate, low_surrogate; lia).
      destruct DS as [DS|[N1 N2]].
      + assert (LO : (exists ds lo t, l' = u_esc ds t /\ code_unit ds lo /\ high_surrogate u /\ low_surrogate lo) \/
          (forall ds' lo t, l' = u_esc ds' t -> code_unit ds' lo -> high_surrogate u -> ~ low_surrogate lo)).
        { destruct (getu4 l') as [[lo t]|] eqn:Gt.
          - apply getu4_esc in Gt as K. destruct K as (ds & E & Cd).
            assert (Q : (high_surrogate u /\ low_surrogate lo) \/ ~ (high_surrogate u /\ low_surrogate lo)) by (unfold high_surrogate, low_surrogate; lia).
            destruct Q as [Q|Q]; [left; exists ds, lo, t; tauto|]. right. intros ds' lo' t' E' C' HU HL. apply Q. split; [exact HU|].
            assert (G2 : getu4 l' = Some (lo', t')) by (apply getu4_esc; exists ds'; split; assumption). rewrite Gt in G2. injection G2 as -> ->. exact HL.
          - right. intros ds' lo' t' E' C' HU HL. assert (G2 : getu4 l' = Some (lo', t')) by (apply getu4_esc; exists ds'; split; assumption). congruence. }
        destruct LO as [(ds & lo & t & -> & Cd & HU & HL)|NP].
        * assert (Bt : string_body t). { clear -Bl Cd. destruct Cd as (a & b & c & d & x & y & z & w & -> & _). unfold u_esc in Bl. cbn [app] in Bl.
            destruct (sb_inv _ _ Bl) as [(_ & _ & N & _)|[(_ & e & l' & E & I & _)|(_ & k1 & k2 & k3 & k4 & l' & E & _ & _ & _ & _ & S)]].
            - destruct N. reflexivity.
            - injection E as <- _. cbn in I. repeat (destruct I as [I|I]; [discriminate I|]). destruct I.
            - injection E as _ _ _ _ ->. exact S. }
          destruct (IH t) as (rs & D); [|exact Bt|].
          { unfold u_esc in Hn. cbn [List.length] in Hn. rewrite app_length in Hn. lia. }
          eexists. apply (dn_pair [h1; h2; h3; h4] ds u lo t rs); assumption.
        * destruct (IH l' ltac:(lia) Bl) as (rs & D). exists (0xFFFD :: rs). apply (dn_lone _ u); assumption.
      + destruct (IH l' ltac:(lia) Bl) as (rs & D). exists (u :: rs). apply dn_unit; assumption. }
  apply (G (List.length l) l). lia.
Qed.
Lemma flat_utf8_inj rs1 : forall rs2, Forall scalar rs1 -> Forall scalar rs2 -> flat_map utf8 rs1 = flat_map utf8 rs2 -> rs1 = rs2.
Proof.
  induction rs1 as [|r1 rs1 IH]; intros [|r2 rs2] S1 S2 E; cbn [flat_map] in E; [reflexivity| | |].
  - symmetry in E. apply app_eq_nil in E. destruct (utf8_nonnil r2 (proj1 E)).
  - apply app_eq_nil in E. destruct (utf8_nonnil r1 (proj1 E)).
  - destruct (utf8_inj_app r1 r2 _ _ (Forall_inv S1) (Forall_inv S2) E) as [-> E2]. f_equal. apply IH; [exact (Forall_inv_tail S1)|exact (Forall_inv_tail S2)|exact E2].
Qed.

(** ** C65 *)
(** A string field is decoded to the UTF-8 form of what the literal stands
    for, and each literal stands for exactly one sequence. *)
Theorem C65_decoded raw old : string_body (str_bytes raw) ->
  exists rs, denotes (str_bytes raw) rs /\ Forall scalar rs /\ (forall rs', denotes (str_bytes raw) rs' -> rs' = rs) /\
    dec c_str old (JStr raw) = Ok (bytes_str (flat_map utf8 rs)).
Proof.
  intros B. destruct (body_denotes _ B) as (rs & D). destruct (denotes_unquote _ _ D) as [U S]. exists rs. split; [exact D|]. split; [exact S|]. split.
  - intros rs' D'. destruct (denotes_unquote _ _ D') as [U' S']. apply flat_utf8_inj; [exact S'|exact S|]. congruence.
  - cbn. unfold unquote_str. rewrite U. reflexivity.
Qed.
Print Assumptions C65_decoded.
(** A string field is encoded as a literal that stands for the field's text. *)
Theorem C65_encoded rs : Forall scalar rs ->
  exists raw, enc c_str (bytes_str (flat_map utf8 rs)) = Ok (JStr raw) /\ string_body (str_bytes raw) /\ denotes (str_bytes raw) rs.
Proof.
  intros S. exists (quote_str (bytes_str (flat_map utf8 rs))). split; [reflexivity|]. pose proof (quote_str_body (bytes_str (flat_map utf8 rs))) as B. split; [exact B|].
  destruct (body_denotes _ B) as (rs' & D). destruct (denotes_unquote _ _ D) as [U S'].
  assert (E : rs' = rs).
  { apply flat_utf8_inj; [exact S'|exact S|]. unfold quote_str in U. rewrite !str_bytes_str in U. rewrite unquote_quote_valid in U; [congruence|]. exists rs. split; [exact S|reflexivity]. }
  rewrite E in D. exact D.
Qed.
Print Assumptions C65_encoded.
(** A surrogate pair, a line feed and an e with acute accent; a lone surrogate. *)
Definition bs_text (s : string) : string := bytes_str (map (fun c => if Ascii.eqb c "^"%char then z2b 92 else c) (str_bytes s)).
Example C65_example :
  denotes (str_bytes (bs_text "^uD83d^ude00^n^u00e9A")) [0x1F600; 10; 0xE9; 65] /\
  dec c_str ""%string (JStr (bs_text "^uD83d^ude00^n^u00e9A")) = Ok (bytes_str (map z2b [0xF0; 0x9F; 0x98; 0x80; 10; 0xC3; 0xA9; 65])) /\
  denotes (str_bytes (bs_text "^udc00^ud800x")) [0xFFFD; 0xFFFD; 120] /\
  enc c_str (bytes_str (map z2b [0xF0; 0x9F; 0x98; 0x80; 34])) = Ok (JStr (bytes_str (map z2b [0xF0; 0x9F; 0x98; 0x80; 92; 34]))).
Proof.
  assert (G : forall raw rs, string_body raw -> Forall scalar rs -> unquote raw = Some (flat_map utf8 rs) -> denotes raw rs).
  { intros raw rs B S U. destruct (body_denotes _ B) as (rs' & D). destruct (denotes_unquote _ _ D) as [U' S'].
    rewrite <- (flat_utf8_inj rs' rs S' S); [exact D|]. congruence. }
  assert (H : forall b, In b (str_bytes "0123456789abcdefABCDEF") -> hex b) by (intros b I; exact I).
  split; [|split; [vm_compute; reflexivity|split; [|vm_compute; reflexivity]]]; apply G.
  all: try (vm_compute; reflexivity).
  all: try (repeat (apply Forall_cons; [unfold scalar; lia|]); apply Forall_nil).
  - cbn. apply sb_u; try (apply H; cbn; tauto). apply sb_u; try (apply H; cbn; tauto). apply sb_esc; [cbn; tauto|]. apply sb_u; try (apply H; cbn; tauto).
    apply sb_char; [vm_compute; discriminate..|constructor].
  - cbn. apply sb_u; try (apply H; cbn; tauto). apply sb_u; try (apply H; cbn; tauto). apply sb_char; [vm_compute; discriminate..|constructor].
Qed.
