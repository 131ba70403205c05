(** Proofs about base64 and data URIs. *)
From Verif Require Import Base BaseFacts Types Doc Base64 SpecData.

Lemma b2z_bound b : 0 <= b2z b < 256.
Proof. unfold b2z. pose proof (N_ascii_bounded b). lia. Qed.

Lemma dec6_enc6 v : 0 <= v < 64 -> dec6 (enc6 v) = Some v.
Proof.
  intros H.
  assert (E : forallb (fun n => match dec6 (enc6 (Z.of_nat n)) with
                               | Some w => w =? Z.of_nat n | None => false end) (seq 0 64) = true)
    by (vm_compute; reflexivity).
  rewrite forallb_forall in E. specialize (E (Z.to_nat v)).
  rewrite in_seq in E. specialize (E ltac:(lia)). rewrite Z2Nat.id in E by lia.
  destruct (dec6 (enc6 v)) as [w|]; [|discriminate]. f_equal. lia.
Qed.

Lemma enc6_alphabet v : 0 <= v < 64 -> enc6 v = nth (Z.to_nat v) alphabet "="%char.
Proof.
  intros H.
  assert (E : forallb (fun n => Ascii.eqb (enc6 (Z.of_nat n)) (nth n alphabet "="%char)) (seq 0 64) = true)
    by (vm_compute; reflexivity).
  rewrite forallb_forall in E. specialize (E (Z.to_nat v)).
  rewrite in_seq in E. specialize (E ltac:(lia)). rewrite Z2Nat.id in E by lia.
  apply Ascii.eqb_eq. exact E.
Qed.

Lemma z2b_eq a v : v mod 256 = b2z a -> z2b v = a.
Proof.
  intros H. unfold z2b. rewrite H. unfold b2z. rewrite N2Z.id. apply ascii_N_embedding.
Qed.

Lemma b64_decode_encode l : b64_decode (b64_encode l) = Ok l.
Proof.
  unfold b64_decode.
  assert (G : forall n l, (List.length l <= n)%nat -> b64_loop [] (b64_encode l) = Ok l).
  { clear l. induction n as [|n IH]; intros l Hn.
    - destruct l; [reflexivity|cbn in Hn; lia].
    - destruct l as [|a [|b [|c l]]].
      + reflexivity.
      + pose proof (b2z_bound a). cbn [b64_encode b64_loop].
        rewrite !dec6_enc6 by lia. cbn.
        f_equal. f_equal. apply z2b_eq. lia.
      + pose proof (b2z_bound a). pose proof (b2z_bound b). cbn [b64_encode b64_loop].
        rewrite !dec6_enc6 by lia. cbn -[Z.div Z.modulo Z.mul].
        f_equal. f_equal; [|f_equal]; apply z2b_eq; lia.
      + pose proof (b2z_bound a). pose proof (b2z_bound b). pose proof (b2z_bound c).
        cbn [b64_encode b64_loop].
        rewrite !dec6_enc6 by lia. cbn [List.length app Nat.eqb].
        rewrite IH by (cbn in Hn; lia). cbn [bind quantum].
        f_equal. cbn [app]. f_equal; [|f_equal; [|f_equal]]; apply z2b_eq; lia. }
  apply (G (List.length l)). lia.
Qed.

Definition zbit (b : bool) : Z := if b then 1 else 0.

Lemma b2z_bits b0 b1 b2 b3 b4 b5 b6 b7 :
  b2z (Ascii b0 b1 b2 b3 b4 b5 b6 b7) =
  zbit b0 + 2 * zbit b1 + 4 * zbit b2 + 8 * zbit b3 + 16 * zbit b4 + 32 * zbit b5
  + 64 * zbit b6 + 128 * zbit b7.
Proof. destruct b0, b1, b2, b3, b4, b5, b6, b7; reflexivity. Qed.

Lemma bits_num6 x5 x4 x3 x2 x1 x0 :
  Z.of_nat (bits_num [x5; x4; x3; x2; x1; x0]) =
  32 * zbit x5 + 16 * zbit x4 + 8 * zbit x3 + 4 * zbit x2 + 2 * zbit x1 + zbit x0.
Proof. destruct x5, x4, x3, x2, x1, x0; reflexivity. Qed.

Lemma zbit_range b : 0 <= zbit b <= 1.
Proof. destruct b; cbn; lia. Qed.

Lemma enc6_sextet v x5 x4 x3 x2 x1 x0 :
  v = 32 * zbit x5 + 16 * zbit x4 + 8 * zbit x3 + 4 * zbit x2 + 2 * zbit x1 + zbit x0 ->
  enc6 v = sextet_char [x5; x4; x3; x2; x1; x0].
Proof.
  intros H. pose proof (bits_num6 x5 x4 x3 x2 x1 x0) as E.
  pose proof (zbit_range x5). pose proof (zbit_range x4). pose proof (zbit_range x3).
  pose proof (zbit_range x2). pose proof (zbit_range x1). pose proof (zbit_range x0).
  rewrite enc6_alphabet by lia. unfold sextet_char. f_equal. lia.
Qed.

Ltac bit_ranges :=
  repeat match goal with
  | |- context [zbit ?b] =>
      lazymatch goal with
      | H : 0 <= zbit b <= 1 |- _ => fail
      | _ => pose proof (zbit_range b)
      end
  end; repeat match goal with
  | |- context [zbit ?b] => let z := fresh "z" in set (z := zbit b) in *; clearbody z
  end.

Lemma b64_encode_text l : b64_encode l = base64_text l.
Proof.
  unfold base64_text.
  assert (G : forall n l, (List.length l <= n)%nat ->
     b64_encode l = map sextet_char (sextets (data_bits l)) ++
       repeat "="%char ((4 - List.length (map sextet_char (sextets (data_bits l))) mod 4) mod 4)%nat).
  { clear l. induction n as [|n IH]; intros l Hn.
    - destruct l; [reflexivity|cbn in Hn; lia].
    - destruct l as [|a [|b [|c l]]].
      + reflexivity.
      + destruct a as [a0 a1 a2 a3 a4 a5 a6 a7].
        cbn [b64_encode]. rewrite b2z_bits.
        cbn -[Z.div Z.modulo Z.mul Z.add enc6 sextet_char].
        f_equal; [|f_equal]; apply enc6_sextet; cbn [zbit]; bit_ranges; lia.
      + destruct a as [a0 a1 a2 a3 a4 a5 a6 a7], b as [b0 b1 b2 b3 b4 b5 b6 b7].
        cbn [b64_encode]. rewrite !b2z_bits.
        cbn -[Z.div Z.modulo Z.mul Z.add enc6 sextet_char].
        f_equal; [|f_equal; [|f_equal]]; apply enc6_sextet; cbn [zbit]; bit_ranges; lia.
      + assert (D : data_bits (a :: b :: c :: l) = byte_bits a ++ byte_bits b ++ byte_bits c ++ data_bits l)
          by (unfold data_bits; cbn [map List.concat]; rewrite <- ?app_assoc; reflexivity).
        rewrite D. clear D.
        destruct a as [a0 a1 a2 a3 a4 a5 a6 a7], b as [b0 b1 b2 b3 b4 b5 b6 b7], c as [c0 c1 c2 c3 c4 c5 c6 c7].
        cbn [b64_encode]. rewrite !b2z_bits.
        cbn [byte_bits app sextets map].
        rewrite (IH l) by (cbn in Hn; lia).
        set (t := map sextet_char (sextets (data_bits l))).
        cbn [app].
        f_equal; [|f_equal; [|f_equal; [|f_equal]]]; 
          try (apply enc6_sextet; cbn [zbit]; bit_ranges; lia).
        f_equal. f_equal. cbn [List.length]. 
        rewrite <- (Nat.mod_add (List.length t) 1 4) at 1 by lia.
        f_equal. f_equal. f_equal. lia. }
  apply (G (List.length l)). lia.
Qed.
