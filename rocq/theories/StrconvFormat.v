(** Formatting in [Strconv]: the text of a float64 is a JSON number whose
    digits are those of [shortest]. *)
From Coq Require Import QArith Qabs.
From Verif Require Import Base BaseFacts F64 SpecText SpecJson JsonText JsonTextProofs Codec CodecProofs Strconv StrconvRound StrconvShort SpecDecimal StrconvValue StrconvText.
Local Open Scope Z_scope.

(** ** Exponents *)
Lemma digits_S f n : digits (S f) n = (if n / 10 =? 0 then [] else digits f (n / 10)) ++ [z2b (48 + n mod 10)].
Proof. reflexivity. Qed.
Lemma clean_long body s a b c : b2z s <> 101 -> clean_exp (body ++ ["e"%char; s; a; b; c]) = body ++ ["e"%char; s; a; b; c].
Proof.
  intros H. unfold clean_exp. rewrite rev_app_distr. cbn [rev app]. replace (b2z s =? 101) with false by lia. reflexivity.
Qed.
Lemma clean_two body s a b : b2z a <> 48 -> clean_exp (body ++ ["e"%char; s; a; b]) = body ++ ["e"%char; s; a; b].
Proof.
  intros H. unfold clean_exp. rewrite rev_app_distr. cbn [rev app]. replace (b2z a =? 48) with false by lia. rewrite andb_false_r. reflexivity.
Qed.
Lemma clean_pad body s b : b2z s = 45 \/ b2z s = 43 -> clean_exp (body ++ ["e"%char; s; "0"%char; b]) = body ++ ["e"%char; s; b].
Proof.
  intros H. unfold clean_exp. rewrite rev_app_distr. cbn [rev app].
  replace ((b2z "e"%char =? 101) && ((b2z s =? 45) || (b2z s =? 43)) && (b2z "0"%char =? 48)) with true.
  - rewrite rev_involutive, <- !app_assoc. reflexivity.
  - destruct H as [H|H]; rewrite H; reflexivity.
Qed.
Lemma clean_exp_ok body s e : 0 <= e < 1000 -> b2z s = 45 \/ b2z s = 43 ->
  exists t, clean_exp (body ++ "e"%char :: s :: (if e <? 10 then str_bytes "0" else []) ++ digits 20 e) = body ++ "e"%char :: s :: t /\
    t <> [] /\ Forall digit t /\ digits_val t = e.
Proof.
  intros He Hs.
  destruct (digits_ok 20 e) as (V & _ & F & _); [split; [lia|]; transitivity 1000; [lia|reflexivity]|lia|].
  assert (Z : digits 20 e <> []) by (rewrite digits_S; destruct (if e / 10 =? 0 then [] else digits 19 (e / 10)); discriminate).
  destruct (e <? 10) eqn:C1.
  - exists (digits 20 e). split; [|split; [exact Z|split; [exact F|exact V]]].
    rewrite digits_S. replace (e / 10 =? 0) with true by lia. cbn [app str_bytes list_ascii_of_string]. apply clean_pad. exact Hs.
  - exists (digits 20 e). split; [|split; [exact Z|split; [exact F|exact V]]]. cbn [app].
    rewrite digits_S. replace (e / 10 =? 0) with false by lia. rewrite digits_S.
    destruct (e / 10 / 10 =? 0) eqn:C2.
    + cbn [app]. apply clean_two. rewrite digit_b2z by lia. lia.
    + rewrite digits_S. replace (e / 10 / 10 / 10 =? 0) with true by lia. cbn [app]. apply clean_long. lia.
Qed.

(** ** The two forms *)
Lemma Forall_firstn {A} (P : A -> Prop) n : forall l, Forall P l -> Forall P (firstn n l).
Proof. induction n as [|n IH]; intros l H; [constructor|]. destruct H; [constructor|]. cbn [firstn]. constructor; [assumption|]. apply IH. assumption. Qed.
Lemma Forall_skipn {A} (P : A -> Prop) n : forall l, Forall P l -> Forall P (skipn n l).
Proof. induction n as [|n IH]; intros l H; [exact H|]. destruct H; [constructor|]. cbn [skipn]. apply IH. assumption. Qed.

Definition leads (ds : bytes) : Prop := exists b t, ds = b :: t /\ 49 <= b2z b <= 57 /\ Forall digit t.
Lemma leads_digits ds : leads ds -> Forall digit ds.
Proof. intros (b & t & -> & Hb & Ht). constructor; [unfold digit; lia|exact Ht]. Qed.
Lemma leads_app ds r : leads ds -> Forall digit r -> leads (ds ++ r).
Proof. intros (b & t & -> & Hb & Ht) Hr. exists b, (t ++ r). split; [reflexivity|]. split; [exact Hb|]. apply Forall_app. split; assumption. Qed.
Lemma leads_firstn ds n : leads ds -> (0 < n)%nat -> leads (firstn n ds).
Proof.
  intros (b & t & -> & Hb & Ht) Hn. destruct n as [|n]; [lia|]. exists b, (firstn n t). split; [reflexivity|]. split; [exact Hb|].
  apply Forall_firstn. exact Ht.
Qed.

Lemma form_f_ok (neg : bool) ds k : leads ds -> -400 <= k <= 400 -> (List.length ds <= 40)%nat ->
  exists ds' E j, literal ((if neg then str_bytes "-" else []) ++ form_f ds (Z.of_nat (List.length ds) + k)) neg ds' E /\
    0 <= j /\ E + j = k /\ digits_val ds' = digits_val ds * 10 ^ j /\
    Z.of_nat (List.length (form_f ds (Z.of_nat (List.length ds) + k))) < 8000.
Proof.
  intros L K N. unfold form_f. set (nd := Z.of_nat (List.length ds)). pose proof (leads_digits ds L) as D.
  assert (N0 : 1 <= nd) by (unfold nd; destruct L as (b & t & -> & _); cbn [List.length]; lia).
  destruct (nd + k <=? 0) eqn:C1; [|destruct (nd <=? nd + k) eqn:C2].
  - exists (str_bytes "0" ++ zeros (- (nd + k)) ++ ds), k, 0. split; [|split; [lia|split; [lia|split]]].
    + exists (str_bytes "0"), (zeros (- (nd + k)) ++ ds), ("."%char :: zeros (- (nd + k)) ++ ds), [], 0.
      split; [rewrite app_nil_r; reflexivity|]. split; [reflexivity|]. split; [rewrite app_length, Nat2Z.inj_add, zeros_length by lia; fold nd; lia|].
      split; [left; reflexivity|]. split; [|left; split; reflexivity]. right. split; [reflexivity|].
      split; [destruct L as (b & t & -> & _); intros X; apply app_eq_nil in X; destruct X; discriminate|].
      apply Forall_app. split; [apply zeros_digits|exact D].
    + rewrite (digits_val_app (str_bytes "0")), (digits_val_app (zeros _)), zeros_val by lia. change (digits_val (str_bytes "0")) with 0. change (10 ^ 0) with 1. lia.
    + rewrite !app_length, !Nat2Z.inj_add, zeros_length by lia. fold nd. change (Z.of_nat (List.length (str_bytes "0."))) with 2. lia.
  - exists (ds ++ zeros (nd + k - nd)), 0, k. split; [|split; [lia|split; [lia|split]]].
    + exists (ds ++ zeros (nd + k - nd)), [], [], [], 0. rewrite !app_nil_r. split; [reflexivity|]. split; [reflexivity|]. split; [reflexivity|].
      split; [right; apply leads_app; [exact L|apply zeros_digits]|]. split; left; split; reflexivity.
    + rewrite digits_val_app, zeros_val, zeros_length by lia. replace (nd + k - nd) with k by lia. lia.
    + rewrite app_length, Nat2Z.inj_add, zeros_length by lia. fold nd. lia.
  - set (p := Z.to_nat (nd + k)). exists ds, k, 0. split; [|split; [lia|split; [lia|split]]].
    + exists (firstn p ds), (skipn p ds), ("."%char :: skipn p ds), [], 0. split; [rewrite app_nil_r; reflexivity|].
      split; [symmetry; apply firstn_skipn|]. split; [rewrite skipn_length; unfold p; lia|].
      split; [right; apply leads_firstn; [exact L|unfold p; lia]|]. split; [|left; split; reflexivity]. right. split; [reflexivity|].
      split; [intros X; apply (f_equal (@List.length byte)) in X; rewrite skipn_length in X; cbn in X; unfold p in X; lia|].
      apply Forall_skipn. exact D.
    + change (10 ^ 0) with 1. lia.
    + rewrite !app_length, firstn_length, skipn_length. change (List.length (str_bytes ".")) with 1%nat. lia.
Qed.

Lemma form_e_ok (neg : bool) ds k : leads ds -> -400 <= k <= 400 -> (List.length ds <= 40)%nat ->
  literal ((if neg then str_bytes "-" else []) ++ clean_exp (form_e ds (Z.of_nat (List.length ds) + k))) neg ds k /\
  Z.of_nat (List.length (clean_exp (form_e ds (Z.of_nat (List.length ds) + k)))) < 8000.
Proof.
  intros L K N. unfold form_e. set (nd := Z.of_nat (List.length ds)). set (e := Z.abs (nd + k - 1)).
  destruct L as (b & t & -> & Hb & Ht). cbn [firstn skipn].
  assert (N0 : nd = 1 + Z.of_nat (List.length t)) by (unfold nd; cbn [List.length]; lia).
  set (ft := if (1 <? List.length (b :: t))%nat then str_bytes "." ++ t else []).
  set (s := if nd + k - 1 <? 0 then "-"%char else "+"%char).
  assert (Hs : b2z s = 45 \/ b2z s = 43) by (unfold s; destruct (nd + k - 1 <? 0); [left|right]; reflexivity).
  destruct (clean_exp_ok (b :: ft) s e ltac:(unfold e; lia) Hs) as (x & E & X0 & XD & XV).
  replace ([b] ++ ft ++ str_bytes "e" ++ (if nd + k - 1 <? 0 then str_bytes "-" else str_bytes "+") ++ (if e <? 10 then str_bytes "0" else []) ++ digits 20 e)
    with ((b :: ft) ++ "e"%char :: s :: (if e <? 10 then str_bytes "0" else []) ++ digits 20 e).
  2:{ cbn [app]. f_equal. f_equal. unfold s. destruct (nd + k - 1 <? 0); reflexivity. }
  rewrite E. split.
  - exists [b], t, ft, ("e"%char :: [s] ++ x), (if nd + k - 1 <? 0 then - e else e).
    split; [reflexivity|]. split; [reflexivity|]. split; [unfold e; destruct (nd + k - 1 <? 0) eqn:C; lia|].
    split; [right; exists b, []; split; [reflexivity|]; split; [exact Hb|constructor]|]. split.
    + unfold ft. destruct t as [|c t]; [left; split; reflexivity|right]. split; [reflexivity|]. split; [discriminate|exact Ht].
    + right. exists "e"%char, [s], x. split; [reflexivity|]. split; [left; reflexivity|]. split; [exact X0|]. split; [exact XD|].
      rewrite numeral_digits_val, XV. unfold s. destruct (nd + k - 1 <? 0); [right|left]; split; auto.
  - assert (LX : Z.of_nat (List.length x) <= 24).
    { assert (EL := f_equal (@List.length byte) E). clear E.
      assert (CL : forall l, (List.length (clean_exp l) <= List.length l)%nat).
      { intros l. unfold clean_exp. destruct (rev l) as [|c1 [|c2 [|c3 [|c4 r]]]] eqn:R; try lia.
        destruct (_ && _); [|lia]. apply (f_equal (@List.length byte)) in R. rewrite rev_length in *. cbn [List.length] in *. lia. }
      specialize (CL ((b :: ft) ++ "e"%char :: s :: (if e <? 10 then str_bytes "0" else []) ++ digits 20 e)). rewrite EL in CL.
      rewrite !app_length in CL. cbn [List.length] in CL. rewrite app_length in CL.
      assert (DL : forall f n, (List.length (digits f n) <= f)%nat).
      { induction f as [|f IH]; intros n; [cbn; lia|]. rewrite digits_S, app_length. specialize (IH (n / 10)). destruct (n / 10 =? 0); cbn [List.length]; lia. }
      specialize (DL 20%nat e). destruct (e <? 10); cbn [List.length str_bytes list_ascii_of_string] in CL; lia. }
    rewrite app_length. cbn [List.length]. unfold ft. destruct (1 <? List.length (b :: t))%nat; rewrite ?app_length; cbn [List.length str_bytes list_ascii_of_string] in *; lia.
Qed.

Lemma digits_length f : forall n, (List.length (digits f n) <= f)%nat.
Proof. induction f as [|f IH]; intros n; [cbn; lia|]. rewrite digits_S, app_length. specialize (IH (n / 10)). destruct (n / 10 =? 0); cbn [List.length]; lia. Qed.
Lemma digits_leads D : 0 < D < 10 ^ 40 -> leads (digits 40 D) /\ digits_val (digits 40 D) = D.
Proof.
  intros H. destruct (digits_ok 40 D) as (V & _ & F & b & t & E & C); [change (Z.of_nat 40) with 40; lia|lia|].
  split; [|exact V]. exists b, t. split; [exact E|]. rewrite E in F. split; [|exact (Forall_inv_tail F)].
  destruct C as [C|C]; [exact C|]. exfalso. rewrite C in V. assert (X : dval (str_bytes "0") = 0) by reflexivity. lia.
Qed.

(** ** The text of a float64 *)
Lemma fmt_mag_ok (neg : bool) b : 0 < b < f64_inf -> exists D k ds E j,
  shortest b = (D, k) /\ literal ((if neg then str_bytes "-" else []) ++ fmt_mag b) neg ds E /\
  0 <= j /\ E + j = k /\ digits_val ds = D * 10 ^ j /\ Z.of_nat (List.length (fmt_mag b)) < 8000.
Proof.
  intros H. destruct (shortest_ok b ltac:(lia) ltac:(lia)) as (D & k & S & _ & HD & K & _).
  unfold fmt_mag. replace (b =? 0) with false by lia. rewrite S. destruct (digits_leads D HD) as [L V].
  pose proof (digits_length 40 D) as N. exists D, k.
  destruct ((b <? f64_micro) || (f64_sextillion <=? b)).
  - destruct (form_e_ok neg _ k L K N) as [LT LN]. exists (digits 40 D), k, 0. split; [reflexivity|]. split; [exact LT|].
    rewrite V. change (10 ^ 0) with 1. repeat split; lia.
  - destruct (form_f_ok neg _ k L K N) as (ds & E & j & LT & J & EJ & VV & LN). exists ds, E, j. rewrite V in VV.
    split; [reflexivity|]. split; [exact LT|]. repeat split; assumption.
Qed.

Lemma fmt_float_text x : str_bytes (fmt_float x) = (if is_neg x then str_bytes "-" else []) ++ fmt_mag (mag x).
Proof. unfold fmt_float, is_neg, mag. rewrite str_bytes_bytes. destruct (2 ^ 63 <=? x); reflexivity. Qed.

Lemma zero_literal (neg : bool) : literal ((if neg then str_bytes "-" else []) ++ str_bytes "0") neg (str_bytes "0") 0.
Proof.
  exists (str_bytes "0"), [], [], [], 0. rewrite !app_nil_r. repeat (split; [reflexivity|]).
  split; [left; reflexivity|]. split; left; split; reflexivity.
Qed.

(** The text of any finite float64. *)
Lemma fmt_float_ok x : float_ok x -> exists ds E,
  literal (str_bytes (fmt_float x)) (is_neg x) ds E /\ Z.of_nat (String.length (fmt_float x)) < 9000 /\
  round_dec (digits_val ds) E = mag x.
Proof.
  intros Hx. pose proof (mag_ok x Hx) as M. rewrite <- str_bytes_length, fmt_float_text.
  destruct (Z.eq_dec (mag x) 0) as [Z0|NZ].
  - rewrite Z0. exists (str_bytes "0"), 0. split; [apply zero_literal|]. split; [destruct (is_neg x); reflexivity|].
    change (digits_val (str_bytes "0")) with 0. apply round_dec_0.
  - destruct (fmt_mag_ok (is_neg x) (mag x) ltac:(lia)) as (D & k & ds & E & j & S & L & J & EJ & V & LN).
    exists ds, E. split; [exact L|]. split; [rewrite app_length; destruct (is_neg x); cbn [List.length str_bytes list_ascii_of_string]; lia|].
    destruct (shortest_ok (mag x) ltac:(lia) ltac:(lia)) as (D' & k' & S' & R & HD & _). rewrite S' in S. injection S as -> ->.
    rewrite V. rewrite round_dec_shift by lia. rewrite EJ. exact R.
Qed.

Lemma literal_number l neg ds E : literal l neg ds E -> json_number l.
Proof.
  intros (int & frac & ft & et & e & -> & _ & _ & HI & HF & HE).
  exists (if neg then str_bytes "-" else []), int, ft, et. split; [reflexivity|]. split; [destruct neg; auto|]. split; [exact HI|]. split.
  - destruct HF as [[-> _]|(-> & F0 & FD)]; [left; reflexivity|right; exists frac; repeat split; assumption].
  - destruct HE as [[-> _]|(c & s & t & -> & Ic & T0 & TD & SS)]; [left; reflexivity|right]. exists c, s, t.
    split; [reflexivity|]. split; [exact Ic|]. split; [|split; assumption]. destruct SS as [[[->| ->] _]|[-> _]]; auto.
Qed.

Lemma parse_fmt_float x : float_ok x -> parse_float (fmt_float x) = Some x.
Proof.
  intros Hx. destruct (fmt_float_ok x Hx) as (ds & E & L & N & R). destruct (literal_parse _ _ _ _ L N) as [_ P].
  rewrite P, R. cbv zeta. pose proof (mag_ok x Hx). replace (mag x <? f64_inf) with true by lia. rewrite sign_mag. reflexivity.
Qed.
