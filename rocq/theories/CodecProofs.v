(** Round trips of the codec combinators. *)
From Verif Require Import Base BaseFacts Types Doc F64 JsonText SpecText JsonStringProofs Codec SpecJson.

Definition rt {A} (c : codec A) (n : nat) (old : A) (wf : A -> Prop) (norm : A -> A) : Prop :=
  forall x, wf x -> exists j, enc c x = Ok j /\ wf_json n j /\ dec c old j = Ok (norm x).

Lemma wf_json_mono j : forall n m, wf_json n j -> (n <= m)%nat -> wf_json m j.
Proof.
  induction j as [|b|s|s|l IH|l IH] using json_ind'; intros n m W L; inversion W; subst; try (constructor; assumption).
  - destruct m as [|m]; [lia|]. constructor. rewrite Forall_forall in *. intros v Hv.
    apply (IH v Hv n0 m); [auto|lia].
  - destruct m as [|m]; [lia|]. constructor. rewrite Forall_forall in *. intros v Hv.
    destruct (H1 v Hv). split; [assumption|]. apply (IH v Hv n0 m); [assumption|lia].
Qed.
Lemma rt_mono {A} (c : codec A) n m old wf norm : rt c n old wf norm -> (n <= m)%nat -> rt c m old wf norm.
Proof.
  intros H L x W. destruct (H x W) as (j & E & J & D). exists j. split; [exact E|]. split; [|exact D].
  exact (wf_json_mono j n m J L).
Qed.

Lemma str_bytes_bytes l : str_bytes (bytes_str l) = l.
Proof. apply list_ascii_of_string_of_list_ascii. Qed.
Lemma bytes_str_bytes s : bytes_str (str_bytes s) = s.
Proof. apply string_of_list_ascii_of_string. Qed.

(** ** Strings *)
Lemma unquote_quote_str s : utf8_str s -> unquote_str (quote_str s) = Some s.
Proof.
  intros H. unfold unquote_str, quote_str. rewrite str_bytes_bytes, unquote_quote_valid by exact H.
  rewrite bytes_str_bytes. reflexivity.
Qed.
Lemma quote_str_body s : string_body (str_bytes (quote_str s)).
Proof. unfold quote_str. rewrite str_bytes_bytes. apply quote_body. Qed.
Lemma rt_str n old : rt c_str n old utf8_str (fun s => s).
Proof.
  intros s H. exists (JStr (quote_str s)). split; [reflexivity|]. split; [constructor; apply quote_str_body|].
  cbn. rewrite unquote_quote_str by exact H. reflexivity.
Qed.
Lemma rt_bool n old : rt c_bool n old (fun _ => True) (fun s => s).
Proof. intros s _. exists (JBool s). split; [reflexivity|]. split; [constructor|reflexivity]. Qed.

(** ** Integers *)
Definition dval (l : bytes) : Z := fold_left (fun a d => 10 * a + (b2z d - 48)) l 0.
Lemma dval_snoc l d : dval (l ++ [d]) = 10 * dval l + (b2z d - 48).
Proof. unfold dval. rewrite fold_left_app. reflexivity. Qed.

Lemma digit_b2z v : 0 <= v < 10 -> b2z (z2b (48 + v)) = 48 + v.
Proof. intros H. rewrite b2z_z2b. apply Z.mod_small. lia. Qed.

Lemma digits_ok f : forall n, 0 <= n < 10 ^ Z.of_nat f -> (0 < f)%nat ->
  dval (digits f n) = n /\ forallb is_digit (digits f n) = true /\ Forall digit (digits f n) /\
  exists b t, digits f n = b :: t /\ (49 <= b2z b <= 57 \/ digits f n = str_bytes "0").
Proof.
  induction f as [|f IH]; intros n Hn Hf; [lia|]. cbn [digits].
  assert (M : 0 <= n mod 10 < 10) by lia.
  assert (D : is_digit (z2b (48 + n mod 10)) = true) by (unfold is_digit, in_range; rewrite digit_b2z by lia; lia).
  assert (D' : digit (z2b (48 + n mod 10))) by (unfold digit; rewrite digit_b2z by lia; lia).
  destruct (n / 10 =? 0) eqn:E.
  - cbn [app]. rewrite <- (app_nil_l [z2b (48 + n mod 10)]). rewrite dval_snoc. cbn [app forallb]. rewrite digit_b2z by lia.
    split; [unfold dval; cbn [fold_left]; lia|]. split; [rewrite D; reflexivity|]. split; [constructor; [exact D'|constructor]|].
    eexists _, _. split; [reflexivity|]. rewrite digit_b2z by lia.
    destruct (Z.eq_dec n 0) as [->|]; [right; reflexivity|left; lia].
  - assert (F0 : (0 < f)%nat).
    { destruct f; [|lia]. cbn in Hn. lia. }
    assert (Q : 0 <= n / 10 < 10 ^ Z.of_nat f).
    { replace (Z.of_nat (S f)) with (Z.of_nat f + 1) in Hn by lia. rewrite Z.pow_add_r in Hn by lia.
      change (10 ^ 1) with 10 in Hn. split; [lia|]. apply Z.div_lt_upper_bound; lia. }
    destruct (IH (n / 10) Q F0) as (V & A & F & b & t & Eq & H).
    rewrite dval_snoc, V, digit_b2z by lia. split; [lia|].
    rewrite forallb_app, A. cbn [forallb]. rewrite D. split; [reflexivity|].
    split; [apply Forall_app; split; [exact F|constructor; [exact D'|constructor]]|].
    exists b, (t ++ [z2b (48 + n mod 10)]). split; [rewrite Eq; reflexivity|]. left.
    destruct H as [H|H]; [exact H|]. exfalso. rewrite H in V. assert (X : dval (str_bytes "0") = 0) by reflexivity. lia.
Qed.

Lemma digits_parse n : 0 <= n < 10 ^ 20 -> parse_digits (digits 20 n) = Some n.
Proof.
  intros H. destruct (digits_ok 20 n ltac:(exact H) ltac:(lia)) as (V & A & _ & b & t & E & _).
  unfold parse_digits. rewrite A. unfold dval in V. rewrite V. rewrite E. reflexivity.
Qed.
Lemma digits_number n : 0 <= n < 10 ^ 20 -> json_number (digits 20 n) /\ json_number ("-"%char :: digits 20 n).
Proof.
  intros H. destruct (digits_ok 20 n ltac:(exact H) ltac:(lia)) as (_ & _ & F & b & t & E & C).
  assert (I : digits 20 n = str_bytes "0" \/ exists b t, digits 20 n = b :: t /\ 49 <= b2z b <= 57 /\ Forall digit t).
  { destruct C as [C|C]; [right|left; exact C]. exists b, t. split; [exact E|]. split; [exact C|].
    rewrite E in F. exact (Forall_inv_tail F). }
  split.
  - exists [], (digits 20 n), [], []. rewrite !app_nil_r. repeat split; try (left; reflexivity). exact I.
  - exists (str_bytes "-"), (digits 20 n), [], []. rewrite !app_nil_r.
    repeat split; try (left; reflexivity); [right; reflexivity|exact I].
Qed.
Lemma digits_head n : 0 <= n < 10 ^ 20 -> exists b t, digits 20 n = b :: t /\ b <> "-"%char.
Proof.
  intros H. destruct (digits_ok 20 n ltac:(exact H) ltac:(lia)) as (_ & _ & F & b & t & E & _).
  exists b, t. split; [exact E|]. rewrite E in F. intros ->. pose proof (Forall_inv F) as X. unfold digit in X.
  change (b2z "-"%char) with 45 in X. lia.
Qed.

Lemma big10 : 10 ^ 20 = 100000000000000000000. Proof. reflexivity. Qed.
Lemma p63 : 2 ^ 63 = 9223372036854775808. Proof. reflexivity. Qed.

Lemma parse_fmt_int n : in_i64 n -> parse_int (fmt_int n) = Some n.
Proof.
  unfold in_i64. intros H. unfold parse_int, fmt_int. rewrite str_bytes_bytes. rewrite p63 in *.
  destruct (n <? 0) eqn:E.
  - rewrite digits_parse by (rewrite big10; lia). replace (- n <=? 9223372036854775808) with true by lia. f_equal. lia.
  - assert (B : 0 <= n < 10 ^ 20) by (rewrite big10; lia).
    destruct (digits_head n B) as (b & t & Eq & Nb). rewrite Eq.
    replace (match b :: t with
      | "-"%char :: l => match parse_digits l with Some n => if n <=? 9223372036854775808 then Some (- n) else None | None => None end
      | l => match parse_digits l with Some n => if n <? 9223372036854775808 then Some n else None | None => None end
      end) with (match parse_digits (b :: t) with Some n => if n <? 9223372036854775808 then Some n else None | None => None end).
    + rewrite <- Eq, digits_parse by exact B. replace (n <? 9223372036854775808) with true by lia. reflexivity.
    + destruct b as [[] [] [] [] [] [] [] []]; try reflexivity. exfalso. apply Nb. reflexivity.
Qed.
Lemma parse_fmt_uint n max : 0 <= n <= max -> max < 10 ^ 20 -> parse_uint max (fmt_int n) = Some n.
Proof.
  intros H M. unfold parse_uint, fmt_int. rewrite str_bytes_bytes. replace (n <? 0) with false by lia.
  rewrite digits_parse by lia. replace (n <=? max) with true by lia. reflexivity.
Qed.
Lemma fmt_int_number n : - 10 ^ 20 < n < 10 ^ 20 -> json_number (str_bytes (fmt_int n)).
Proof.
  intros H. unfold fmt_int. rewrite str_bytes_bytes. destruct (n <? 0) eqn:E.
  - apply (digits_number (- n)). lia.
  - apply (digits_number n). lia.
Qed.

Lemma rt_int n old : rt c_int n old in_i64 (fun s => s).
Proof.
  intros x H. exists (JNum (fmt_int x)). split; [reflexivity|]. split.
  - constructor. apply fmt_int_number. unfold in_i64 in H. rewrite p63 in H. rewrite big10. lia.
  - cbn. rewrite parse_fmt_int by exact H. reflexivity.
Qed.
Lemma rt_uint n old max : 0 <= max < 10 ^ 20 -> rt (c_uint max) n old (fun x => 0 <= x <= max) (fun s => s).
Proof.
  intros M x H. exists (JNum (fmt_int x)). split; [reflexivity|]. split.
  - constructor. apply fmt_int_number. lia.
  - cbn. rewrite parse_fmt_uint by lia. reflexivity.
Qed.

(** ** Enumerations *)
Section EnumProofs.
Context {E : Type} (eqb : E -> E -> bool) (zero : E) (valid : E -> Prop).
Lemma rt_enum_num n old max tbl : 0 <= max < 10 ^ 20 ->
  (forall e, valid e -> exists k, lookup_by eqb tbl e = Some k /\ 0 <= k <= max /\ lookup_by Z.eqb (swap tbl) k = Some e) ->
  rt (c_enum_num eqb zero max tbl) n old valid (fun s => s).
Proof.
  intros M H e V. destruct (H e V) as (k & E1 & B & E2). exists (JNum (fmt_int k)). cbn. rewrite E1.
  split; [reflexivity|]. split; [constructor; apply fmt_int_number; lia|].
  rewrite parse_fmt_uint by lia. cbn. rewrite E2. reflexivity.
Qed.
Lemma rt_enum_str n old strict tbl :
  (forall e, valid e -> exists s, lookup_by eqb tbl e = Some s /\ utf8_str s /\ lookup_by String.eqb (swap tbl) s = Some e) ->
  rt (c_enum_str eqb zero strict tbl) n old valid (fun s => s).
Proof.
  intros H e V. destruct (H e V) as (k & E1 & B & E2). exists (JStr (quote_str k)). cbn. rewrite E1.
  split; [reflexivity|]. split; [constructor; apply quote_str_body|].
  rewrite unquote_quote_str by exact B. cbn. rewrite E2. reflexivity.
Qed.
End EnumProofs.

Lemma ascii_utf8 s : forallb (fun b => b2z b <? 128) (str_bytes s) = true -> utf8_str s.
Proof.
  unfold utf8_str. generalize (str_bytes s). intros l. induction l as [|b l IH]; intros H; [exists []; split; constructor|].
  cbn [forallb] in H. apply andb_prop in H. destruct H as [Hb Hl]. destruct (IH Hl) as (rs & F & ->).
  pose proof (b2z_range b). exists (b2z b :: rs). split; [constructor; [unfold scalar; lia|exact F]|].
  cbn [flat_map]. rewrite utf8_low by lia. rewrite z2b_b2z. reflexivity.
Qed.

Lemma range_cases n x : range n x -> exists k, x = Z.of_nat k /\ (k < Z.to_nat n)%nat.
Proof. unfold range. intros H. exists (Z.to_nat x). split; lia. Qed.

Ltac enum_tac N :=
  let e := fresh "e" in let V := fresh "V" in
  intros e V; destruct (range_cases _ _ V) as (k & -> & K); 
  repeat (destruct k as [|k]; [eexists; split; [vm_compute; reflexivity|]; split; [first [lia | apply ascii_utf8; reflexivity]|reflexivity]|]);
  lia.

Lemma rt_ct n old : rt c_ct n old (fun c => ct_valid c = true) (fun s => s).
Proof.
  apply rt_enum_num; [rewrite big10; lia|]. intros e V.
  destruct e; try discriminate; (eexists; split; [vm_compute; reflexivity|]; split; [lia|reflexivity]).
Qed.
Lemma rt_at n old : rt c_at n old (fun c => at_valid c = true) (fun s => s).
Proof.
  apply rt_enum_str. intros e V.
  destruct e; try discriminate; (eexists; split; [vm_compute; reflexivity|]; split; [apply ascii_utf8; reflexivity|reflexivity]).
Qed.
Lemma rt_tgt n old : rt c_tgt n old (range 65536) (fun s => s).
Proof.
  intros x H. apply (rt_uint n old 65535); [rewrite big10; lia|]. unfold range in H. lia.
Qed.
Lemma rt_mode n old : rt c_mode n old (range 7) (fun s => s).
Proof. apply rt_enum_num; [rewrite big10; lia|]. enum_tac 7. Qed.
Lemma rt_alpha n old : rt c_alpha n old (range 3) (fun s => s).
Proof. apply rt_enum_str. enum_tac 3. Qed.
(** 0 (undefined) has no entry but is never written because of omitempty. *)
Lemma rt_mag n old : rt c_mag n old (fun x => range 3 x /\ x <> 0) (fun s => s).
Proof.
  apply rt_enum_num; [rewrite big10; lia|]. intros e [V Z0]. revert e V Z0.
  intros e V Z0. unfold range in V. assert (H : e = 1 \/ e = 2) by lia.
  destruct H as [-> | ->]; (eexists; split; [vm_compute; reflexivity|]; split; [lia|reflexivity]).
Qed.
Lemma rt_minf n old : rt c_minf n old (fun x => range 7 x /\ x <> 0) (fun s => s).
Proof.
  apply rt_enum_num; [rewrite big10; lia|]. intros e [V Z0]. unfold range in V.
  assert (H : e = 1 \/ e = 2 \/ e = 3 \/ e = 4 \/ e = 5 \/ e = 6) by lia.
  repeat destruct H as [-> | H]; [..|subst e]; (eexists; split; [vm_compute; reflexivity|]; split; [lia|reflexivity]).
Qed.
Lemma rt_wrap n old : rt c_wrap n old (range 3) (fun s => s).
Proof. apply rt_enum_num; [rewrite big10; lia|]. enum_tac 3. Qed.
Lemma rt_interp n old : rt c_interp n old (range 3) (fun s => s).
Proof. apply rt_enum_str. enum_tac 3. Qed.
Lemma rt_trs n old : rt c_trs n old (range 4) (fun s => s).
Proof. apply rt_enum_str. enum_tac 4. Qed.

(** ** Containers *)
Lemma rt_ptr {A} (zero : A) c n old wf norm :
  (forall o, old = Some o \/ (old = None /\ o = zero) -> rt c n o wf norm) ->
  (forall x j, wf x -> enc c x = Ok j -> j <> JNull) ->
  rt (c_ptr zero c) n old (opt wf) (option_map norm).
Proof.
  intros H NN o W. destruct o as [a|].
  - set (o' := match old with Some o => o | None => zero end).
    assert (R : rt c n o' wf norm) by (apply H; unfold o'; destruct old; auto).
    destruct (R a W) as (j & E & J & D). exists j. cbn. split; [exact E|]. split; [exact J|].
    pose proof (NN a j W E). fold o'. destruct j; try contradiction; rewrite D; reflexivity.
  - exists JNull. split; [reflexivity|]. split; [constructor|reflexivity].
Qed.

Lemma dec_elems_rt {A} (zero : A) c n wf norm : rt c n zero wf norm ->
  forall l, Forall wf l -> exists js, traverse (enc c) l = Ok js /\ Forall (wf_json n) js /\
    dec_elems zero c [] js = Ok (map norm l).
Proof.
  intros R l H. induction H as [|a l Ha Hl (js & E & J & D)]; [exists []; repeat split; constructor|].
  destruct (R a Ha) as (j & Ea & Ja & Da). exists (j :: js). cbn. rewrite Ea. cbn. rewrite E. cbn.
  split; [reflexivity|]. split; [constructor; assumption|]. rewrite Da. cbn. rewrite D. reflexivity.
Qed.
Lemma rt_slice {A} (zero : A) c n wf norm : rt c n zero wf norm ->
  rt (c_slice zero c) (S n) [] (Forall wf) (map norm).
Proof.
  intros R l W. destruct (dec_elems_rt zero c n wf norm R l W) as (js & E & J & D).
  exists (JArr js). cbn. rewrite E. split; [reflexivity|]. split; [constructor; exact J|exact D].
Qed.
Lemma rt_oslice {A} (zero : A) c n wf norm : rt c n zero wf norm ->
  rt (c_oslice zero c) (S n) None (opt (Forall wf)) (option_map (map norm)).
Proof.
  intros R o W. destruct o as [l|]; [|exists JNull; split; [reflexivity|]; split; [constructor|reflexivity]].
  destruct (dec_elems_rt zero c n wf norm R l W) as (js & E & J & D).
  exists (JArr js). cbn. rewrite E. split; [reflexivity|]. split; [constructor; exact J|]. rewrite D. reflexivity.
Qed.
Lemma dec_array_rt {A} (zero : A) c n wf : (forall o, rt c n o wf (fun x => x)) ->
  forall l, Forall wf l -> forall old, List.length old = List.length l ->
  exists js, traverse (enc c) l = Ok js /\ Forall (wf_json n) js /\ dec_array zero c old js = Ok l.
Proof.
  intros R l H. induction H as [|a l Ha Hl IH]; intros old Ho; destruct old as [|o old]; try discriminate.
  - exists []. repeat split; constructor.
  - destruct (IH old ltac:(cbn in Ho; lia)) as (js & E & J & D).
    destruct (R o a Ha) as (j & Ea & Ja & Da). exists (j :: js). cbn. rewrite Ea. cbn. rewrite E. cbn.
    split; [reflexivity|]. split; [constructor; assumption|]. rewrite Da. cbn. rewrite D. reflexivity.
Qed.
Lemma rt_array {A} (zero : A) c n k old wf : (forall o, rt c n o wf (fun x => x)) -> List.length old = k ->
  rt (c_array zero c) (S n) old (fun l => List.length l = k /\ Forall wf l) (fun l => l).
Proof.
  intros R Hk l [L W]. destruct (dec_array_rt zero c n wf R l W old ltac:(congruence)) as (js & E & J & D).
  exists (JArr js). cbn. rewrite E. split; [reflexivity|]. split; [constructor; exact J|exact D].
Qed.

(** ** Maps *)
Lemma compare_refl k : String.compare k k = Eq.
Proof. induction k as [|a k IH]; [reflexivity|]. cbn. unfold Ascii.compare. rewrite N.compare_refl. exact IH. Qed.
Lemma compare_eq a b : String.compare a b = Eq -> a = b.
Proof. apply String.compare_eq_iff. Qed.
Lemma compare_gt a b : String.compare a b = Gt -> String.compare b a = Lt.
Proof. intros H. rewrite String.compare_antisym, H. reflexivity. Qed.
Lemma compare_trans a : forall b c, String.compare a b = Lt -> String.compare b c = Lt -> String.compare a c = Lt.
Proof.
  induction a as [|x a IH]; intros b c H1 H2.
  - destruct c; [destruct b; discriminate|reflexivity].
  - destruct b as [|y b]; [discriminate|]. destruct c as [|z c]; [discriminate|]. cbn in *. unfold Ascii.compare in *.
    destruct (N.compare (N_of_ascii x) (N_of_ascii y)) eqn:E1; try discriminate;
      destruct (N.compare (N_of_ascii y) (N_of_ascii z)) eqn:E2; try discriminate;
      rewrite ?N.compare_eq_iff, ?N.compare_lt_iff in *.
    + rewrite E1, E2, N.compare_refl. exact (IH b c H1 H2).
    + rewrite E1. apply N.compare_lt_iff in E2. rewrite E2. reflexivity.
    + rewrite <- E2. apply N.compare_lt_iff in E1. rewrite E1. reflexivity.
    + assert (X : (N_of_ascii x < N_of_ascii z)%N) by lia. apply N.compare_lt_iff in X. rewrite X. reflexivity.
Qed.

(** Appending keys in increasing order. *)
Lemma map_set_snoc {A} k (v : A) m : (forall p, In p m -> String.compare (fst p) k = Lt) ->
  map_set k v m = m ++ [(k, v)].
Proof.
  induction m as [|[k' v'] m IH]; intros H; [reflexivity|]. cbn [map_set].
  pose proof (H (k', v') (or_introl eq_refl)) as L. cbn in L. rewrite String.compare_antisym, L. cbn [CompOpp app].
  rewrite IH; [reflexivity|]. intros p Hp. apply H. right. exact Hp.
Qed.
Lemma sorted_head {A} (p : string * A) m : sorted_keys (p :: m) -> forall q, In q m -> String.compare (fst p) (fst q) = Lt.
Proof.
  revert p. induction m as [|r m IH]; intros p S q Hq; [destruct Hq|].
  inversion S as [| |? ? ? L S']; subst. destruct Hq as [<-|Hq]; [exact L|].
  apply (compare_trans _ (fst r)); [exact L|]. apply IH; assumption.
Qed.
Lemma sorted_tail {A} (p : string * A) m : sorted_keys (p :: m) -> sorted_keys m.
Proof. intros S. inversion S; [constructor|assumption]. Qed.
Lemma map_sets_sorted {A} (m : list (string * A)) : sorted_keys m -> map_sets [] m = m.
Proof.
  unfold map_sets.
  assert (G : forall done, sorted_keys m -> (forall p q, In p done -> In q m -> String.compare (fst p) (fst q) = Lt) ->
    fold_left (fun m p => map_set (fst p) (snd p) m) m done = done ++ m).
  { induction m as [|[k v] m IH]; intros done S H; [rewrite app_nil_r; reflexivity|].
    cbn [fold_left fst snd]. rewrite map_set_snoc.
    - rewrite IH; [rewrite <- app_assoc; reflexivity|exact (sorted_tail _ _ S)|].
      intros p q Hp Hq. apply in_app_or in Hp. destruct Hp as [Hp|[<-|[]]].
      + apply H; [exact Hp|right; exact Hq].
      + exact (sorted_head _ _ S q Hq).
    - intros p Hp. exact (H p (k, v) Hp (or_introl eq_refl)). }
  intros S. rewrite (G [] S); [reflexivity|]. intros p q [].
Qed.

Lemma key_of_quote k : utf8_str k -> key_of (quote_str k) = Ok k.
Proof. intros H. unfold key_of. rewrite unquote_quote_str by exact H. reflexivity. Qed.

Lemma rt_attrs n old : old = None -> rt c_attrs (S n) old (opt wf_attrs) (fun o => o).
Proof.
  intros ->. intros o W. destruct o as [m|]; [|exists JNull; split; [reflexivity|]; split; [constructor|reflexivity]].
  destruct W as [S F]. cbn [opt] in *.
  assert (G : exists js, traverse (fun p => j <- enc c_int (snd p) ;; Ok (quote_str (fst p), j)) m = Ok js /\
    Forall (fun p => string_body (str_bytes (fst p)) /\ wf_json n (snd p)) js /\
    traverse (fun p => k <- key_of (fst p) ;; v <- dec c_int 0 (snd p) ;; Ok (k, v)) js = Ok m).
  { clear S. induction F as [|[k v] m [Hk Hv] F (js & E & J & D)]; [exists []; repeat split; constructor|].
    cbn [fst snd] in Hk, Hv. destruct (rt_int n 0 v Hv) as (j & Ej & Wj & Dj).
    exists ((quote_str k, j) :: js). cbn [traverse fst snd]. rewrite Ej. cbn [bind]. rewrite E. cbn [bind].
    split; [reflexivity|]. split; [constructor; [split; [apply quote_str_body|exact Wj]|exact J]|].
    rewrite key_of_quote by exact Hk. cbn [bind]. rewrite Dj. cbn [bind]. rewrite D. reflexivity. }
  destruct G as (js & E & J & D). exists (JObj js). cbn [c_attrs enc dec]. rewrite E. cbn [bind].
  split; [reflexivity|]. split; [constructor; exact J|]. rewrite D. cbn [bind]. rewrite map_sets_sorted by exact S. reflexivity.
Qed.

(** ** Floats and any *)
Definition float_contract (F : float_lib) : Prop :=
  forall f, float_ok f -> json_number (str_bytes (fmt64 F f)) /\ parse64 F (fmt64 F f) = Some f.

Section AnyInd.
Context (P : any -> Prop) (Hnull : P VNull) (Hbool : forall b, P (VBool b)) (Hnum : forall s, P (VNum s))
  (Hstr : forall s, P (VStr s)) (Harr : forall l, Forall P l -> P (VArr l))
  (Hobj : forall m, Forall (fun p => P (snd p)) m -> P (VObj m)).
Fixpoint any_ind' (j : any) : P j :=
  match j with
  | VNull => Hnull
  | VBool b => Hbool b
  | VNum s => Hnum s
  | VStr s => Hstr s
  | VArr l => Harr l ((fix go l := match l return Forall P l with
       | [] => Forall_nil _ | v :: l' => Forall_cons _ (any_ind' v) (go l') end) l)
  | VObj m => Hobj m ((fix go m := match m return Forall (fun p => P (snd p)) m with
       | [] => Forall_nil _ | p :: m' => Forall_cons _ (any_ind' (snd p)) (go m') end) m)
  end.
End AnyInd.

Section Params.
Context (F : float_lib) (X : ext_lib) (HF : float_contract F).

Lemma rt_f64 n old : rt (c_f64 F) n old float_ok (fun x => x).
Proof.
  intros f H. destruct (HF f H) as [N P]. exists (JNum (fmt64 F f)). cbn. unfold enc_f64. destruct H as [_ H]. rewrite H.
  split; [reflexivity|]. split; [constructor; exact N|]. rewrite P. reflexivity.
Qed.

Lemma enc_dec_any v : forall n, wf_any n v -> exists j, enc_any F v = Ok j /\ wf_json n j /\ dec_any F j = Ok v.
Proof.
  induction v as [|b|f|s|l IH|m IH] using any_ind'; intros n W; inversion W; subst.
  - exists JNull. repeat split; constructor.
  - exists (JBool b). repeat split; constructor.
  - destruct (rt_f64 n 0 f ltac:(assumption)) as (j & E & J & D). exists j. split; [exact E|]. split; [exact J|].
    cbn in *. unfold enc_f64 in E. destruct (f64_finite f); [|discriminate]. injection E as <-.
    cbn in *. destruct (parse64 F (fmt64 F f)); [injection D as ->; reflexivity|discriminate].
  - exists (JStr (quote_str s)). split; [reflexivity|]. split; [constructor; apply quote_str_body|].
    cbn. rewrite unquote_quote_str by assumption. reflexivity.
  - assert (G : exists js, traverse (enc_any F) l = Ok js /\ Forall (wf_json n0) js /\ traverse (dec_any F) js = Ok l).
    { clear W. match goal with H : Forall (wf_any n0) l |- _ => revert H end. intros W.
      induction l as [|v l IHl]; [exists []; repeat split; constructor|].
      destruct (IHl (Forall_inv_tail IH) (Forall_inv_tail W)) as (js & E & J & D).
      destruct (Forall_inv IH n0 (Forall_inv W)) as (j & Ej & Wj & Dj).
      exists (j :: js). cbn. rewrite Ej. cbn. rewrite E. cbn. split; [reflexivity|]. split; [constructor; assumption|].
      rewrite Dj. cbn. rewrite D. reflexivity. }
    destruct G as (js & E & J & D). exists (JArr js). cbn. rewrite E. split; [reflexivity|].
    split; [constructor; exact J|]. rewrite D. reflexivity.
  - assert (G : exists js, traverse (fun p => j <- enc_any F (snd p) ;; Ok (quote_str (fst p), j)) m = Ok js /\
      Forall (fun p => string_body (str_bytes (fst p)) /\ wf_json n0 (snd p)) js /\
      traverse (fun p => k <- key_of (fst p) ;; v <- dec_any F (snd p) ;; Ok (k, v)) js = Ok m).
    { clear W. match goal with H : sorted_keys m |- _ => clear H end.
      match goal with H : Forall (fun p => _ /\ _) m |- _ => rename H into W end.
      induction m as [|[k v] l IHl]; [exists []; repeat split; constructor|].
      destruct (IHl (Forall_inv_tail IH) (Forall_inv_tail W)) as (js & E & J & D).
      destruct (Forall_inv W) as [Wk Wv]. cbn [fst snd] in Wk, Wv.
      destruct (Forall_inv IH n0 Wv) as (j & Ej & Wj & Dj). cbn [snd] in Ej.
      exists ((quote_str k, j) :: js). cbn [traverse fst snd]. rewrite Ej. cbn [bind]. rewrite E. cbn [bind].
      split; [reflexivity|]. split; [constructor; [split; [apply quote_str_body|exact Wj]|exact J]|].
      rewrite key_of_quote by exact Wk. cbn [bind]. rewrite Dj. cbn [bind]. rewrite D. reflexivity. }
    destruct G as (js & E & J & D). exists (JObj js). cbn [enc_any]. rewrite E. cbn [bind].
    split; [reflexivity|]. split; [constructor; exact J|]. cbn [dec_any]. rewrite D. cbn [bind].
    rewrite map_sets_sorted by assumption. reflexivity.
Qed.
Lemma rt_any n old : rt (c_any F) n old (wf_any n) (fun x => x).
Proof. intros v W. exact (enc_dec_any v n W). Qed.

(** ** Extensions *)
Lemma sorted_map {A B} (f : string * A -> B) m : sorted_keys m -> sorted_keys (map (fun p => (fst p, f p)) m).
Proof.
  intros S. induction S as [|p|p q m L S IH]; [constructor..|]. cbn [map] in *. constructor; [exact L|exact IH].
Qed.

Lemma rt_extv n k e : wf_extv X n k e -> exists j, enc_extv X k e = Ok j /\ wf_json n j /\ dec_extv X k j = Ok (norm_extv X k e).
Proof.
  assert (G : forall j, wf_payload X n k j -> wf_json n (html_json j) /\ dec_extv X k (html_json j) = Ok (read_payload X k j)).
  { intros j [W NP]. split; [apply html_wf; exact W|]. unfold dec_extv, read_payload. destruct (registry X k) as [f|]; [|reflexivity].
    specialize (NP f eq_refl). destruct (f (html_json j)); [reflexivity..|contradiction]. }
  destruct e as [j|v]; cbn [wf_extv].
  - intros W. exists (html_json j). split; [reflexivity|exact (G j W)].
  - intros (j & E & W). exists (html_json j). cbn [enc_extv norm_extv]. rewrite E. split; [reflexivity|exact (G j W)].
Qed.

Lemma rt_ext n : rt (c_ext X) (S n) [] (wf_ext X n) (norm_ext X).
Proof.
  intros m [S W]. cbn [c_ext enc dec]. unfold enc_ext, dec_ext.
  assert (G : exists js raw, traverse (fun p => j <- enc_extv X (fst p) (snd p) ;; Ok (quote_str (fst p), j)) m = Ok js /\
    Forall (fun p => string_body (str_bytes (fst p)) /\ wf_json n (snd p)) js /\
    traverse (fun p => k <- key_of (fst p) ;; Ok (k, snd p)) js = Ok raw /\
    map fst raw = map fst m /\
    traverse (fun p => v <- dec_extv X (fst p) (snd p) ;; Ok (fst p, v)) raw = Ok (norm_ext X m)).
  { clear S. induction W as [|[k e] m [Wk We] W (js & raw & E & J & D1 & K & D2)]; [exists [], []; repeat split; constructor|].
    cbn [fst snd] in Wk, We. destruct (rt_extv n k e We) as (j & Ej & Wj & Dj).
    exists ((quote_str k, j) :: js), ((k, j) :: raw). cbn [traverse fst snd map norm_ext]. rewrite Ej. cbn [bind]. rewrite E. cbn [bind].
    split; [reflexivity|]. split; [constructor; [split; [apply quote_str_body|exact Wj]|exact J]|].
    rewrite key_of_quote by exact Wk. cbn [bind]. rewrite D1. cbn [bind]. split; [reflexivity|].
    split; [rewrite K; reflexivity|]. rewrite Dj. cbn [bind]. rewrite D2. reflexivity. }
  destruct G as (js & raw & E & J & D1 & K & D2). exists (JObj js). rewrite E. cbn [bind].
  split; [reflexivity|]. split; [constructor; exact J|]. rewrite D1. cbn [bind].
  assert (SR : sorted_keys raw).
  { clear - K S. revert raw K. induction S as [|p|p q m L S IH]; intros raw K.
    - destruct raw; [constructor|discriminate].
    - destruct raw as [|r [|]]; try discriminate. constructor.
    - destruct raw as [|r [|r2 raw]]; try discriminate. injection K as K1 K2 K3.
      constructor; [rewrite K1, K2; exact L|]. apply IH. cbn [map]. rewrite K2, K3. reflexivity. }
  rewrite map_sets_sorted by exact SR. rewrite D2. cbn [bind].
  rewrite map_sets_sorted; [reflexivity|]. unfold norm_ext. apply (sorted_map (fun p => norm_extv X (fst p) (snd p))). exact S.
Qed.
End Params.

(** ** Structs *)
Section StructRt.
Context {T : Type}.

(** What field [f] contributes: an omitted field of the result [z] is the
    default, a written one decodes to that of [z]. *)
Definition fspec (n : nat) (d x z : T) (f : field T) : Prop :=
  match f with
  | Fld _ get set c omit =>
      (omit (get x) = true -> get z = get d) /\
      (omit (get x) = false -> exists j, enc c (get x) = Ok j /\ wf_json n j /\ dec c (get d) j = Ok (get z))
  end.
Lemma fspec_intro n d x z {A} name (get : T -> A) set c omit wf norm :
  rt c n (get d) wf norm ->
  (omit (get x) = false -> wf (get x) /\ get z = norm (get x)) ->
  (omit (get x) = true -> get z = get d) ->
  fspec n d x z (Fld name get set c omit).
Proof.
  intros R W O. split; [exact O|]. intros E. destruct (W E) as [Wx ->]. exact (R _ Wx).
Qed.
Definition agree (y z : T) (f : field T) : Prop := match f with Fld _ get _ _ _ => get y = get z end.
Definition lens (f : field T) : Prop := match f with Fld _ get set _ _ => forall v y, get (set v y) = v end.
Definition indep (f g : field T) : Prop :=
  match f, g with
  | Fld _ gf sf _ _, Fld _ gg sg _ _ => (forall v y, gg (sf v y) = gg y) /\ (forall v y, gf (sg v y) = gf y)
  end.
Definition keeps {B} (g : T -> B) (f : field T) : Prop :=
  match f with Fld _ _ set _ _ => forall v y, g (set v y) = g y end.
Definition plain (ld : list (field T)) (f : field T) : Prop :=
  quote_str (fname f) = fname f /\ utf8_str (fname f) /\ find_field ld (fname f) = Some f.

Lemma plain_key ld f : plain ld f -> key_of (fname f) = Ok (fname f) /\ string_body (str_bytes (fname f)).
Proof.
  intros (Q & U & _). pose proof (key_of_quote _ U) as K. pose proof (quote_str_body (fname f)) as B.
  rewrite Q in K, B. split; assumption.
Qed.

Lemma dec_members_app ld m1 : forall (x : T) m2,
  dec_members ld x (m1 ++ m2) = (y <- dec_members ld x m1 ;; dec_members ld y m2).
Proof.
  induction m1 as [|[k j] m1 IH]; intros x m2; [reflexivity|]. cbn [app dec_members].
  destruct (key_of k); cbn [bind]; try reflexivity.
  destruct (match find_field ld a with Some f => dec_field f x j | None => Ok x end); cbn [bind]; try reflexivity.
  apply IH.
Qed.

Lemma enc_dec_fields ld n d x z le : Forall (plain ld) le -> Forall lens le -> ForallOrdPairs indep le ->
  Forall (fspec n d x z) le ->
  forall y0, Forall (agree y0 d) le ->
  exists m y, enc_fields le x = Ok m /\
    Forall (fun p => string_body (str_bytes (fst p)) /\ wf_json n (snd p)) m /\
    dec_members ld y0 m = Ok y /\ Forall (agree y z) le /\
    (forall B (g : T -> B), Forall (keeps g) le -> g y = g y0).
Proof.
  intros P L I S. induction I as [|f le Hf I IH]; intros y0 A0.
  - exists [], y0. repeat split; try constructor. all: reflexivity.
  - pose proof (Forall_inv P) as Pf. pose proof (Forall_inv L) as Lf. pose proof (Forall_inv S) as Sf.
    pose proof (Forall_inv A0) as Af.
    apply Forall_inv_tail in P, L, S, A0. specialize (IH P L S).
    destruct f as [A name get set c omit]. cbn [fspec] in Sf. cbn [lens] in Lf. cbn [agree] in Af. destruct Sf as [S1 S2].
    cbn [enc_fields]. destruct (omit (get x)) eqn:E.
    + destruct (IH y0 A0) as (m & y & Em & Wm & Dm & Ag & Ke). exists m, y. split; [exact Em|]. split; [exact Wm|].
      split; [exact Dm|]. split.
      * constructor; [|exact Ag]. cbn [agree]. rewrite (S1 eq_refl), <- Af. apply (Ke A get).
        rewrite Forall_forall in Hf |- *. intros g Hg. specialize (Hf g Hg). destruct g. exact (proj2 Hf).
      * intros B g K. apply Ke. exact (Forall_inv_tail K).
    + destruct (S2 eq_refl) as (j & Ej & Wj & Dj).
      assert (A1 : Forall (agree (set (get z) y0) d) le).
      { rewrite Forall_forall in Hf, A0 |- *. intros g Hg. specialize (Hf g Hg). specialize (A0 g Hg).
        destruct g. cbn [agree] in *. cbn [indep] in Hf. rewrite (proj1 Hf). exact A0. }
      destruct (IH _ A1) as (m & y & Em & Wm & Dm & Ag & Ke).
      exists ((name, j) :: m), y. rewrite Ej. cbn [bind]. rewrite Em. cbn [bind]. split; [reflexivity|].
      destruct (plain_key _ _ Pf) as [Kf Bf]. cbn [fname] in Kf, Bf.
      split; [constructor; [split; assumption|exact Wm]|].
      destruct Pf as (_ & _ & Ff). cbn [fname] in Ff.
      split; [cbn [dec_members]; rewrite Kf; cbn [bind]; rewrite Ff; cbn [dec_field]; rewrite Af, Dj; cbn [bind]; exact Dm|].
      split.
      * constructor; [|exact Ag]. cbn [agree]. rewrite (Ke A get); [apply Lf|].
        rewrite Forall_forall in Hf |- *. intros g Hg. specialize (Hf g Hg). destruct g. exact (proj2 Hf).
      * intros B g K. rewrite (Ke B g (Forall_inv_tail K)). exact (Forall_inv K (get z) y0).
Qed.

(** Keys that match no field are skipped. *)
Definition skipped (ld : list (field T)) (n : nat) (p : string * json) : Prop :=
  quote_str (fst p) = fst p /\ utf8_str (fst p) /\ find_field ld (fst p) = None /\ wf_json n (snd p).
Lemma dec_skip ld n pre : Forall (skipped ld n) pre -> forall x, dec_members ld x pre = Ok x.
Proof.
  intros H. induction H as [|[k j] pre (Q & U & N & _) H IH]; intros x; [reflexivity|].
  cbn [fst] in *. cbn [dec_members]. pose proof (key_of_quote _ U) as K. rewrite Q in K. rewrite K. cbn [bind]. rewrite N.
  cbn [bind]. apply IH.
Qed.

Lemma rt_fields ld le n d x z : Forall (plain ld) le -> Forall lens le -> ForallOrdPairs indep le ->
  Forall (fspec n d x z) le ->
  (forall y, Forall (agree y z) le -> (forall B (g : T -> B), Forall (keeps g) le -> g y = g d) -> y = z) ->
  forall pre, Forall (skipped ld n) pre ->
  exists m, enc_fields le x = Ok m /\ wf_json (S n) (JObj (pre ++ m)) /\ dec_struct ld d (JObj (pre ++ m)) = Ok z.
Proof.
  intros P L I S Ext pre Hp.
  destruct (enc_dec_fields ld n d x z le P L I S d) as (m & y & Em & Wm & Dm & Ag & Ke).
  { rewrite Forall_forall. intros f _. destruct f. reflexivity. }
  exists m. split; [exact Em|]. split.
  - constructor. apply Forall_app. split; [|exact Wm]. rewrite Forall_forall in Hp |- *. intros p H.
    destruct (Hp p H) as (Q & _ & _ & W). split; [rewrite <- Q; apply quote_str_body|exact W].
  - cbn [dec_struct]. rewrite dec_members_app, (dec_skip ld n pre Hp). cbn [bind]. rewrite Dm. f_equal. apply Ext; assumption.
Qed.
End StructRt.
