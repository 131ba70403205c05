(** Proofs about JSON text: the scanner reads every text of a tree, the
    printers produce texts of their tree, strings survive quoting. *)
From Verif Require Import Base BaseFacts Base64Proofs Types Doc JsonText SpecText.

(** ** Scanning in pieces *)
Lemma scan_app l1 l2 c : scan c (l1 ++ l2) =
  match scan c l1 with
  | More c' => scan c' l2
  | Done v r => Done v (r ++ l2)
  | Syntax => Syntax
  end.
Proof.
  revert c. induction l1 as [|b l1 IH]; intros c; cbn [app scan]; [reflexivity|].
  destruct (step c b); [apply IH|reflexivity|reflexivity|reflexivity].
Qed.

(** ** Bytes *)
Lemma b2z_z2b k : 0 <= k < 256 -> b2z (z2b k) = k.
Proof. intros H. unfold b2z, z2b. rewrite N_ascii_embedding; lia. Qed.

Lemma b2z_inj a b : b2z a = b2z b -> a = b.
Proof.
  intros H. rewrite <- (z2b_eq a (b2z a)) by (rewrite Z.mod_small; [reflexivity|apply b2z_bound]).
  rewrite H. apply z2b_eq. rewrite Z.mod_small; [reflexivity|apply b2z_bound].
Qed.

Lemma space_is b : space b -> is_space b = true.
Proof. intros [<-|[<-|[<-|[<-|[]]]]]; reflexivity. Qed.

Lemma is_space_iff b : is_space b = true <-> space b.
Proof.
  split; [|apply space_is]. unfold is_space, space. intros H.
  assert (K : b2z b = 32 \/ b2z b = 9 \/ b2z b = 13 \/ b2z b = 10) by lia.
  cbn [In]. destruct K as [K|[K|[K|K]]]; [left|right; left|right; right; right; left|right; right; left];
    apply b2z_inj; rewrite K; reflexivity.
Qed.

(** White space is skipped in front of every token. *)
Definition ws_state (x : lex) : Prop :=
  match x with LVal | LValOrEnd | LKeyOrEnd | LKey | LColon | LEnd => True | _ => False end.

Lemma scan_ws w st x l : ws w -> ws_state x -> scan (st, x) (w ++ l) = scan (st, x) l.
Proof.
  intros Hw Hx. induction w as [|b w IH]; [reflexivity|].
  cbn [app scan]. pose proof (space_is b (Forall_inv Hw)) as Hb.
  assert (E : step (st, x) b = Run (st, x)).
  { destruct x; try contradiction; cbn [step]; unfold step_value, step_end; rewrite Hb; reflexivity. }
  rewrite E. apply IH. exact (Forall_inv_tail Hw).
Qed.

(** ** Strings *)
Lemma hex_is b : hex b -> is_hex b = true.
Proof. unfold hex. cbn. intros H. repeat (destruct H as [<-|H]; [reflexivity|]). contradiction. Qed.

Lemma scan_string s : string_body s -> forall st k acc l,
  scan (st, LStr k acc) (s ++ l) = scan (st, LStr k (rev s ++ acc)) l.
Proof.
  intros H. induction H as [|b t H1 H2 H3 Ht IH|b t Hi Ht IH|h1 h2 h3 h4 t Hh1 Hh2 Hh3 Hh4 Ht IH]; intros st k acc l; cbn [app].
  - reflexivity.
  - cbn [scan step].
    destruct (b2z b =? 34) eqn:E1; [lia|]. destruct (b2z b =? 92) eqn:E2; [lia|].
    destruct (b2z b <? 32) eqn:E3; [lia|]. rewrite IH. cbn [rev]. rewrite <- app_assoc. reflexivity.
  - cbn [scan step]. change (b2z (z2b 92)) with 92. cbn [Z.eqb Pos.eqb].
    assert (E : (b2z b =? 98) || (b2z b =? 102) || (b2z b =? 110) || (b2z b =? 114) || (b2z b =? 116)
         || (b2z b =? 92) || (b2z b =? 47) || (b2z b =? 34) = true).
    { cbn in Hi. repeat (destruct Hi as [<-|Hi]; [reflexivity|]). contradiction. }
    cbn [step]. rewrite E. rewrite IH. cbn [rev]. rewrite <- !app_assoc. reflexivity.
  - cbn [scan step]. change (b2z (z2b 92)) with 92. cbn [Z.eqb Pos.eqb].
    cbn [step]. change (b2z "u"%char) with 117. cbn [Z.eqb Pos.eqb orb].
    cbn [scan step]. rewrite (hex_is h1 Hh1). cbn [scan step]. rewrite (hex_is h2 Hh2).
    cbn [scan step]. rewrite (hex_is h3 Hh3). cbn [scan step]. rewrite (hex_is h4 Hh4).
    rewrite IH. cbn [rev]. rewrite <- !app_assoc. reflexivity.
Qed.

Lemma scan_str_value s st l : string_body (str_bytes s) ->
  scan (st, LVal) ((z2b 34 :: str_bytes s ++ [z2b 34]) ++ l) = scan (value_done st (JStr s)) l.
Proof.
  intros H. rewrite <- app_comm_cons, <- app_assoc. cbn [scan step]. unfold step_value.
  change (is_space (z2b 34)) with false. change (b2z (z2b 34)) with 34. cbn [Z.eqb Pos.eqb].
  rewrite scan_string by exact H. rewrite app_nil_r. cbn [app scan step].
  change (b2z (z2b 34)) with 34. cbn [Z.eqb Pos.eqb]. unfold string_done.
  rewrite rev_involutive, bytes_str_bytes. reflexivity.
Qed.

Lemma scan_str_key s m k0 st x l : x = LKey \/ x = LKeyOrEnd -> string_body (str_bytes s) ->
  scan (FObj m k0 :: st, x) ((z2b 34 :: str_bytes s ++ [z2b 34]) ++ l) = scan (FObj m s :: st, LColon) l.
Proof.
  intros Hx H. rewrite <- app_comm_cons, <- app_assoc. cbn [scan].
  assert (E : step (FObj m k0 :: st, x) (z2b 34) = Run (FObj m k0 :: st, LStr true []))
    by (destruct Hx as [-> | ->]; reflexivity).
  rewrite E. rewrite scan_string by exact H. rewrite app_nil_r. cbn [app scan step].
  change (b2z (z2b 34)) with 34. cbn [Z.eqb Pos.eqb]. unfold string_done.
  rewrite rev_involutive, bytes_str_bytes. reflexivity.
Qed.

(** ** Numbers *)
Definition num_end (b : byte) : Prop := forall ns, num_step ns b = None.

Fixpoint num_run (ns : numst) (l : bytes) : option numst :=
  match l with
  | [] => Some ns
  | b :: l' => match num_step ns b with Some ns' => num_run ns' l' | None => None end
  end.

Lemma num_run_app l1 l2 ns : num_run ns (l1 ++ l2) =
  match num_run ns l1 with Some ns' => num_run ns' l2 | None => None end.
Proof.
  revert ns. induction l1 as [|b l1 IH]; intros ns; cbn; [reflexivity|].
  destruct (num_step ns b); [apply IH|reflexivity].
Qed.

Lemma is_digit_iff b : is_digit b = true <-> digit b.
Proof. unfold is_digit, in_range, digit. lia. Qed.

Lemma num_run_digits ns t : (ns = NInt \/ ns = NFrac \/ ns = NExp) -> Forall digit t -> num_run ns t = Some ns.
Proof.
  intros Hn H. induction H as [|b t Hb Ht IH]; cbn; [reflexivity|].
  apply is_digit_iff in Hb. destruct Hn as [-> |[-> | ->]]; cbn; rewrite Hb; exact IH.
Qed.

(** First state of a number, after its first byte. *)
Definition num_start (b : byte) : option numst :=
  if b2z b =? 45 then Some NNeg else if b2z b =? 48 then Some NZero
  else if in_range 49 57 b then Some NInt else None.

Lemma digit_step ns b : digit b -> (ns = NDot \/ ns = NE \/ ns = NESign) ->
  num_step ns b = Some (match ns with NDot => NFrac | _ => NExp end).
Proof.
  intros H Hn. pose proof H as H'. apply is_digit_iff in H'. unfold digit in H.
  destruct Hn as [-> |[-> | ->]]; cbn [num_step]; rewrite H'; try reflexivity.
  destruct ((b2z b =? 43) || (b2z b =? 45)) eqn:E; [lia|reflexivity].
Qed.

Lemma json_number_run l : json_number l ->
  exists b t ns ns', l = b :: t /\ num_start b = Some ns /\ num_run ns t = Some ns' /\ num_ok ns' = true.
Proof.
  intros (sg & int & frac & exp & -> & Hs & Hi & Hf & He).
  (* the part after the integer *)
  assert (T : forall ns, (ns = NZero \/ ns = NInt) ->
    exists ns', num_run ns (frac ++ exp) = Some ns' /\ num_ok ns' = true).
  { intros ns Hns.
    assert (X : forall ns, (ns = NZero \/ ns = NInt \/ ns = NFrac) ->
      exists ns', num_run ns exp = Some ns' /\ num_ok ns' = true).
    { intros n1 Hn1. destruct He as [->|(e & s & t & -> & Ie & Is & Nt & Dt)].
      - exists n1. split; [reflexivity|]. destruct Hn1 as [->|[->| ->]]; reflexivity.
      - exists NExp. split; [|reflexivity]. cbn [num_run].
        assert (E : num_step n1 e = Some NE).
        { cbn in Ie. destruct Ie as [<-|[<-|[]]]; destruct Hn1 as [->|[->| ->]]; reflexivity. }
        rewrite E. rewrite num_run_app. destruct t as [|d t]; [contradiction|].
        pose proof (Forall_inv Dt) as Dd. pose proof (Forall_inv_tail Dt) as Dr.
        destruct Is as [->|[->| ->]]; cbn [num_run].
        + rewrite (digit_step NE d Dd) by tauto. apply num_run_digits; tauto.
        + change (num_run NE (str_bytes "+")) with (Some NESign). cbv iota beta.
          rewrite (digit_step NESign d Dd) by tauto. apply num_run_digits; tauto.
        + change (num_run NE (str_bytes "-")) with (Some NESign). cbv iota beta.
          rewrite (digit_step NESign d Dd) by tauto. apply num_run_digits; tauto. }
    rewrite num_run_app. destruct Hf as [->|(t & -> & Nt & Dt)].
    - cbn [num_run]. apply X. destruct Hns; tauto.
    - cbn [num_run].
      assert (E : num_step ns "."%char = Some NDot) by (destruct Hns as [->| ->]; reflexivity).
      rewrite E. destruct t as [|d t]; [contradiction|]. cbn [num_run].
      pose proof (Forall_inv Dt) as Dd. pose proof (Forall_inv_tail Dt) as Dr.
      rewrite (digit_step NDot d Dd) by tauto. rewrite num_run_digits by tauto. apply X. tauto. }
  destruct Hs as [->| ->]; cbn [app].
  - destruct Hi as [->|(b & t & -> & Hb & Dt)].
    + destruct (T NZero ltac:(tauto)) as (ns' & R & O).
      exists "0"%char, (frac ++ exp), NZero, ns'. repeat split; assumption.
    + destruct (T NInt ltac:(tauto)) as (ns' & R & O).
      exists b, (t ++ frac ++ exp), NInt, ns'. split; [reflexivity|].
      split; [unfold num_start, in_range; destruct (b2z b =? 45) eqn:?; [lia|]; destruct (b2z b =? 48) eqn:?; [lia|];
        replace ((49 <=? b2z b) && (b2z b <=? 57)) with true by lia; reflexivity|].
      split; [rewrite num_run_app, num_run_digits by tauto; exact R|exact O].
  - destruct Hi as [->|(b & t & -> & Hb & Dt)].
    + destruct (T NZero ltac:(tauto)) as (ns' & R & O).
      exists "-"%char, ("0"%char :: frac ++ exp), NNeg, ns'. repeat split; assumption.
    + destruct (T NInt ltac:(tauto)) as (ns' & R & O).
      exists "-"%char, (b :: t ++ frac ++ exp), NNeg, ns'. split; [reflexivity|]. split; [reflexivity|].
      split; [|exact O]. cbn [num_run num_step]. destruct (b2z b =? 48) eqn:?; [lia|].
      unfold in_range. replace ((49 <=? b2z b) && (b2z b <=? 57)) with true by lia.
      rewrite num_run_app, num_run_digits by tauto. exact R.
Qed.

Lemma scan_num_run t : forall ns ns' st acc l, num_run ns t = Some ns' ->
  scan (st, LNum ns acc) (t ++ l) = scan (st, LNum ns' (rev t ++ acc)) l.
Proof.
  induction t as [|b t IH]; intros ns ns' st acc l H; cbn in H.
  - injection H as ->. reflexivity.
  - cbn [app scan step]. destruct (num_step ns b) as [n1|]; [|discriminate].
    rewrite (IH _ _ _ _ _ H). cbn [rev]. rewrite <- app_assoc. reflexivity.
Qed.

Lemma num_start_step b ns st : num_start b = Some ns -> step (st, LVal) b = Run (st, LNum ns [b]).
Proof.
  unfold num_start. intros H. cbn [step]. unfold step_value, is_space.
  destruct (b2z b =? 45) eqn:E1.
  { injection H as <-. rewrite (proj1 (Z.eqb_eq _ _) E1). reflexivity. }
  destruct (b2z b =? 48) eqn:E2.
  { injection H as <-. rewrite (proj1 (Z.eqb_eq _ _) E2). reflexivity. }
  destruct (in_range 49 57 b) eqn:E3; [|discriminate]. injection H as <-.
  unfold in_range in E3.
  replace ((b2z b =? 32) || (b2z b =? 9) || (b2z b =? 13) || (b2z b =? 10)) with false by lia.
  replace (b2z b =? 123) with false by lia. replace (b2z b =? 91) with false by lia.
  replace (b2z b =? 34) with false by lia. replace (b2z b =? 116) with false by lia.
  replace (b2z b =? 102) with false by lia. replace (b2z b =? 110) with false by lia. reflexivity.
Qed.

(** ** Values *)

(** What follows a value inside a container: white space, a comma or a
    closing bracket. *)
Definition delim (b : byte) : Prop := space b \/ In b (str_bytes ",]}").
Definition delimited (l : bytes) : Prop := match l with b :: _ => delim b | [] => False end.

Lemma delim_num_end b : delim b -> num_end b.
Proof.
  intros [H|H] ns.
  - destruct H as [<-|[<-|[<-|[<-|[]]]]]; destruct ns; reflexivity.
  - cbn in H. destruct H as [<-|[<-|[<-|[]]]]; destruct ns; reflexivity.
Qed.

Lemma delimited_ws w l : ws w -> delimited l -> delimited (w ++ l).
Proof. intros H Hl. destruct w; [exact Hl|]. left. exact (Forall_inv H). Qed.

Lemma value_done_cons f st v : exists f', value_done (f :: st) v = (f' :: st, LEnd).
Proof. destruct f; eexists; reflexivity. Qed.

Definition finish (st : list frame) (v : json) (l : bytes) : scan_res :=
  match close st v with
  | Run c => scan c l
  | FinAfter v => Done v l
  | FinBefore v => Done v l
  | Bad => Syntax
  end.

Lemma text_head v t n : text_of v t -> wf_json n v -> exists b r, t = b :: r /\ is_space b = false /\ (b2z b =? 93) = false.
Proof.
  intros T W. destruct T; inversion W; subst; cbn [str_bytes list_ascii_of_string];
    try (eexists; eexists; split; [reflexivity|]; split; reflexivity).
  apply json_number_run in H1. destruct H1 as (b & t & ns & ns' & E & S & _). unfold str_bytes in E. exists b, t.
  split; [exact E|]. unfold num_start, in_range in S. unfold is_space.
  destruct (b2z b =? 45) eqn:?; [lia|]. destruct (b2z b =? 48) eqn:?; [lia|].
  destruct ((49 <=? b2z b) && (b2z b <=? 57)) eqn:?; [lia|discriminate].
Qed.

Scheme text_ind' := Induction for text_of Sort Prop
  with elems_ind' := Induction for elems_of Sort Prop
  with members_ind' := Induction for members_of Sort Prop.
Combined Scheme texts_ind from text_ind', elems_ind', members_ind'.

Definition container (v : json) : Prop := match v with JArr _ | JObj _ => True | _ => False end.

Theorem scan_text :
  (forall v t, text_of v t -> forall n st l, wf_json n v -> zlen st + Z.of_nat n <= max_depth ->
     (container v -> scan (st, LVal) (t ++ l) = finish st v l) /\
     (st <> [] -> delimited l -> scan (st, LVal) (t ++ l) = scan (value_done st v) l)) /\
  (forall es t, elems_of es t -> forall n st acc l, Forall (wf_json n) es ->
     zlen st + 1 + Z.of_nat n <= max_depth ->
     (es <> [] -> scan (FArr acc :: st, LVal) (t ++ "]"%char :: l) = finish st (JArr (rev acc ++ es)) l) /\
     (acc = [] -> scan (FArr [] :: st, LValOrEnd) (t ++ "]"%char :: l) = finish st (JArr es) l)) /\
  (forall ms t, members_of ms t -> forall n st acc k0 l,
     Forall (fun p => string_body (str_bytes (fst p)) /\ wf_json n (snd p)) ms ->
     zlen st + 1 + Z.of_nat n <= max_depth ->
     (ms <> [] -> scan (FObj acc k0 :: st, LKey) (t ++ "}"%char :: l) = finish st (JObj (rev acc ++ ms)) l) /\
     (acc = [] -> scan (FObj [] k0 :: st, LKeyOrEnd) (t ++ "}"%char :: l) = finish st (JObj ms) l)).
Proof.
  apply texts_ind.
  - intros n st l _ _. split; [intros []|]. intros _ _. reflexivity.
  - intros n st l _ _. split; [intros []|]. intros _ _. reflexivity.
  - intros n st l _ _. split; [intros []|]. intros _ _. reflexivity.
  - intros s n st l W _. split; [intros []|]. intros Ns Dl. inversion W; subst.
    destruct (json_number_run _ H1) as (b & t & ns & ns' & E & S & R & O).
    rewrite E. cbn [app scan]. rewrite (num_start_step _ _ _ S), (scan_num_run _ _ _ _ _ _ R).
    destruct l as [|c l]; [contradiction|]. cbn [scan].
    assert (X : step (st, LNum ns' (rev t ++ [b])) c =
       match value_done st (JNum s) with (st', LEnd) => step_end st' c | _ => FinBefore (JNum s) end).
    { cbn [step]. rewrite (delim_num_end c Dl ns'), O, rev_app_distr, rev_involutive.
      cbn [rev app]. rewrite <- E, bytes_str_bytes. reflexivity. }
    rewrite X. destruct st as [|f st]; [contradiction|].
    destruct (value_done_cons f st (JNum s)) as [f' Ef]. rewrite Ef. reflexivity.
  - intros s n st l W _. split; [intros []|]. intros Ns Dl. inversion W; subst.
    apply scan_str_value. assumption.
  - intros es t Ht IH n st l W Hd.
    assert (F : scan (st, LVal) (("["%char :: t ++ str_bytes "]") ++ l) = finish st (JArr es) l).
    { inversion W as [| | | |n' l' Hw|]; subst. cbn [app scan step]. unfold step_value.
      change (is_space "["%char) with false. change (b2z "["%char) with 91. cbn [Z.eqb Pos.eqb].
      unfold push. replace (zlen st + 1 <=? max_depth) with true by lia.
      rewrite <- app_assoc. change (str_bytes "]" ++ l) with ("]"%char :: l).
      refine (proj2 (IH n' st [] l Hw ltac:(lia)) eq_refl). }
    split; [intros _; exact F|]. intros Ns Dl. rewrite F. unfold finish, close.
    destruct st; [contradiction|reflexivity].
  - intros ms t Ht IH n st l W Hd.
    assert (F : scan (st, LVal) (("{"%char :: t ++ str_bytes "}") ++ l) = finish st (JObj ms) l).
    { inversion W as [| | | | |n' l' Hw]; subst. cbn [app scan step]. unfold step_value.
      change (is_space "{"%char) with false. change (b2z "{"%char) with 123. cbn [Z.eqb Pos.eqb].
      unfold push. replace (zlen st + 1 <=? max_depth) with true by lia.
      rewrite <- app_assoc. change (str_bytes "}" ++ l) with ("}"%char :: l).
      refine (proj2 (IH n' st [] ""%string l Hw ltac:(lia)) eq_refl). }
    split; [intros _; exact F|]. intros Ns Dl. rewrite F. unfold finish, close.
    destruct st; [contradiction|reflexivity].
  - (* no element *)
    intros w Hw n st acc l _ _. split; [intros []; reflexivity|]. intros _.
    rewrite scan_ws by (exact Hw || exact I). cbn [scan step].
    change (is_space "]"%char) with false. change (b2z "]"%char) with 93. cbn [Z.eqb Pos.eqb].
    unfold finish. destruct (close st (JArr [])) eqn:E; try reflexivity.
    unfold close in E. destruct st; discriminate.
  - (* last element *)
    intros v w1 t w2 Hw1 Hw2 Ht IH n st acc l Hf Hd.
    pose proof (Forall_inv Hf) as Wv.
    assert (G : forall acc, scan (FArr acc :: st, LVal) (t ++ w2 ++ "]"%char :: l) = finish st (JArr (rev acc ++ [v])) l).
    { intros a. destruct (IH n (FArr a :: st) (w2 ++ "]"%char :: l) Wv) as [_ IHv].
      { unfold zlen in *. cbn [List.length]. lia. }
      rewrite IHv; [|discriminate|apply delimited_ws; [exact Hw2|right; cbn; tauto]].
      cbn [value_done]. rewrite scan_ws by (exact Hw2 || exact I). cbn [scan step]. unfold step_end.
      change (is_space "]"%char) with false. change (b2z "]"%char) with 93. cbn [Z.eqb Pos.eqb rev].
      unfold finish. destruct (close st (JArr (rev a ++ [v]))) eqn:E; try reflexivity.
      unfold close in E. destruct st; discriminate. }
    rewrite <- !app_assoc. split.
    + intros _. rewrite scan_ws by (exact Hw1 || exact I). apply G.
    + intros _. rewrite scan_ws by (exact Hw1 || exact I).
      rewrite <- (app_nil_l [v]). change (@nil json) with (rev (@nil json)). rewrite <- G.
      destruct (text_head _ _ _ Ht Wv) as (b & r & -> & Sb & Nb).
      cbn [app scan step]. rewrite Sb, Nb. reflexivity.
  - (* more elements *)
    intros v v2 es w1 t w2 t2 Hw1 Hw2 Ht IH Hes IHes n st acc l Hf Hd.
    pose proof (Forall_inv Hf) as Wv. pose proof (Forall_inv_tail Hf) as We.
    assert (G : forall acc, scan (FArr acc :: st, LVal) (t ++ w2 ++ ","%char :: t2 ++ "]"%char :: l)
                = finish st (JArr (rev acc ++ v :: v2 :: es)) l).
    { intros a. destruct (IH n (FArr a :: st) (w2 ++ ","%char :: t2 ++ "]"%char :: l) Wv) as [_ IHv].
      { unfold zlen in *. cbn [List.length]. lia. }
      rewrite IHv; [|discriminate|apply delimited_ws; [exact Hw2|right; cbn; tauto]].
      cbn [value_done]. rewrite scan_ws by (exact Hw2 || exact I). cbn [scan step]. unfold step_end.
      change (is_space ","%char) with false. change (b2z ","%char) with 44. cbn [Z.eqb Pos.eqb].
      destruct (IHes n st (v :: a) l We Hd) as [IHe _]. rewrite IHe by discriminate.
      cbn [rev]. rewrite <- app_assoc. reflexivity. }
    rewrite <- !app_assoc, <- app_comm_cons. split.
    + intros _. rewrite scan_ws by (exact Hw1 || exact I). apply G.
    + intros _. rewrite scan_ws by (exact Hw1 || exact I).
      rewrite <- (app_nil_l (v :: v2 :: es)). change (@nil json) with (rev (@nil json)). rewrite <- G.
      destruct (text_head _ _ _ Ht Wv) as (b & r & -> & Sb & Nb).
      cbn [app scan step]. rewrite Sb, Nb. reflexivity.
  - (* no member *)
    intros w Hw n st acc k0 l _ _. split; [intros []; reflexivity|]. intros _.
    rewrite scan_ws by (exact Hw || exact I). cbn [scan step].
    change (is_space "}"%char) with false. change (b2z "}"%char) with 125. cbn [Z.eqb Pos.eqb].
    unfold finish. destruct (close st (JObj [])) eqn:E; try reflexivity.
    unfold close in E. destruct st; discriminate.
  - (* last member *)
    intros k v w1 w2 w3 w4 t Hw1 Hw2 Hw3 Hw4 Ht IH n st acc k0 l Hf Hd.
    destruct (Forall_inv Hf) as [Wk Wv]. cbn [fst snd] in Wk, Wv.
    assert (G : forall x acc, x = LKey \/ x = LKeyOrEnd ->
      scan (FObj acc k0 :: st, x) (w1 ++ (z2b 34 :: str_bytes k ++ [z2b 34]) ++ w2 ++ ":"%char :: w3 ++ t ++ w4 ++ "}"%char :: l)
      = finish st (JObj (rev acc ++ [(k, v)])) l).
    { intros x a Hx. rewrite scan_ws by (try exact Hw1; destruct Hx as [-> | ->]; exact I).
      rewrite scan_str_key by assumption. rewrite scan_ws by (exact Hw2 || exact I). cbn [scan step].
      change (is_space ":"%char) with false. change (b2z ":"%char) with 58. cbn [Z.eqb Pos.eqb].
      rewrite scan_ws by (exact Hw3 || exact I).
      destruct (IH n (FObj a k :: st) (w4 ++ "}"%char :: l) Wv) as [_ IHv].
      { unfold zlen in *. cbn [List.length]. lia. }
      rewrite IHv; [|discriminate|apply delimited_ws; [exact Hw4|right; cbn; tauto]].
      cbn [value_done]. rewrite scan_ws by (exact Hw4 || exact I). cbn [scan step]. unfold step_end.
      change (is_space "}"%char) with false. change (b2z "}"%char) with 125. cbn [Z.eqb Pos.eqb rev].
      unfold finish. destruct (close st (JObj (rev a ++ [(k, v)]))) eqn:E; try reflexivity.
      unfold close in E. destruct st; discriminate. }
    match goal with |- context [scan _ (?T ++ _)] =>
      replace (T ++ "}"%char :: l) with (w1 ++ (z2b 34 :: str_bytes k ++ [z2b 34]) ++ w2 ++ ":"%char :: w3 ++ t ++ w4 ++ "}"%char :: l)
        by (rewrite <- ?app_assoc; cbn [app]; rewrite <- ?app_assoc; cbn [app]; rewrite <- ?app_assoc; reflexivity) end.
    split; intros _; apply G; tauto.
  - (* more members *)
    intros k v p ms w1 w2 w3 w4 t t2 Hw1 Hw2 Hw3 Hw4 Ht IH Hms IHms n st acc k0 l Hf Hd.
    destruct (Forall_inv Hf) as [Wk Wv]. cbn [fst snd] in Wk, Wv. pose proof (Forall_inv_tail Hf) as We.
    assert (G : forall x acc, x = LKey \/ x = LKeyOrEnd ->
      scan (FObj acc k0 :: st, x) (w1 ++ (z2b 34 :: str_bytes k ++ [z2b 34]) ++ w2 ++ ":"%char :: w3 ++ t ++ w4 ++ ","%char :: t2 ++ "}"%char :: l)
      = finish st (JObj (rev acc ++ (k, v) :: p :: ms)) l).
    { intros x a Hx. rewrite scan_ws by (try exact Hw1; destruct Hx as [-> | ->]; exact I).
      rewrite scan_str_key by assumption. rewrite scan_ws by (exact Hw2 || exact I). cbn [scan step].
      change (is_space ":"%char) with false. change (b2z ":"%char) with 58. cbn [Z.eqb Pos.eqb].
      rewrite scan_ws by (exact Hw3 || exact I).
      destruct (IH n (FObj a k :: st) (w4 ++ ","%char :: t2 ++ "}"%char :: l) Wv) as [_ IHv].
      { unfold zlen in *. cbn [List.length]. lia. }
      rewrite IHv; [|discriminate|apply delimited_ws; [exact Hw4|right; cbn; tauto]].
      cbn [value_done]. rewrite scan_ws by (exact Hw4 || exact I). cbn [scan step]. unfold step_end.
      change (is_space ","%char) with false. change (b2z ","%char) with 44. cbn [Z.eqb Pos.eqb].
      destruct (IHms n st ((k, v) :: a) k l We Hd) as [IHe _]. rewrite IHe by discriminate.
      cbn [rev]. rewrite <- app_assoc. reflexivity. }
    match goal with |- context [scan _ (?T ++ _)] =>
      replace (T ++ "}"%char :: l) with (w1 ++ (z2b 34 :: str_bytes k ++ [z2b 34]) ++ w2 ++ ":"%char :: w3 ++ t ++ w4 ++ ","%char :: t2 ++ "}"%char :: l)
        by (rewrite <- ?app_assoc; cbn [app]; rewrite <- ?app_assoc; cbn [app]; rewrite <- ?app_assoc; reflexivity) end.
    split; intros _; apply G; tauto.
Qed.
