(** Proofs about buffer URIs. *)
From Verif Require Import Base BaseFacts Base64Proofs Url SpecPath.

Lemma split_joined c l : c = slash -> joined (split c l) = l.
Proof.
  intros ->. induction l as [|x l IH]; [reflexivity|].
  cbn [split]. destruct (Ascii.eqb_spec x slash) as [->|N].
  - change (joined ([] :: split slash l)) with
      (match split slash l with [] => [] | _ => [] ++ slash :: joined (split slash l) end).
    rewrite IH. destruct (split slash l) eqn:E; [|reflexivity].
    exfalso. clear -E. destruct l; cbn in E; [discriminate|].
    destruct (Ascii.eqb a slash); [discriminate|]. destruct (split slash l); discriminate.
  - destruct (split slash l) as [|s r] eqn:E; [cbn in IH; subst; reflexivity|].
    rewrite <- IH. destruct r; reflexivity.
Qed.

Lemma split_nonnil c l : split c l <> [].
Proof.
  destruct l; cbn; [discriminate|]. destruct (Ascii.eqb a c); [discriminate|].
  destruct (split c l); discriminate.
Qed.

Lemma split_noslash c l : Forall (fun e => ~ In c e) (split c l).
Proof.
  induction l as [|x l IH]; cbn [split]; [repeat constructor; intros []|].
  destruct (Ascii.eqb_spec x c) as [->|N]; [constructor; [intros []|exact IH]|].
  destruct (split c l); constructor; try (inversion IH; subst).
  - intros [->|[]]. contradiction.
  - constructor.
  - intros [->|Hi]; contradiction.
  - assumption.
Qed.

Lemma split_app c e l : ~ In c e -> split c (e ++ c :: l) = e :: split c l.
Proof.
  induction e as [|x e IH]; intros H; cbn [app split].
  - rewrite Ascii.eqb_refl. reflexivity.
  - destruct (Ascii.eqb_spec x c) as [->|N]; [exfalso; apply H; left; reflexivity|].
    rewrite IH by (intros Hi; apply H; right; exact Hi). reflexivity.
Qed.

Lemma split_single c e : ~ In c e -> split c e = [e].
Proof.
  induction e as [|x e IH]; intros H; cbn [split]; [reflexivity|].
  destruct (Ascii.eqb_spec x c) as [->|N]; [exfalso; apply H; left; reflexivity|].
  rewrite IH by (intros Hi; apply H; right; exact Hi). reflexivity.
Qed.

Lemma split_join elems : elems <> [] -> Forall (fun e => ~ In slash e) elems ->
  split slash (joined elems) = elems.
Proof.
  induction elems as [|e [|f r] IH]; intros N H; [contradiction| |].
  - apply split_single. inversion H; assumption.
  - change (joined (e :: f :: r)) with (e ++ slash :: joined (f :: r)).
    rewrite split_app by (inversion H; assumption). f_equal. apply IH; [discriminate|].
    inversion H; assumption.
Qed.

Lemma is_dot_eq e : is_dot e = true <-> e = str_bytes ".".
Proof.
  destruct e as [|a [|b e]]; cbn; split; intros H; try discriminate.
  - apply Ascii.eqb_eq in H. subst. reflexivity.
  - injection H as ->. reflexivity.
Qed.
Lemma is_dotdot_eq e : is_dotdot e = true <-> e = str_bytes "..".
Proof.
  destruct e as [|a [|b [|c e]]]; cbn; split; intros H; try discriminate.
  - apply andb_true_iff in H. destruct H as [H1 H2].
    apply Ascii.eqb_eq in H1, H2. subst. reflexivity.
  - injection H as -> ->. reflexivity.
Qed.

(** The model's tests, as seen by [walk]. *)
Lemma walk_cons d e r :
  walk d (e :: r) =
  if (List.length e =? 0)%nat || is_dot e then walk d r
  else if is_dotdot e then match d with O => None | S d' => walk d' r end
  else walk (S d) r.
Proof.
  cbn [walk]. destruct (list_eq_dec ascii_dec e []) as [->|N0]; [reflexivity|].
  destruct e as [|a e]; [contradiction|]. cbn [List.length Nat.eqb orb].
  destruct (list_eq_dec ascii_dec (a :: e) (str_bytes ".")) as [->|N1]; [reflexivity|].
  destruct (is_dot (a :: e)) eqn:D; [apply is_dot_eq in D; contradiction|].
  destruct (list_eq_dec ascii_dec (a :: e) (str_bytes "..")) as [->|N2]; [reflexivity|].
  destruct (is_dotdot (a :: e)) eqn:D2; [apply is_dotdot_eq in D2; contradiction|].
  reflexivity.
Qed.

Lemma clean_bottom_dotdot elems : forall stack b,
  is_dotdot b = true -> exists rest, clean_elems (stack ++ [b]) elems = b :: rest.
Proof.
  induction elems as [|e r IH]; intros stack b Hb; cbn [clean_elems].
  - rewrite rev_app_distr. eexists. reflexivity.
  - destruct ((List.length e =? 0)%nat || is_dot e); [apply IH; exact Hb|].
    destruct (is_dotdot e) eqn:D.
    + destruct stack as [|t stack]; cbn [app].
      * rewrite Hb. apply (IH [e] b Hb).
      * destruct (is_dotdot t); [apply (IH (e :: t :: stack) b Hb)|apply IH; exact Hb].
    + apply (IH (e :: stack) b Hb).
Qed.

Definition no_dotdot (e : bytes) : Prop := is_dotdot e = false.

Lemma clean_walk elems : forall stack, Forall no_dotdot stack ->
  match walk (List.length stack) elems with
  | Some _ => Forall no_dotdot (clean_elems stack elems)
  | None => exists e rest, clean_elems stack elems = e :: rest /\ is_dotdot e = true
  end.
Proof.
  induction elems as [|e r IH]; intros stack Hs.
  - cbn. apply Forall_rev. exact Hs.
  - rewrite walk_cons. cbn [clean_elems].
    destruct ((List.length e =? 0)%nat || is_dot e); [apply IH; exact Hs|].
    destruct (is_dotdot e) eqn:D.
    + destruct stack as [|t stack].
      * cbn [List.length]. destruct (clean_bottom_dotdot r [] e D) as [rest Hr].
        cbn [app] in Hr. rewrite Hr. eauto.
      * cbn [List.length]. pose proof (Forall_inv Hs) as Ht. unfold no_dotdot in Ht. rewrite Ht.
        apply IH. exact (Forall_inv_tail Hs).
    + apply (IH (e :: stack)). constructor; assumption.
Qed.

Lemma walk_no_dots elems d :
  Forall no_dotdot elems -> walk d elems <> None.
Proof.
  revert d. induction elems as [|e r IH]; intros d H; [discriminate|].
  rewrite walk_cons. pose proof (Forall_inv H) as He. unfold no_dotdot in He. rewrite He.
  destruct (_ || _); apply IH; exact (Forall_inv_tail H).
Qed.

Lemma has_prefix_app p l : has_prefix p l = true <-> exists t, l = p ++ t.
Proof.
  revert l. induction p as [|a p IH]; intros l; cbn; [split; eauto|].
  destruct l as [|b l]; [split; [discriminate|intros [t E]; discriminate]|].
  rewrite andb_true_iff, Ascii.eqb_eq, IH. split.
  - intros [-> [t ->]]. eauto.
  - intros [t E]. injection E as -> ->. eauto.
Qed.

(** filepath.IsLocal accepts exactly the local paths. *)
Lemma IsLocal_local p : IsLocal p = true <-> local_path p.
Proof.
  unfold IsLocal, local_path. split.
  - destruct (has_prefix [slash] p || (List.length p =? 0)%nat) eqn:E; [discriminate|].
    apply orb_false_iff in E. destruct E as [E1 E2]. intros H.
    assert (Np : p <> []) by (intros ->; discriminate). split; [exact Np|].
    assert (Nq : forall q, p <> slash :: q).
    { intros q ->. cbn in E1. discriminate. }
    split; [exact Nq|].
    exists (split slash p). split; [apply split_noslash|]. split; [symmetry; apply split_joined; reflexivity|].
    destruct (existsb (fun e => is_dot e || is_dotdot e) (split slash p)) eqn:X.
    + pose proof (clean_walk (split slash p) [] (Forall_nil _)) as C. cbn [List.length] in C.
      destruct (walk 0 (split slash p)); [discriminate|].
      destruct C as (e & rest & Ec & D). rewrite Ec, D in H. discriminate.
    + apply walk_no_dots. apply Forall_forall. intros e He.
      unfold no_dotdot. destruct (is_dotdot e) eqn:D; [|reflexivity].
      exfalso. assert (T : existsb (fun e => is_dot e || is_dotdot e) (split slash p) = true).
      { apply existsb_exists. exists e. rewrite D. split; [exact He|apply orb_true_r]. }
      congruence.
  - intros (Np & Nq & elems & Hs & -> & Hw).
    assert (Ne : elems <> []) by (intros ->; apply Np; reflexivity).
    destruct (has_prefix [slash] (joined elems) || (List.length (joined elems) =? 0)%nat) eqn:E.
    { apply orb_true_iff in E. destruct E as [E|E].
      - apply has_prefix_app in E. destruct E as [t E]. exfalso. apply (Nq t). exact E.
      - exfalso. apply Np. destruct (joined elems); [reflexivity|discriminate]. }
    rewrite split_join by assumption.
    destruct (existsb (fun e => is_dot e || is_dotdot e) elems) eqn:X.
    + pose proof (clean_walk elems [] (Forall_nil _)) as C. cbn [List.length] in C.
      destruct (walk 0 elems); [|contradiction].
      destruct (clean_elems [] elems) as [|e r]; [reflexivity|].
      pose proof (Forall_inv C) as He. unfold no_dotdot in He. rewrite He. reflexivity.
    + destruct elems as [|e r]; [contradiction|]. cbn in X. apply orb_false_iff in X.
      destruct X as [X _]. apply orb_false_iff in X. destruct X as [_ X]. rewrite X. reflexivity.
Qed.

Lemma is_alpha_letter b : is_alpha b = true <-> letter b.
Proof. unfold is_alpha, letter. lia. Qed.

Lemma is_scheme_rest_char b : is_scheme_rest b = true -> scheme_char b.
Proof.
  intros H. right. unfold is_scheme_rest in H.
  destruct (Z_le_dec 48 (b2z b)); destruct (Z_le_dec (b2z b) 57); [left; lia| | |]; right;
  (assert (K : b2z b = 43 \/ b2z b = 45 \/ b2z b = 46) by lia;
   rewrite <- (z2b_eq b (b2z b)) by (rewrite Z.mod_small by apply b2z_bound; reflexivity);
   destruct K as [K|[K|K]]; rewrite K; cbn; tauto).
Qed.

Lemma get_scheme_from_spec l : forall i a b,
  get_scheme_from i l = Ok (Some (a, b)) ->
  l = a ++ colon :: b /\ Forall scheme_char a /\
  (i = 0%nat -> exists c s, a = c :: s /\ letter c).
Proof.
  induction l as [|x l IH]; intros i a b H; cbn [get_scheme_from] in H; [discriminate|].
  destruct (is_alpha x) eqn:A.
  - destruct (get_scheme_from (S i) l) as [[[a' b']|]|e|] eqn:E; cbn in H; try discriminate.
    injection H as <- <-. destruct (IH _ _ _ E) as (-> & Hf & _).
    split; [reflexivity|]. apply is_alpha_letter in A.
    split; [constructor; [left; exact A|exact Hf]|]. eauto.
  - destruct (is_scheme_rest x) eqn:R.
    + destruct i; [discriminate|].
      destruct (get_scheme_from (S (S i)) l) as [[[a' b']|]|e|] eqn:E; cbn in H; try discriminate.
      injection H as <- <-. destruct (IH _ _ _ E) as (-> & Hf & _).
      split; [reflexivity|]. split; [constructor; [apply is_scheme_rest_char; exact R|exact Hf]|]. discriminate.
    + destruct (Ascii.eqb_spec x colon) as [->|N]; [|discriminate].
      destruct i; [discriminate|]. injection H as <- <-. repeat split; [constructor|discriminate].
Qed.

(** A scheme stays the scheme when something is added behind. *)
Lemma get_scheme_from_app a : forall i l b,
  get_scheme_from i (a ++ colon :: l) = Ok (Some (a, l)) ->
  get_scheme_from i (a ++ colon :: b) = Ok (Some (a, b)).
Proof.
  induction a as [|x a IH]; intros i l b; cbn [app get_scheme_from].
  - change (is_alpha colon) with false. change (is_scheme_rest colon) with false.
    rewrite Ascii.eqb_refl. destruct i; [discriminate|reflexivity].
  - destruct (is_alpha x).
    + destruct (get_scheme_from (S i) (a ++ colon :: l)) as [[[a' b']|]|e|] eqn:E; cbn; try discriminate.
      intros H. injection H as -> ->. rewrite (IH _ _ b E). reflexivity.
    + destruct (is_scheme_rest x).
      * destruct i; [discriminate|].
        destruct (get_scheme_from (S (S i)) (a ++ colon :: l)) as [[[a' b']|]|e|] eqn:E; cbn; try discriminate.
        intros H. injection H as -> ->. rewrite (IH _ _ b E). reflexivity.
      * destruct (Ascii.eqb x colon); [|discriminate]. destruct i; discriminate.
Qed.

Lemma parse_nofrag_scheme U l s : parse_nofrag U l = Ok s ->
  exists a, s = to_lower a /\
    (a = [] \/ exists rest, get_scheme_from 0 l = Ok (Some (a, rest))).
Proof.
  unfold parse_nofrag. destruct (has_ctl l); [discriminate|].
  destruct (has_prefix ["*"%char] l && (List.length l =? 1)%nat).
  { intros H. injection H as <-. exists []. split; [reflexivity|left; reflexivity]. }
  unfold get_scheme. destruct (get_scheme_from 0 l) as [o|e|]; cbn [bind]; [|discriminate|discriminate].
  destruct o as [[a rest]|].
  - intros H. exists a. split; [|right; eauto].
    revert H.
    destruct (negb (has_prefix [slash] (fst (cut "?"%char rest))) && negb (List.length a =? 0)%nat);
      [intros H; injection H as <-; reflexivity|].
    destruct (negb (has_prefix [slash] (fst (cut "?"%char rest))) && _); [discriminate|].
    destruct (_ && has_prefix [slash; slash] _).
    + destruct (cut slash _) as [auth path]. destruct (negb (authority_ok U auth)); [discriminate|].
      destruct (unescape _); cbn; try discriminate. intros H; injection H as <-; reflexivity.
    + destruct (unescape _); cbn; try discriminate. intros H; injection H as <-; reflexivity.
  - intros H. exists []. split; [|left; reflexivity].
    revert H. cbn [List.length Nat.eqb negb andb orb]. rewrite andb_false_r.
    destruct (negb (has_prefix [slash] (fst (cut "?"%char l))) && _); [discriminate|].
    destruct (_ && has_prefix [slash; slash] _).
    + destruct (cut slash _) as [auth path]. destruct (negb (authority_ok U auth)); [discriminate|].
      destruct (unescape _); cbn; try discriminate. intros H; injection H as <-; reflexivity.
    + destruct (unescape _); cbn; try discriminate. intros H; injection H as <-; reflexivity.
Qed.

Lemma cut_app c l : forall a o, cut c l = (a, o) ->
  match o with Some b => l = a ++ c :: b | None => l = a end.
Proof.
  induction l as [|x l IH]; intros a o H; cbn [cut] in H; [injection H as <- <-; reflexivity|].
  destruct (Ascii.eqb_spec x c) as [->|N]; [injection H as <- <-; reflexivity|].
  destruct (cut c l) as [a' o'] eqn:E. injection H as <- <-. specialize (IH _ _ eq_refl).
  destruct o'; rewrite IH; reflexivity.
Qed.

Lemma url_parse_scheme U l s : url_parse U l = Ok s ->
  exists a, s = to_lower a /\
    (a = [] \/ exists rest, get_scheme_from 0 l = Ok (Some (a, rest))).
Proof.
  unfold url_parse. destruct (cut "#"%char l) as [u frag] eqn:C. apply cut_app in C.
  destruct (parse_nofrag U u) as [s'|e|] eqn:P; cbn [bind]; try discriminate.
  apply parse_nofrag_scheme in P. destruct P as (a & -> & Ha).
  assert (K : a = [] \/ exists rest, get_scheme_from 0 l = Ok (Some (a, rest))).
  { destruct Ha as [->|[rest Hr]]; [left; reflexivity|right].
    destruct (get_scheme_from_spec _ _ _ _ Hr) as (Eu & _).
    destruct frag as [f|].
    - exists (rest ++ "#"%char :: f). rewrite C, Eu, <- app_assoc, <- app_comm_cons.
      rewrite Eu in Hr. eapply get_scheme_from_app. exact Hr.
    - exists rest. rewrite C. exact Hr. }
  destruct frag; [destruct (unescape l0); cbn [bind]; try discriminate|];
    intros H; injection H as <-; eauto.
Qed.

Lemma scheme_carries l a rest : get_scheme_from 0 l = Ok (Some (a, rest)) -> carries_scheme l.
Proof.
  intros H. destruct (get_scheme_from_spec _ _ _ _ H) as (-> & Hf & Hc).
  destruct (Hc eq_refl) as (c & s & -> & L). exists c, s, rest.
  split; [reflexivity|]. split; [exact L|exact (Forall_inv_tail Hf)].
Qed.

(** validateBufferURI lets through local paths and URIs with a scheme only. *)
Lemma validate_sound U uri : validateBufferURI U uri = Ok tt ->
  local_path uri \/ carries_scheme uri.
Proof.
  unfold validateBufferURI. destruct (url_parse U uri) as [[|c s]|e|] eqn:P.
  2:{ intros _. right. apply url_parse_scheme in P. destruct P as (a & Ea & [->|[rest Hr]]); [discriminate|].
      eapply scheme_carries; eassumption. }
  all: destruct (IsLocal uri) eqn:L; [|discriminate]; intros _; left; apply IsLocal_local; exact L.
Qed.

Lemma validate_local U uri : local_path uri -> validateBufferURI U uri = Ok tt.
Proof.
  intros L. apply IsLocal_local in L. unfold validateBufferURI. rewrite L.
  destruct (url_parse U uri) as [[|c s]|e|]; reflexivity.
Qed.

Lemma to_lower_letter c : letter c ->
  letter (if (65 <=? b2z c) && (b2z c <=? 90) then z2b (b2z c + 32) else c).
Proof.
  intros L. destruct ((65 <=? b2z c) && (b2z c <=? 90)) eqn:E; [|exact L].
  unfold letter, z2b, b2z at 1 3. unfold b2z in *.
  rewrite N_ascii_embedding; [lia|]. lia.
Qed.

Lemma to_lower_char c : scheme_char c ->
  scheme_char (if (65 <=? b2z c) && (b2z c <=? 90) then z2b (b2z c + 32) else c).
Proof.
  intros L. destruct ((65 <=? b2z c) && (b2z c <=? 90)) eqn:E; [|exact L].
  left. pose proof (to_lower_letter c) as T. rewrite E in T. apply T. right. lia.
Qed.

Lemma to_lower_carries a rest l : get_scheme_from 0 l = Ok (Some (a, rest)) ->
  forall t, carries_scheme (to_lower a ++ colon :: t).
Proof.
  intros H t. destruct (get_scheme_from_spec _ _ _ _ H) as (_ & Hf & Hc).
  destruct (Hc eq_refl) as (c & s & -> & L).
  exists (if (65 <=? b2z c) && (b2z c <=? 90) then z2b (b2z c + 32) else c), (to_lower s), t.
  split; [reflexivity|]. split; [apply to_lower_letter; exact L|].
  unfold to_lower. apply Forall_map. eapply Forall_impl; [|exact (Forall_inv_tail Hf)].
  intros b Hb. apply to_lower_char. exact Hb.
Qed.

(** ** Confinement of sanitized names *)

Lemma unescape_plain l : ~ In "%"%char l -> unescape l = Ok l.
Proof.
  induction l as [|a l IH]; intros H; cbn [unescape]; [reflexivity|].
  destruct (Ascii.eqb_spec a "%"%char) as [->|N]; [exfalso; apply H; left; reflexivity|].
  rewrite IH by (intros Hi; apply H; right; exact Hi). reflexivity.
Qed.

Lemma fix_backslash_plain l : ~ In backslash l -> fix_backslash l = l.
Proof.
  intros H. unfold fix_backslash. rewrite <- (map_id l) at 2. apply map_ext_in.
  intros c Hc. destruct (Ascii.eqb_spec c backslash) as [->|N]; [contradiction|reflexivity].
Qed.

Lemma drop_dots_cons3 a b c l : drop_dots (a :: b :: c :: l) =
  if Ascii.eqb a slash && Ascii.eqb b dot && Ascii.eqb c slash
  then slash :: drop_dots l else a :: drop_dots (b :: c :: l).
Proof. reflexivity. Qed.

Lemma drop_dots_in c l : In c (drop_dots l) -> In c l.
Proof.
  assert (G : forall n l, (List.length l <= n)%nat -> In c (drop_dots l) -> In c l).
  { clear l. induction n as [|n IH]; intros l Hn H; [destruct l; [exact H|cbn in Hn; lia]|].
    destruct l as [|a [|b [|d l]]]; try exact H. rewrite drop_dots_cons3 in H.
    destruct (Ascii.eqb a slash && Ascii.eqb b dot && Ascii.eqb d slash) eqn:E.
    - destruct H as [<-|H].
      + left. apply andb_true_iff in E. destruct E as [E _]. apply andb_true_iff in E.
        destruct E as [E _]. apply Ascii.eqb_eq in E. exact E.
      + right. right. right. apply IH; [cbn in Hn; lia|exact H].
    - destruct H as [<-|H]; [left; reflexivity|]. right. apply IH; [cbn in Hn |- *; lia|exact H]. }
  apply (G (List.length l)). lia.
Qed.

Lemma trim_prefix_in c p l : In c (trim_prefix p l) -> In c l.
Proof.
  unfold trim_prefix. destruct (has_prefix p l); [|tauto].
  intros H. rewrite <- (firstn_skipn (List.length p) l). apply in_or_app. right. exact H.
Qed.

(** Walking a path written as text. *)
Definition walkp (d : nat) (p : bytes) : option nat := walk d (split slash p).

Lemma split_cons_slash l : split slash (slash :: l) = [] :: split slash l.
Proof. cbn [split]. rewrite Ascii.eqb_refl. reflexivity. Qed.

Lemma split_cons_other a l : a <> slash ->
  split slash (a :: l) = match split slash l with s :: r => (a :: s) :: r | [] => [[a]] end.
Proof. intros N. cbn [split]. destruct (Ascii.eqb_spec a slash); [contradiction|reflexivity]. Qed.

(** Dropping "/./" keeps the first element and the walk. *)
Lemma drop_dots_split : forall n l, (List.length l <= n)%nat ->
  hd [] (split slash (drop_dots l)) = hd [] (split slash l) /\
  forall d, walk d (tl (split slash (drop_dots l))) = walk d (tl (split slash l)).
Proof.
  induction n as [|n IH]; intros l Hn; [destruct l; [split; reflexivity|cbn in Hn; lia]|].
  destruct l as [|a [|b [|c l]]]; try (split; reflexivity). rewrite drop_dots_cons3.
  destruct (Ascii.eqb_spec a slash) as [->|Na]; cbn [andb].
  - destruct (Ascii.eqb_spec b dot) as [->|Nb]; cbn [andb];
    [destruct (Ascii.eqb_spec c slash) as [->|Nc]; cbn [andb]|].
    + rewrite !split_cons_slash. split; [reflexivity|]. intros d. cbn [tl].
      destruct (IH l ltac:(cbn in Hn; lia)) as [H1 H2].
      rewrite (split_cons_other dot) by discriminate. rewrite split_cons_slash.
      rewrite (walk_cons d [dot]). cbn [List.length Nat.eqb is_dot orb]. rewrite Ascii.eqb_refl.
      pose proof (split_nonnil slash (drop_dots l)) as N1. pose proof (split_nonnil slash l) as N2.
      destruct (split slash (drop_dots l)) as [|e1 r1]; [contradiction|].
      destruct (split slash l) as [|e2 r2]; [contradiction|]. cbn [hd tl] in H1, H2. subst e2.
      rewrite !walk_cons, !H2. destruct d; rewrite ?H2; reflexivity.
    + rewrite !split_cons_slash. split; [reflexivity|]. intros d. cbn [tl].
      destruct (IH (dot :: c :: l) ltac:(cbn in Hn |- *; lia)) as [H1 H2].
      pose proof (split_nonnil slash (drop_dots (dot :: c :: l))) as N1.
      pose proof (split_nonnil slash (dot :: c :: l)) as N2.
      destruct (split slash (drop_dots (dot :: c :: l))) as [|e1 r1]; [contradiction|].
      destruct (split slash (dot :: c :: l)) as [|e2 r2]; [contradiction|]. cbn [hd tl] in H1, H2. subst e2.
      rewrite !walk_cons, !H2. destruct d; rewrite ?H2; reflexivity.
    + rewrite !split_cons_slash. split; [reflexivity|]. intros d. cbn [tl].
      destruct (IH (b :: c :: l) ltac:(cbn in Hn |- *; lia)) as [H1 H2].
      pose proof (split_nonnil slash (drop_dots (b :: c :: l))) as N1.
      pose proof (split_nonnil slash (b :: c :: l)) as N2.
      destruct (split slash (drop_dots (b :: c :: l))) as [|e1 r1]; [contradiction|].
      destruct (split slash (b :: c :: l)) as [|e2 r2]; [contradiction|]. cbn [hd tl] in H1, H2. subst e2.
      rewrite !walk_cons, !H2. destruct d; rewrite ?H2; reflexivity.
  - destruct (IH (b :: c :: l) ltac:(cbn in Hn |- *; lia)) as [H1 H2].
    rewrite !(split_cons_other a) by exact Na.
    pose proof (split_nonnil slash (drop_dots (b :: c :: l))) as N1.
    pose proof (split_nonnil slash (b :: c :: l)) as N2.
    destruct (split slash (drop_dots (b :: c :: l))) as [|e1 r1]; [contradiction|].
    destruct (split slash (b :: c :: l)) as [|e2 r2]; [contradiction|]. cbn [hd tl] in H1, H2. subst e2.
    split; [reflexivity|exact H2].
Qed.

Lemma drop_dots_walk l d : walkp d (drop_dots l) = walkp d l.
Proof.
  unfold walkp. destruct (drop_dots_split (List.length l) l ltac:(lia)) as [H1 H2].
  pose proof (split_nonnil slash (drop_dots l)) as N1. pose proof (split_nonnil slash l) as N2.
  destruct (split slash (drop_dots l)) as [|e1 r1]; [contradiction|].
  destruct (split slash l) as [|e2 r2]; [contradiction|]. cbn [hd tl] in H1, H2. subst e2.
  rewrite !walk_cons, !H2. destruct d; rewrite ?H2; reflexivity.
Qed.

Lemma trim_walk l d : walkp d (trim_prefix [dot; slash] l) = walkp d l.
Proof.
  unfold trim_prefix. destruct (has_prefix [dot; slash] l) eqn:E; [|reflexivity].
  apply has_prefix_app in E. destruct E as [t ->]. cbn [List.length app skipn].
  unfold walkp. rewrite (split_cons_other dot) by discriminate. rewrite split_cons_slash.
  rewrite walk_cons. cbn [List.length Nat.eqb is_dot orb]. rewrite Ascii.eqb_refl. reflexivity.
Qed.

Lemma confined_walkp p : confined p <-> walkp 0 p <> None.
Proof.
  unfold confined, walkp. split.
  - intros (elems & Hs & -> & Hw). destruct elems as [|e r].
    + cbn. discriminate.
    + rewrite split_join; [exact Hw|discriminate|exact Hs].
  - intros H. exists (split slash p). split; [apply split_noslash|].
    split; [symmetry; apply split_joined; reflexivity|exact H].
Qed.

(** Dropping "/./" and a leading "./" does not touch a scheme. *)
Lemma drop_dots_scheme a : forall i l rest,
  get_scheme_from i l = Ok (Some (a, rest)) ->
  exists rest', get_scheme_from i (drop_dots l) = Ok (Some (a, rest')).
Proof.
  intros i l. revert a i. induction l as [|x l IH]; intros a i rest H; [discriminate|].
  assert (Nx : x <> slash) by (intros ->; discriminate H).
  assert (D : drop_dots (x :: l) = x :: drop_dots l).
  { destruct l as [|b [|c l]]; [reflexivity|reflexivity|]. rewrite drop_dots_cons3.
    destruct (Ascii.eqb_spec x slash); [contradiction|]. reflexivity. }
  rewrite D. cbn [get_scheme_from] in H |- *.
  destruct (is_alpha x).
  - destruct (get_scheme_from (S i) l) as [[[a' b']|]|e|] eqn:E; cbn in H; try discriminate.
    injection H as <- <-. destruct (IH _ _ _ E) as [r' ->]. eexists. reflexivity.
  - destruct (is_scheme_rest x).
    + destruct i; [discriminate|].
      destruct (get_scheme_from (S (S i)) l) as [[[a' b']|]|e|] eqn:E; cbn in H; try discriminate.
      injection H as <- <-. destruct (IH _ _ _ E) as [r' ->]. eexists. reflexivity.
    + destruct (Ascii.eqb x colon); [|discriminate]. destruct i; [discriminate|].
      injection H as <- <-. eexists. reflexivity.
Qed.

Lemma trim_scheme a l rest :
  get_scheme_from 0 l = Ok (Some (a, rest)) -> trim_prefix [dot; slash] l = l.
Proof.
  intros H. unfold trim_prefix. destruct (has_prefix [dot; slash] l) eqn:E; [|reflexivity].
  apply has_prefix_app in E. destruct E as [t ->]. cbn in H. discriminate.
Qed.

Lemma to_lower_nil a : to_lower a = [] -> a = [].
Proof. destruct a; [reflexivity|discriminate]. Qed.

Lemma sanitize_cases U uri n : sanitizeURI U uri = Some n ->
  carries_scheme n \/
  (let v := trim_prefix [dot; slash] (drop_dots (fix_backslash uri)) in
   unescape v = Ok n /\ url_parse U v = Ok []).
Proof.
  unfold sanitizeURI. set (v := trim_prefix _ _). cbv zeta.
  destruct (url_parse U v) as [[|c s]|e|] eqn:P; try discriminate.
  - destruct (unescape v) eqn:E; try discriminate. intros H. injection H as ->. right. split; reflexivity.
  - intros H. injection H as <-. left.
    apply url_parse_scheme in P. destruct P as (a & Ea & [->|[rest Hr]]); [discriminate|].
    change (c :: s ++ colon :: url_text U v) with ((c :: s) ++ colon :: url_text U v).
    rewrite Ea. apply (to_lower_carries _ _ _ Hr (url_text U v)).
Qed.

(** A URI that passed validation, without percent escapes and backslashes,
    is turned into a confined name or a name with a scheme. *)
Lemma sanitize_confined U uri n :
  ~ In "%"%char uri -> ~ In backslash uri ->
  validateBufferURI U uri = Ok tt -> sanitizeURI U uri = Some n ->
  confined n \/ carries_scheme n.
Proof.
  intros Np Nb V S. apply sanitize_cases in S. destruct S as [S|[S P]]; [right; exact S|].
  rewrite fix_backslash_plain in S, P by exact Nb.
  rewrite unescape_plain in S.
  2:{ intros H. apply trim_prefix_in in H. apply drop_dots_in in H. contradiction. }
  injection S as <-.
  unfold validateBufferURI in V. destruct (url_parse U uri) as [[|c s]|e|] eqn:PU.
  2:{ apply url_parse_scheme in PU. destruct PU as (a & Ea & [->|[rest Hr]]); [discriminate|].
      destruct (drop_dots_scheme _ _ _ _ Hr) as [r' Hr'].
      rewrite (trim_scheme _ _ _ Hr'). right. eapply scheme_carries. exact Hr'. }
  all: destruct (IsLocal uri) eqn:L; [|discriminate]; left;
    apply IsLocal_local in L; destruct L as (_ & _ & C); apply confined_walkp in C;
    apply confined_walkp; rewrite trim_walk, drop_dots_walk; exact C.
Qed.
