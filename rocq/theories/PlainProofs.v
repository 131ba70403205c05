(** Plain file names go through validateBufferURI and sanitizeURI unchanged. *)
From Verif Require Import Base BaseFacts Types Doc F64 Base64 Url UrlProofs SpecText SpecPath SpecData JsonText Codec SpecFile PropsUri Stream File.

Lemma split_gen a x : split slash (a ++ slash :: x) = split slash a ++ split slash x.
Proof.
  induction a as [|c a IH]; [reflexivity|]. cbn [app split]. destruct (Ascii.eqb c slash) eqn:E.
  - rewrite IH. reflexivity.
  - rewrite IH. destruct (split slash a) eqn:S; [destruct (split_nonnil _ _ S)|reflexivity].
Qed.
Lemma drop_dots_id l : (forall a b, l <> a ++ slash :: dot :: slash :: b) -> drop_dots l = l.
Proof.
  induction l as [|a l IH]; intros H; [reflexivity|].
  assert (IH' : drop_dots l = l) by (apply IH; intros x y E; apply (H (a :: x) y); rewrite E; reflexivity).
  destruct l as [|b [|c l]]; [reflexivity| |].
  - cbn. reflexivity.
  - rewrite drop_dots_cons3. destruct (Ascii.eqb a slash && Ascii.eqb b dot && Ascii.eqb c slash) eqn:E.
    + apply andb_prop in E. destruct E as [E E3]. apply andb_prop in E. destruct E as [E1 E2].
      apply Ascii.eqb_eq in E1, E2, E3. subst. exfalso. exact (H [] l eq_refl).
    + rewrite IH'. reflexivity.
Qed.

Section Plain.
Context (p : bytes) (H : plain_name p).
Lemma plain_elems : Forall (fun e => e <> [] /\ ~ In slash e /\ e <> str_bytes "." /\ e <> str_bytes "..") (split slash p).
Proof.
  destruct H as [_ (elems & N & -> & F)]. rewrite split_join; [exact F|exact N|]. eapply Forall_impl; [|exact F]. intros e He. apply He.
Qed.
Lemma plain_no_dot : ~ In [dot] (split slash p).
Proof. intros I. pose proof plain_elems as F. rewrite Forall_forall in F. destruct (F _ I) as (_ & _ & F1 & _). apply F1. reflexivity. Qed.
Lemma plain_no_empty : ~ In [] (split slash p).
Proof. intros I. pose proof plain_elems as F. rewrite Forall_forall in F. destruct (F _ I) as (F1 & _). apply F1. reflexivity. Qed.
Lemma plain_chars c : In c p -> plain_char c.
Proof. intros I. destruct H as [F _]. rewrite Forall_forall in F. exact (F c I). Qed.
Lemma plain_not c : In c (z2b 92 :: str_bytes "%:?#") -> ~ In c p.
Proof. intros I J. destruct (plain_chars c J) as [_ N]. contradiction. Qed.

Lemma plain_nonempty : p <> [].
Proof. intros E. apply plain_no_empty. rewrite E. left. reflexivity. Qed.
Lemma plain_front q : p <> slash :: q.
Proof. intros E. apply plain_no_empty. rewrite E. left. reflexivity. Qed.

Lemma plain_scheme : forall l i, ~ In colon l -> get_scheme_from i l = Ok None.
Proof.
  induction l as [|c l IH]; intros i N; [reflexivity|]. cbn [get_scheme_from]. assert (N' : ~ In colon l) by (intros X; apply N; right; exact X).
  destruct (is_alpha c); [rewrite (IH (S i) N'); reflexivity|]. destruct (is_scheme_rest c); [destruct i; [reflexivity|rewrite (IH (S (S i)) N'); reflexivity]|].
  destruct (Ascii.eqb c colon) eqn:E; [|reflexivity]. apply Ascii.eqb_eq in E. subst c. exfalso. apply N. left. reflexivity.
Qed.
Lemma cut_none c l : ~ In c l -> cut c l = (l, None).
Proof.
  induction l as [|x l IH]; intros N; [reflexivity|]. cbn [cut]. destruct (Ascii.eqb x c) eqn:E.
  - apply Ascii.eqb_eq in E. subst. exfalso. apply N. left. reflexivity.
  - rewrite IH; [reflexivity|]. intros X. apply N. right. exact X.
Qed.
Lemma cut_fst_in c x l : In x (fst (cut c l)) -> In x l.
Proof.
  induction l as [|y l IH]; [intros []|]. cbn [cut]. destruct (Ascii.eqb y c); [intros []|]. destruct (cut c l) as [a b]. cbn [fst] in *. intros [->|J]; [left; reflexivity|right; exact (IH J)].
Qed.
Lemma contains_in c l : contains c l = true -> In c l.
Proof. unfold contains. rewrite existsb_exists. intros (x & I & E). apply Ascii.eqb_eq in E. subst. exact I. Qed.

Lemma plain_parse U : url_parse U p = Ok [].
Proof.
  unfold url_parse. rewrite cut_none by (apply plain_not; cbn; tauto). cbn [bind]. unfold parse_nofrag.
  replace (has_ctl p) with false.
  2:{ symmetry. unfold has_ctl. apply not_true_is_false. rewrite existsb_exists. intros (x & I & E). destruct (plain_chars x I) as [R _]. lia. }
  destruct (has_prefix ["*"%char] p && (List.length p =? 1)%nat); [reflexivity|].
  unfold get_scheme. rewrite plain_scheme by (apply plain_not; cbn; tauto). cbn [bind]. rewrite cut_none by (apply plain_not; cbn; tauto). cbn [fst].
  assert (P1 : has_prefix [slash] p = false).
  { destruct (has_prefix [slash] p) eqn:E; [|reflexivity]. apply has_prefix_app in E. destruct E as [t E]. exfalso. exact (plain_front t E). }
  assert (P2 : has_prefix [slash; slash] p = false).
  { destruct (has_prefix [slash; slash] p) eqn:E; [|reflexivity]. apply has_prefix_app in E. destruct E as [t E]. exfalso. exact (plain_front (slash :: t) E). }
  rewrite P1, P2. cbn [negb andb List.length Nat.eqb].
  replace (contains colon (fst (cut slash p))) with false.
  2:{ symmetry. apply not_true_is_false. intros E. apply contains_in, cut_fst_in in E. revert E. apply plain_not. cbn. tauto. }
  rewrite andb_false_r. rewrite unescape_plain by (apply plain_not; cbn; tauto). reflexivity.
Qed.

Lemma plain_sanitize U : sanitizeURI U p = Some p.
Proof.
  unfold sanitizeURI. rewrite fix_backslash_plain by (apply plain_not; left; reflexivity). rewrite drop_dots_id.
  2:{ intros a b E. apply plain_no_dot. rewrite E, split_gen. apply in_or_app. right. left. reflexivity. }
  replace (trim_prefix [dot; slash] p) with p.
  2:{ unfold trim_prefix. destruct (has_prefix [dot; slash] p) eqn:E; [|reflexivity]. apply has_prefix_app in E. destruct E as [t E].
      exfalso. apply plain_no_dot. rewrite E. left. reflexivity. }
  rewrite plain_parse, unescape_plain by (apply plain_not; cbn; tauto). reflexivity.
Qed.

Lemma plain_local : local_path p.
Proof.
  split; [exact plain_nonempty|]. split; [exact plain_front|]. exists (split slash p). split; [exact (split_noslash slash p)|].
  split; [symmetry; apply split_joined; reflexivity|]. apply walk_no_dots. eapply Forall_impl; [|exact plain_elems].
  intros e (E1 & E2 & E3 & E4). unfold no_dotdot. destruct (is_dotdot e) eqn:E; [|reflexivity]. apply is_dotdot_eq in E. contradiction.
Qed.
Lemma plain_validate U : validateBufferURI U p = Ok tt.
Proof. apply validate_local. exact plain_local. Qed.

Lemma prefix_in c : forall a s, String.prefix a s = true -> In c (str_bytes a) -> In c (str_bytes s).
Proof.
  induction a as [|x a IH]; intros s E I; [destruct I|]. destruct s as [|y s]; [discriminate|]. cbn in E. destruct (ascii_dec x y) as [->|]; [|discriminate].
  destruct I as [->|I]; [left; reflexivity|right; exact (IH s E I)].
Qed.
Lemma plain_not_data a : In ":"%char (str_bytes a) -> String.prefix a (bytes_str p) = false.
Proof.
  intros I. destruct (String.prefix a (bytes_str p)) eqn:E; [|reflexivity]. exfalso.
  pose proof (prefix_in ":"%char _ _ E I) as J. rewrite str_bytes_bytes in J.
  revert J. apply plain_not. cbn. tauto.
Qed.

Lemma plain_ValidPath : ValidPath p = true.
Proof.
  unfold ValidPath. apply andb_true_intro. split.
  - unfold ValidString. assert (G : forall l, Forall plain_char l -> valid_from 0 l = true).
    { induction l as [|b l IH]; intros F; [reflexivity|]. cbn [valid_from]. destruct (Forall_inv F) as [R _]. replace (b2z b <? 128) with true by lia. exact (IH (Forall_inv_tail F)). }
    apply G. apply H.
  - apply orb_true_intro. right. apply forallb_forall. intros e I. pose proof plain_elems as F. rewrite Forall_forall in F. destruct (F e I) as (F1 & _ & F2 & F3).
    apply andb_true_intro. split; [apply andb_true_intro; split|].
    + destruct e; [congruence|reflexivity].
    + destruct (is_dot e) eqn:E; [|reflexivity]. apply is_dot_eq in E. contradiction.
    + destruct (is_dotdot e) eqn:E; [|reflexivity]. apply is_dotdot_eq in E. contradiction.
Qed.
End Plain.
