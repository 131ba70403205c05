(** net/url in full agrees with [Url], and leaves absolute URIs as they are. *)
From Verif Require Import Base BaseFacts Url UrlProofs PlainProofs GoUrl SpecUrl.

(** ** The parts of net/url in [Url] *)
Lemma has_prefix_star l : has_prefix ["*"%char] l && (List.length l =? 1)%nat = (if list_eq_dec ascii_dec l ["*"%char] then true else false).
Proof.
  destruct (list_eq_dec ascii_dec l ["*"%char]) as [->|N]; [reflexivity|].
  destruct l as [|a [|b l]]; [reflexivity| |cbn; apply andb_false_r]. cbn [has_prefix List.length].
  destruct (Ascii.eqb_spec "*"%char a) as [<-|]; [exfalso; apply N; reflexivity|reflexivity].
Qed.
Lemma cut_query_fst l : fst (fst (cut_query l)) = fst (cut "?"%char l).
Proof. unfold cut_query. destruct (cut "?"%char l) as [a [[|b q]|]]; reflexivity. Qed.
Lemma set_escaped_ok m p : (x <- set_escaped m p ;; Ok tt) = (x <- unescape p ;; Ok tt).
Proof. unfold set_escaped. destruct (unescape p); reflexivity. Qed.
Lemma to_lower_length l : List.length (to_lower l) = List.length l.
Proof. apply map_length. Qed.
Lemma unescape_no_panic l : unescape l <> Panic.
Proof.
  assert (G : forall n l, (List.length l <= n)%nat -> unescape l <> Panic).
  { induction n as [|n IH]; intros k L; [destruct k; [discriminate|cbn in L; lia]|]. destruct k as [|a k]; [discriminate|]. cbn [unescape].
    destruct (Ascii.eqb a "%"%char).
    - destruct k as [|h [|g k]]; [discriminate..|]. destruct (unhex h), (unhex g); try discriminate.
      specialize (IH k ltac:(cbn in L; lia)). destruct (unescape k); [discriminate..|congruence].
    - specialize (IH k ltac:(cbn in L; lia)). destruct (unescape k); [discriminate..|congruence]. }
  exact (G _ l (le_n _)).
Qed.
Definition is_err {A} (r : res A) : bool := match r with Err _ => true | _ => false end.
Lemma unescape_err l e : unescape l = Err e -> e = ErrURL.
Proof.
  assert (G : forall n l, (List.length l <= n)%nat -> unescape l = Err e -> e = ErrURL).
  { induction n as [|n IH]; intros k L; [destruct k; [discriminate|cbn in L; lia]|]. destruct k as [|a k]; [discriminate|]. cbn [unescape].
    destruct (Ascii.eqb a "%"%char).
    - destruct k as [|h [|g k]]; [intros H; injection H as <-; reflexivity..|].
      destruct (unhex h), (unhex g); try (intros H; injection H as <-; reflexivity).
      specialize (IH k ltac:(cbn in L; lia)). destruct (unescape k) as [x|x|]; cbn [bind]; [discriminate| |discriminate]. intros H; injection H as <-. exact (IH eq_refl).
    - specialize (IH k ltac:(cbn in L; lia)). destruct (unescape k) as [x|x|]; cbn [bind]; [discriminate| |discriminate]. intros H; injection H as <-. exact (IH eq_refl). }
  exact (G _ l (le_n _)).
Qed.

Definition well {A} (r : res A) : Prop := match r with Panic => False | Err e => e = ErrURL | Ok _ => True end.
Lemma well_bind {A B} (r : res A) (f : A -> res B) : well r -> (forall x, well (f x)) -> well (x <- r ;; f x).
Proof. intros H G. destruct r; cbn; auto. Qed.
Lemma unescape_well l : well (unescape l).
Proof. pose proof (unescape_no_panic l). pose proof (unescape_err l). destruct (unescape l); cbn; auto. Qed.
Lemma unescape_host_well m l : well (unescape_host m l).
Proof.
  assert (G : forall n l, (List.length l <= n)%nat -> well (unescape_host m l)).
  { induction n as [|n IH]; intros k L; [destruct k; [exact I|cbn in L; lia]|]. destruct k as [|a k]; [exact I|]. cbn [unescape_host].
    destruct (Ascii.eqb a "%"%char).
    - destruct k as [|h [|g k]]; [reflexivity..|]. destruct (unhex h), (unhex g); try reflexivity. cbv zeta.
      match goal with |- context [if ?b then _ else _] => destruct b end; [reflexivity|]. apply well_bind; [apply IH; cbn in L; lia|intros; exact I].
    - destruct (_ && _); [reflexivity|]. apply well_bind; [apply IH; cbn in L; lia|intros; exact I]. }
  exact (G _ l (le_n _)).
Qed.
Lemma parseHost_well l : well (parseHost l).
Proof.
  unfold parseHost. destruct (has_prefix _ l).
  - destruct (last_cut _ l) as [[a b]|]; [|reflexivity]. destruct (negb _); [reflexivity|]. destruct (zone_cut a) as [[h z]|]; [|apply unescape_host_well].
    repeat (apply well_bind; [apply unescape_host_well|intros]). exact I.
  - destruct (last_cut _ l) as [[a b]|]; [|apply unescape_host_well]. destruct (negb _); [reflexivity|apply unescape_host_well].
Qed.
Lemma parseAuthority_well l : well (parseAuthority l).
Proof.
  unfold parseAuthority. destruct (last_cut _ l) as [[a b]|]; [|apply well_bind; [apply parseHost_well|intros; exact I]].
  apply well_bind; [apply parseHost_well|intros]. destruct (negb _); [reflexivity|]. destruct (cut colon a) as [n [p|]].
  - repeat (apply well_bind; [apply unescape_well|intros]). exact I.
  - apply well_bind; [apply unescape_well|intros; exact I].
Qed.

(** The acceptance and the scheme of url.parse. *)
Lemma parse_nofrag_go l : parse_nofrag go_url l = (u <- parse l ;; Ok (u_Scheme u)).
Proof.
  unfold parse_nofrag, parse. destruct (has_ctl l); [reflexivity|]. rewrite has_prefix_star.
  destruct (list_eq_dec ascii_dec l ["*"%char]); [reflexivity|]. destruct (get_scheme l) as [[s r]|e|]; [|reflexivity..]. cbn [bind].
  pose proof (cut_query_fst r) as Q. destruct (cut_query r) as [[rest fo] qu]. cbn [fst] in Q. rewrite <- Q. cbv zeta. rewrite to_lower_length.
  destruct (negb (has_prefix [slash] rest) && negb (List.length s =? 0)%nat); [reflexivity|].
  destruct (negb (has_prefix [slash] rest) && contains colon (fst (cut slash rest))); [reflexivity|].
  destruct (_ && has_prefix [slash; slash] rest).
  - destruct (cut slash (skipn 2 rest)) as [au pa]. unfold go_url at 1. cbn [authority_ok]. pose proof (parseAuthority_well au) as W.
    destruct (parseAuthority au) as [[us ho]|e|]; cbn [well] in W; [|subst e; reflexivity|contradiction]. cbn [negb bind].
    unfold set_escaped. destruct (unescape _); reflexivity.
  - unfold set_escaped. destruct (unescape rest); reflexivity.
Qed.
Lemma url_parse_go l : url_parse go_url l = (u <- Parse l ;; Ok (u_Scheme u)).
Proof.
  unfold url_parse, Parse. destruct (cut "#"%char l) as [u fr]. rewrite parse_nofrag_go. destruct (parse u) as [x|e|]; [|reflexivity..]. cbn [bind].
  destruct fr as [[|c f]|]; [reflexivity| |reflexivity]. unfold set_escaped. destruct (unescape (c :: f)); reflexivity.
Qed.
Lemma sanitizeURI_go uri : sanitizeURI go_url uri = go_sanitizeURI uri.
Proof.
  unfold sanitizeURI, go_sanitizeURI. set (u := trim_prefix _ _). cbv zeta. rewrite url_parse_go. unfold go_url. cbn [url_text].
  destruct (Parse u) as [x|e|]; [|reflexivity..]. cbn [bind]. unfold URL_String. destruct (u_Scheme x) as [|c s]; [reflexivity|].
  cbn [List.length Nat.eqb]. rewrite <- app_assoc. reflexivity.
Qed.
Lemma validateBufferURI_go uri : validateBufferURI go_url uri = go_validateBufferURI uri.
Proof.
  unfold validateBufferURI, go_validateBufferURI. rewrite url_parse_go. destruct (Parse uri) as [x|e|]; [|reflexivity..]. cbn [bind].
  destruct (u_Scheme x); reflexivity.
Qed.

(** ** Absolute URIs *)
Lemma all_bytes (P : byte -> bool) : forallb P (map ascii_of_nat (seq 0 256)) = true -> forall c, P c = true.
Proof.
  intros H c. rewrite forallb_forall in H. apply H. rewrite <- (ascii_nat_embedding c). apply in_map. apply in_seq. pose proof (nat_ascii_bounded c). lia.
Qed.
Lemma alnum_all (P : byte -> bool) : forallb (fun c => negb (is_alnum c) || P c) (map ascii_of_nat (seq 0 256)) = true -> forall c, alpha c \/ digit c -> P c = true.
Proof.
  intros H c A. pose proof (all_bytes _ H c) as G. cbv beta in G. assert (E : is_alnum c = true). { unfold is_alnum, is_alpha, alpha, digit in *. lia. }
  rewrite E in G. exact G.
Qed.
Lemma chars_all (P : byte -> bool) s : forallb P (list_ascii_of_string s) = true -> forall c, chars s c -> P c = true.
Proof. intros H c I. rewrite forallb_forall in H. exact (H c I). Qed.
Ltac class_ok := match goal with
  | H : _ \/ _ |- _ => destruct H as [H|H]; class_ok
  | H : alpha ?c |- ?P ?c = true => apply (alnum_all P); [vm_compute; reflexivity|left; exact H]
  | H : digit ?c |- ?P ?c = true => apply (alnum_all P); [vm_compute; reflexivity|right; exact H]
  | H : chars ?s ?c |- ?P ?c = true => apply (chars_all P s); [vm_compute; reflexivity|exact H]
  end.
Definition plain_byte (c : byte) : bool := negb (Ascii.eqb c backslash) && negb ((b2z c <? 32) || (b2z c =? 127)) && negb (Ascii.eqb c "#"%char).
Definition encodes (m : mode) (c : byte) : bool := one_of "!$&'()*+,;=:@[]%" c || negb (shouldEscape m c).
Definition path_ok (c : byte) : bool := plain_byte c && negb (one_of "?%" c) && encodes encodePath c.
Lemma path_char_ok c : path_char c -> path_ok c = true.
Proof. intros H. unfold path_char, pchar, unreserved, sub_delims in H. class_ok. Qed.
Definition query_ok (c : byte) : bool := plain_byte c && negb (Ascii.eqb c "%"%char) && encodes encodeFragment c.
Lemma query_char_ok c : query_char c -> query_ok c = true.
Proof. intros H. unfold query_char, pchar, unreserved, sub_delims in H. class_ok. Qed.
Definition host_ok (c : byte) : bool := plain_byte c && negb (one_of "/?@%" c) && negb (shouldEscape encodeHost c).
Definition name_ok (c : byte) : bool := host_ok c && negb (one_of ":[" c).
Lemma name_char_ok c : unreserved c \/ sub_delims c -> name_ok c = true.
Proof. intros H. unfold unreserved, sub_delims in H. class_ok. Qed.
Lemma hexdig_alnum c : hexdig c -> alpha c \/ digit c.
Proof. unfold hexdig, alpha, digit. lia. Qed.
Definition literal_ok (c : byte) : bool := host_ok c && negb (one_of "[]" c).
Lemma literal_char_ok c : hexdig c \/ chars ":." c -> literal_ok c = true.
Proof.
  intros [H|H]; [apply hexdig_alnum in H|]; class_ok.
Qed.
Definition port_ok (c : byte) : bool := host_ok c && negb (one_of ":[]" c) && ((48 <=? b2z c) && (b2z c <=? 57)).
Lemma digit_ok c : digit c -> port_ok c = true.
Proof.
  intros H. pose proof (all_bytes (fun c => negb ((48 <=? b2z c) && (b2z c <=? 57)) || port_ok c) ltac:(vm_compute; reflexivity) c) as G. cbv beta in G.
  unfold digit in H. replace ((48 <=? b2z c) && (b2z c <=? 57)) with true in G by lia. exact G.
Qed.
Definition scheme_ok (c : byte) : bool := plain_byte c && (is_alpha c || is_scheme_rest c) && negb ((65 <=? b2z c) && (b2z c <=? 90)).
Lemma scheme_char_ok c : 97 <= b2z c <= 122 \/ digit c \/ chars "+-." c -> scheme_ok c = true.
Proof.
  intros [H|[H|H]].
  - pose proof (all_bytes (fun c => negb ((97 <=? b2z c) && (b2z c <=? 122)) || scheme_ok c) ltac:(vm_compute; reflexivity) c) as G. cbv beta in G.
    replace ((97 <=? b2z c) && (b2z c <=? 122)) with true in G by lia. exact G.
  - pose proof (all_bytes (fun c => negb ((48 <=? b2z c) && (b2z c <=? 57)) || scheme_ok c) ltac:(vm_compute; reflexivity) c) as G. cbv beta in G.
    unfold digit in H. replace ((48 <=? b2z c) && (b2z c <=? 57)) with true in G by lia. exact G.
  - class_ok.
Qed.

Lemma unhex_hexdig c : hexdig c -> exists x, unhex c = Some x.
Proof.
  intros H. unfold unhex, hexdig, digit in *. destruct ((48 <=? b2z c) && (b2z c <=? 57)) eqn:E1; [eauto|].
  destruct ((97 <=? b2z c) && (b2z c <=? 102)) eqn:E2; [eauto|]. destruct ((65 <=? b2z c) && (b2z c <=? 70)) eqn:E3; [eauto|lia].
Qed.
Lemma encoded_unescape ok l : encoded ok l -> (forall c, ok c -> c <> "%"%char) -> exists q, unescape l = Ok q /\ (l <> [] -> q <> []).
Proof.
  intros H N. induction H as [|c l Hc Hl (q & E & _)|h g l Hh Hg Hl (q & E & _)].
  - exists []. split; [reflexivity|congruence].
  - exists (c :: q). cbn [unescape]. destruct (Ascii.eqb_spec c "%"%char) as [->|]; [exfalso; exact (N _ Hc eq_refl)|]. rewrite E. split; [reflexivity|discriminate].
  - destruct (unhex_hexdig h Hh) as [x Ex], (unhex_hexdig g Hg) as [y Ey]. exists (z2b (16 * x + y) :: q). cbn [unescape]. cbn [Ascii.eqb Bool.eqb].
    rewrite Ex, Ey, E. split; [reflexivity|discriminate].
Qed.
Lemma encoded_forall (P : byte -> bool) ok l : encoded ok l -> (forall c, ok c -> P c = true) -> P "%"%char = true -> (forall c, alpha c \/ digit c -> P c = true) ->
  forallb P l = true.
Proof.
  intros H G1 G2 G3. induction H as [|c l Hc Hl IH|h g l Hh Hg Hl IH]; cbn [forallb]; [reflexivity|rewrite (G1 _ Hc); exact IH|].
  rewrite G2, (G3 h (hexdig_alnum h Hh)), (G3 g (hexdig_alnum g Hg)). exact IH.
Qed.
Definition path_byte (c : byte) : bool := plain_byte c && negb (Ascii.eqb c "?"%char) && encodes encodePath c.
Definition query_byte (c : byte) : bool := plain_byte c && encodes encodeFragment c.
Lemma path_bytes l : encoded path_char l -> forallb path_byte l = true.
Proof.
  intros H. apply (encoded_forall _ _ _ H); [|reflexivity|intros c A; class_ok].
  intros c A. apply path_char_ok in A. unfold path_ok, path_byte in *. destruct (plain_byte c), (encodes encodePath c); try (rewrite ?andb_false_r in A; discriminate).
  unfold one_of, contains in A. cbn in A |- *. destruct (Ascii.eqb c "?"%char); [discriminate|reflexivity].
Qed.
Lemma query_bytes l : encoded query_char l -> forallb query_byte l = true.
Proof.
  intros H. apply (encoded_forall _ _ _ H); [|reflexivity|intros c A; class_ok].
  intros c A. apply query_char_ok in A. unfold query_ok, query_byte in *. destruct (plain_byte c), (encodes encodeFragment c); try reflexivity; rewrite ?andb_false_r in A; discriminate.
Qed.
Lemma path_no_pct c : path_char c -> c <> "%"%char.
Proof. intros H ->. apply path_char_ok in H. discriminate. Qed.
Lemma query_no_pct c : query_char c -> c <> "%"%char.
Proof. intros H ->. apply query_char_ok in H. discriminate. Qed.

Lemma escaped_keeps m p q raw : set_escaped m p = Ok (q, raw) -> forallb (encodes m) p = true -> (m = encodePath -> q <> ["*"%char]) -> escaped m q raw = p.
Proof.
  unfold set_escaped. destruct (unescape p) as [q'|e|] eqn:E; [|discriminate..]. cbn [bind]. intros H V N. injection H as <- <-.
  assert (D : match m, q' with encodePath, ["*"%char] => ["*"%char] | _, _ => escape m q' end = escape m q').
  { destruct m; try reflexivity. specialize (N eq_refl). destruct q' as [|a [|b q']]; try reflexivity; destruct a as [[] [] [] [] [] [] [] []]; try reflexivity; congruence. }
  unfold escaped. rewrite D. destruct (list_eq_dec ascii_dec p (escape m q')) as [Ep|Np]; [congruence|].
  destruct p as [|c p]; [exfalso; injection E as <-; exact (Np eq_refl)|].
  change (validEncoded m (c :: p)) with (forallb (encodes m) (c :: p)). rewrite V, E. destruct (list_eq_dec ascii_dec q' q'); congruence.
Qed.

Lemma cut_skip c l r : forallb (fun x => negb (Ascii.eqb x c)) l = true -> cut c (l ++ r) = let (a, b) := cut c r in (l ++ a, b).
Proof.
  induction l as [|x l IH]; cbn [app forallb]; intros H; [destruct (cut c r); reflexivity|]. cbn [cut]. apply andb_true_iff in H as [H1 H2].
  destruct (Ascii.eqb x c); [discriminate|]. rewrite (IH H2). destruct (cut c r). reflexivity.
Qed.
Lemma forallb_imp {A} (P Q : A -> bool) l : (forall x, P x = true -> Q x = true) -> forallb P l = true -> forallb Q l = true.
Proof. intros G. rewrite !forallb_forall. auto. Qed.
Lemma last_cut_none c l : forallb (fun x => negb (Ascii.eqb x c)) l = true -> last_cut c l = None.
Proof. induction l as [|x l IH]; cbn [forallb last_cut]; intros H; [reflexivity|]. apply andb_true_iff in H as [H1 H2]. rewrite (IH H2). destruct (Ascii.eqb x c); [discriminate|reflexivity]. Qed.
Lemma last_cut_app c l r : forallb (fun x => negb (Ascii.eqb x c)) r = true -> last_cut c (l ++ c :: r) = Some (l, c :: r).
Proof.
  intros H. induction l as [|x l IH]; cbn [app last_cut]; [rewrite (last_cut_none _ _ H), Ascii.eqb_refl; reflexivity|]. rewrite IH. reflexivity.
Qed.
Lemma unescape_host_id l : forallb host_ok l = true -> unescape_host encodeHost l = Ok l.
Proof.
  induction l as [|c l IH]; cbn [forallb unescape_host]; intros H; [reflexivity|]. apply andb_true_iff in H as [H1 H2]. unfold host_ok in H1.
  destruct (Ascii.eqb_spec c "%"%char) as [->|]; [discriminate|]. destruct (shouldEscape encodeHost c); [rewrite andb_false_r in H1; discriminate|].
  rewrite andb_false_r, (IH H2). reflexivity.
Qed.
Lemma escape_host_id l : forallb host_ok l = true -> escape encodeHost l = l.
Proof.
  induction l as [|c l IH]; cbn [forallb]; intros H; [reflexivity|]. apply andb_true_iff in H as [H1 H2]. unfold host_ok in H1.
  unfold escape in *. cbn [flat_map]. destruct (shouldEscape encodeHost c); [rewrite andb_false_r in H1; discriminate|]. rewrite (IH H2). reflexivity.
Qed.
Lemma forallb_Forall {A} (P : A -> Prop) (Q : A -> bool) l : (forall x, P x -> Q x = true) -> Forall P l -> forallb Q l = true.
Proof. intros G H. rewrite forallb_forall. rewrite Forall_forall in H. auto. Qed.
Lemma zone_cut_none l : forallb host_ok l = true -> zone_cut l = None.
Proof.
  induction l as [|c l IH]; cbn [forallb zone_cut has_prefix]; intros H; [reflexivity|]. apply andb_true_iff in H as [H1 H2]. rewrite (IH H2).
  destruct (Ascii.eqb_spec "%"%char c) as [<-|]; [discriminate|reflexivity].
Qed.

(** The authority of the specification: accepted as it is. *)
Lemma host_port h p : host h -> port p -> forallb host_ok (h ++ p) = true /\ parseHost (h ++ p) = Ok (h ++ p).
Proof.
  intros HH HP. assert (P1 : forallb host_ok p = true /\ validOptionalPort p = true /\ forallb (fun x => negb (Ascii.eqb x "]"%char)) p = true).
  { destruct HP as [->|(r & -> & Hr)]; [repeat split|]. pose proof (forallb_Forall _ _ _ digit_ok Hr) as D. split; [|split].
    - cbn [forallb]. apply andb_true_iff. split; [reflexivity|]. revert D. apply forallb_imp. intros x Hx. unfold port_ok in Hx. destruct (host_ok x); [reflexivity|discriminate].
    - cbn [validOptionalPort]. apply andb_true_iff. split; [reflexivity|]. revert D. apply forallb_imp. intros x Hx. unfold port_ok in Hx. destruct (host_ok x && _); [exact Hx|discriminate].
    - cbn [forallb]. apply andb_true_iff. split; [reflexivity|]. revert D. apply forallb_imp. intros x Hx. destruct (Ascii.eqb_spec x "]"%char) as [->|]; [discriminate|reflexivity]. }
  destruct P1 as (P1 & P2 & P3). destruct HH as [HH|(r & -> & Hr)].
  - pose proof (forallb_Forall _ _ _ name_char_ok HH) as D.
    assert (D1 : forallb host_ok h = true) by (revert D; apply forallb_imp; intros x Hx; unfold name_ok in Hx; destruct (host_ok x); [reflexivity|discriminate]).
    assert (A : forallb host_ok (h ++ p) = true) by (rewrite forallb_app, D1, P1; reflexivity). split; [exact A|].
    unfold parseHost. assert (NB : has_prefix ["["%char] (h ++ p) = false).
    { destruct h as [|c h]; cbn [app].
      - destruct HP as [->|(r & -> & _)]; reflexivity.
      - cbn [has_prefix forallb] in *. apply andb_true_iff in D as [D _]. destruct (Ascii.eqb_spec "["%char c) as [<-|]; [discriminate|reflexivity]. }
    rewrite NB. assert (NC : forallb (fun x => negb (Ascii.eqb x colon)) h = true).
    { revert D. apply forallb_imp. intros x Hx. destruct (Ascii.eqb_spec x colon) as [->|]; [discriminate|reflexivity]. }
    destruct HP as [->|(r & -> & Hr)].
    + rewrite app_nil_r in *. rewrite (last_cut_none _ _ NC). apply unescape_host_id, A.
    + assert (NR : forallb (fun x => negb (Ascii.eqb x colon)) r = true).
      { apply (forallb_Forall digit); [|exact Hr]. intros x Hx. apply digit_ok in Hx. destruct (Ascii.eqb_spec x colon) as [->|]; [discriminate|reflexivity]. }
      change ":"%char with colon in *. rewrite (last_cut_app _ _ _ NR), P2. apply unescape_host_id, A.
  - pose proof (forallb_Forall _ _ _ literal_char_ok Hr) as D.
    assert (D1 : forallb host_ok r = true) by (revert D; apply forallb_imp; intros x Hx; unfold literal_ok in Hx; destruct (host_ok x); [reflexivity|discriminate]).
    assert (A : forallb host_ok (("["%char :: r ++ ["]"%char]) ++ p) = true).
    { rewrite forallb_app, P1. cbn [forallb]. rewrite forallb_app, D1. reflexivity. }
    split; [exact A|]. unfold parseHost. cbn [app has_prefix]. rewrite Ascii.eqb_refl. cbn [andb].
    replace (("["%char :: (r ++ ["]"%char]) ++ p)) with (("["%char :: r) ++ "]"%char :: p) by (cbn [app]; rewrite <- app_assoc; reflexivity).
    rewrite (last_cut_app _ _ _ P3). cbn [tl]. rewrite P2. cbn [negb].
    rewrite zone_cut_none by (cbn [forallb]; rewrite D1; reflexivity). 
    replace (("["%char :: r) ++ "]"%char :: p) with (("["%char :: r ++ ["]"%char]) ++ p) by (cbn [app]; rewrite <- app_assoc; reflexivity).
    apply unescape_host_id, A.
Qed.
Lemma authority_kept h p : host h -> port p -> parseAuthority (h ++ p) = Ok (None, h ++ p).
Proof.
  intros HH HP. destruct (host_port h p HH HP) as [A E]. unfold parseAuthority.
  rewrite last_cut_none; [rewrite E; reflexivity|]. revert A. apply forallb_imp. intros x Hx. destruct (Ascii.eqb_spec x "@"%char) as [->|]; [discriminate|reflexivity].
Qed.

Lemma scheme_from s l : forall i, forallb scheme_ok s = true -> (i <> 0%nat) -> get_scheme_from i (s ++ colon :: l) = Ok (Some (s, l)).
Proof.
  induction s as [|c s IH]; intros i H N; cbn [app get_scheme_from].
  - cbn. destruct i; [congruence|reflexivity].
  - cbn [forallb] in H. apply andb_true_iff in H as [H1 H2]. rewrite (IH (S i) H2) by discriminate. unfold scheme_ok in H1.
    destruct (is_alpha c); [reflexivity|]. destruct (is_scheme_rest c); [|rewrite andb_false_r in H1; discriminate]. destruct i; [congruence|reflexivity].
Qed.
Lemma scheme_facts s : scheme s -> forallb scheme_ok s = true /\ to_lower s = s /\ s <> [] /\ forall l, get_scheme (s ++ colon :: l) = Ok (s, l).
Proof.
  intros (c & r & -> & Hc & Hr). assert (A : forallb scheme_ok (c :: r) = true).
  { cbn [forallb]. rewrite (scheme_char_ok c (or_introl Hc)). exact (forallb_Forall _ _ _ scheme_char_ok Hr). }
  split; [exact A|]. split; [|split; [discriminate|]].
  - unfold to_lower. rewrite <- (map_id (c :: r)) at 2. apply map_ext_in. intros x I. rewrite forallb_forall in A. specialize (A x I). unfold scheme_ok in A.
    destruct ((65 <=? b2z x) && (b2z x <=? 90)); [rewrite andb_false_r in A; discriminate|reflexivity].
  - intros l. unfold get_scheme. cbn [app get_scheme_from]. replace (is_alpha c) with true by (unfold is_alpha; lia).
    rewrite scheme_from; [reflexivity| |discriminate]. cbn [forallb] in A. apply andb_true_iff in A as [_ A]. exact A.
Qed.
Lemma no_ctl l : forallb plain_byte l = true -> has_ctl l = false.
Proof.
  intros H. unfold has_ctl. apply not_true_is_false. intros E. apply existsb_exists in E as (c & I & E). rewrite forallb_forall in H. specialize (H c I).
  unfold plain_byte in H. rewrite E in H. cbn [negb] in H. rewrite andb_false_r in H. discriminate.
Qed.
Lemma no_hash l : forallb plain_byte l = true -> forallb (fun x => negb (Ascii.eqb x "#"%char)) l = true.
Proof. apply forallb_imp. intros x H. unfold plain_byte in H. destruct (Ascii.eqb x "#"%char); [rewrite andb_false_r in H; discriminate|reflexivity]. Qed.
Lemma path_facts l : encoded path_char l ->
  forallb plain_byte l = true /\ forallb (fun x => negb (Ascii.eqb x "?"%char)) l = true /\ forallb (encodes encodePath) l = true.
Proof.
  intros H. apply path_bytes in H. split; [|split]; revert H; apply forallb_imp; intros x Hx; unfold path_byte in Hx; destruct (plain_byte x), (Ascii.eqb x "?"%char), (encodes encodePath x); try reflexivity; discriminate.
Qed.
Lemma query_facts l : encoded query_char l -> forallb plain_byte l = true /\ forallb (encodes encodeFragment) l = true.
Proof.
  intros H. apply query_bytes in H. split; revert H; apply forallb_imp; intros x Hx; unfold query_byte in Hx; destruct (plain_byte x), (encodes encodeFragment x); try reflexivity; discriminate.
Qed.
Lemma host_facts l : forallb host_ok l = true -> forallb plain_byte l = true /\ forallb (fun x => negb (Ascii.eqb x "?"%char)) l = true /\ forallb (fun x => negb (Ascii.eqb x slash)) l = true.
Proof.
  intros H. split; [|split]; revert H; apply forallb_imp; intros x Hx.
  - unfold host_ok in Hx. destruct (plain_byte x); [reflexivity|discriminate].
  - destruct (Ascii.eqb_spec x "?"%char) as [->|]; [discriminate|reflexivity].
  - destruct (Ascii.eqb_spec x slash) as [->|]; [discriminate|reflexivity].
Qed.
Lemma hier_facts h : hier_part h -> forallb plain_byte h = true /\ forallb (fun x => negb (Ascii.eqb x "?"%char)) h = true.
Proof.
  intros [hh p path HH HP _ _ E|r E _|c r E _].
  - destruct (host_port hh p HH HP) as [A _]. apply host_facts in A as (A1 & A2 & _). apply path_facts in E as (E1 & E2 & _).
    rewrite app_assoc. cbn [forallb]. rewrite !forallb_app in *. rewrite E1, E2. split; [rewrite A1|rewrite A2]; reflexivity.
  - apply path_facts in E as (E1 & E2 & _). cbn [forallb]. rewrite E1, E2. split; reflexivity.
  - apply path_facts in E as (E1 & E2 & _). split; assumption.
Qed.
Definition query_text (force : bool) (q : bytes) : bytes := if force || negb (List.length q =? 0)%nat then "?"%char :: q else [].
Lemma query_kept h q : forallb (fun x => negb (Ascii.eqb x "?"%char)) h = true -> query q ->
  exists force qu, cut_query (h ++ q) = (h, force, qu) /\ query_text force qu = q.
Proof.
  intros H Q. unfold cut_query. rewrite (cut_skip _ _ _ H). destruct Q as [->|(t & -> & _)]; cbn [cut].
  - rewrite app_nil_r. exists false, []. split; reflexivity.
  - rewrite Ascii.eqb_refl, app_nil_r. destruct t as [|c t]; eexists _, _; (split; [reflexivity|reflexivity]).
Qed.
Lemma query_plain q : query q -> forallb plain_byte q = true.
Proof. intros [->|(t & -> & E)]; [reflexivity|]. cbn [forallb]. apply query_facts in E as [E _]. rewrite E. reflexivity. Qed.

(** Parsing and printing of everything before the fragment. *)
Lemma unescape_slash r q : unescape (slash :: r) = Ok q -> q <> ["*"%char].
Proof. cbn [unescape]. change (Ascii.eqb slash "%"%char) with false. cbv iota. destruct (unescape r); [|discriminate..]. cbn [bind]. intros H. injection H as <-. discriminate. Qed.
Lemma parse_kept s h q : scheme s -> hier_part h -> query q ->
  exists u, parse (s ++ colon :: h ++ q) = Ok u /\ u_Scheme u = s /\ u_Fragment u = [] /\ u_RawFragment u = [] /\ string_rest u = h ++ q.
Proof.
  intros HS HH HQ. destruct (scheme_facts s HS) as (S1 & S2 & S3 & S4). destruct (hier_facts h HH) as [H1 H2].
  destruct (query_kept h q H2 HQ) as (fo & qu & CQ & QT).
  unfold parse. rewrite no_ctl.
  2:{ rewrite forallb_app. cbn [forallb]. rewrite forallb_app, H1, (query_plain q HQ). rewrite (forallb_imp scheme_ok plain_byte); [reflexivity| |exact S1].
      intros x Hx. unfold scheme_ok in Hx. destruct (plain_byte x); [reflexivity|discriminate]. }
  destruct (list_eq_dec ascii_dec (s ++ colon :: h ++ q) ["*"%char]) as [E|_].
  { exfalso. destruct s as [|c [|c' s]]; [congruence|discriminate|discriminate]. }
  rewrite S4. cbn [bind]. rewrite CQ, S2. cbv zeta.
  assert (HL : negb (List.length s =? 0)%nat = true) by (destruct s; [congruence|reflexivity]). rewrite HL.
  assert (FR : forall (x : list byte), x ++ query_text fo qu ++ match @nil byte with [] => [] | _ :: _ => "#"%char :: escaped encodeFragment [] [] end = x ++ q) by (intros; rewrite QT, app_nil_r; reflexivity).
  destruct HH as [hh p path HH HP NE PS E|r E NR|c r E NC].
  - change ("/"%char) with slash in *. cbn [has_prefix]. rewrite Ascii.eqb_refl. cbn [andb negb orb skipn].
    destruct (host_port hh p HH HP) as [A _]. destruct (host_facts _ A) as (_ & _ & A3).
    assert (CT : cut slash (hh ++ p ++ path) = (hh ++ p, match path with [] => None | _ :: r => Some r end)).
    { rewrite app_assoc, (cut_skip _ _ _ A3). destruct PS as [->|(r & ->)]; cbn [cut]; [|rewrite Ascii.eqb_refl]; rewrite app_nil_r; reflexivity. }
    rewrite CT. assert (PP : match match path with [] => None | _ :: r => Some r end with Some p0 => slash :: p0 | None => [] end = path) by (destruct PS as [->|(r & ->)]; reflexivity).
    rewrite PP, (authority_kept hh p HH HP). cbn [bind].
    destruct (encoded_unescape _ _ E path_no_pct) as (qp & Eq & Nq). destruct (path_facts _ E) as (_ & _ & V).
    destruct (set_escaped encodePath path) as [[qp' raw]|e|] eqn:SE; [|unfold set_escaped in SE; rewrite Eq in SE; discriminate..]. cbn [bind].
    assert (qp' = qp) by (unfold set_escaped in SE; rewrite Eq in SE; cbn [bind] in SE; congruence). subst qp'.
    eexists. split; [reflexivity|]. do 3 (split; [reflexivity|]).
    assert (EK : escaped encodePath qp raw = path).
    { apply (escaped_keeps _ _ _ _ SE V). intros _. destruct PS as [->|(r & ->)]; [injection Eq as <-; discriminate|exact (unescape_slash r qp Eq)]. }
    unfold string_rest. cbn [u_Opaque u_Path u_RawPath u_Host u_Scheme u_ForceQuery u_RawQuery u_Fragment u_RawFragment]. rewrite EK. fold (query_text fo qu).
    rewrite FR. f_equal. unfold authority_string. cbn [u_Scheme u_Host u_User u_OmitHost u_Path andb]. rewrite HL. cbn [orb negb]. rewrite !orb_false_r.
    rewrite (escape_host_id _ A). assert (SL : negb (List.length path =? 0)%nat && negb (has_prefix [slash] path) = false).
    { destruct PS as [->|(r & ->)]; [reflexivity|]. cbn [has_prefix]. rewrite Ascii.eqb_refl. reflexivity. }
    rewrite SL. cbn [andb app].
    assert (NE' : negb (List.length (hh ++ p) =? 0)%nat || negb (List.length qp =? 0)%nat = true).
    { destruct NE as [NE|NE]; [destruct (hh ++ p); [congruence|reflexivity]|]. specialize (Nq NE). destruct qp; [congruence|apply orb_true_r]. }
    rewrite NE'. destruct s; [congruence|]. cbn [app]. rewrite <- app_assoc. reflexivity.
  - change ("/"%char) with slash in *. cbn [has_prefix]. rewrite Ascii.eqb_refl. cbn [andb negb orb].
    replace (match r with [] => false | b :: _ => Ascii.eqb slash b && true end) with false
      by (destruct r as [|x r]; [reflexivity|]; destruct (Ascii.eqb_spec slash x) as [<-|]; [exfalso; exact (NR r eq_refl)|reflexivity]).
    cbn [andb]. destruct (encoded_unescape _ _ E path_no_pct) as (qp & Eq & _). destruct (path_facts _ E) as (_ & _ & V).
    assert (Eq' : unescape (slash :: r) = Ok (slash :: qp)) by (cbn [unescape]; change (Ascii.eqb slash "%"%char) with false; cbv iota; rewrite Eq; reflexivity).
    destruct (set_escaped encodePath (slash :: r)) as [[qp' raw]|e|] eqn:SE; [|unfold set_escaped in SE; rewrite Eq' in SE; discriminate..]. cbn [bind].
    assert (qp' = slash :: qp) by (unfold set_escaped in SE; rewrite Eq' in SE; cbn [bind] in SE; congruence). subst qp'.
    eexists. split; [reflexivity|]. do 3 (split; [reflexivity|]).
    assert (EK : escaped encodePath (slash :: qp) raw = slash :: r) by (apply (escaped_keeps _ _ _ _ SE); [cbn [forallb]; rewrite V; reflexivity|discriminate]).
    unfold string_rest. cbn [u_Opaque u_Path u_RawPath u_Host u_Scheme u_ForceQuery u_RawQuery u_Fragment u_RawFragment]. rewrite EK. fold (query_text fo qu).
    rewrite FR. f_equal. unfold authority_string. cbn [u_Scheme u_Host u_User u_OmitHost u_Path andb List.length Nat.eqb negb]. rewrite HL. cbn [orb negb andb app has_prefix].
    rewrite Ascii.eqb_refl. cbn [negb andb app]. destruct s; [congruence|reflexivity].
  - replace (has_prefix [slash] (c :: r)) with false by (cbn [has_prefix]; destruct (Ascii.eqb_spec slash c) as [Es|]; [exfalso; apply NC; rewrite <- Es; reflexivity|reflexivity]).
    cbn [negb andb]. eexists. split; [reflexivity|]. do 3 (split; [reflexivity|]).
    unfold string_rest. cbn [u_Opaque u_ForceQuery u_RawQuery u_Fragment u_RawFragment]. fold (query_text fo qu). rewrite FR. reflexivity.
Qed.
Lemma Parse_kept l : absolute_uri l -> exists u, Parse l = Ok u /\ u_Scheme u <> [] /\ URL_String u = l /\ forallb plain_byte (fst (cut "#"%char l)) = true /\
  (forall c, In c l -> c <> backslash).
Proof.
  intros (s & h & q & f & -> & HS & HH & HQ & HF). destruct (scheme_facts s HS) as (S1 & S2 & S3 & S4). destruct (hier_facts h HH) as [H1 H2].
  assert (PB : forallb plain_byte (s ++ colon :: h ++ q) = true).
  { rewrite forallb_app. cbn [forallb]. rewrite forallb_app, H1, (query_plain q HQ). rewrite (forallb_imp scheme_ok plain_byte); [reflexivity| |exact S1].
    intros x Hx. unfold scheme_ok in Hx. destruct (plain_byte x); [reflexivity|discriminate]. }
  destruct (parse_kept s h q HS HH HQ) as (u & P & U1 & U2 & U3 & U4).
  replace (s ++ ":"%char :: h ++ q ++ f) with ((s ++ colon :: h ++ q) ++ f) by (rewrite <- app_assoc; cbn [app]; rewrite <- app_assoc; reflexivity).
  unfold Parse. rewrite (cut_skip _ _ _ (no_hash _ PB)).
  assert (NB : forall (b : list byte), forallb plain_byte b = true -> forall c, In c b -> c <> backslash).
  { intros b Hb c I ->. rewrite forallb_forall in Hb. specialize (Hb _ I). discriminate. }
  destruct HF as [->|(t & -> & Nt & Ef)].
  - cbn [cut]. rewrite !app_nil_r, P. cbn [bind fst]. exists u. split; [reflexivity|]. split; [rewrite U1; exact S3|]. split; [|split; [exact PB|exact (NB _ PB)]].
    unfold URL_String. rewrite U1, U4. destruct s; [congruence|]. rewrite <- app_assoc. reflexivity.
  - cbn [cut]. rewrite Ascii.eqb_refl, app_nil_r, P. cbn [bind fst]. destruct t as [|c t]; [congruence|].
    destruct (encoded_unescape _ _ Ef query_no_pct) as (qf & Eq & Nq). specialize (Nq Nt). destruct (query_facts _ Ef) as [F1 F2].
    destruct (set_escaped encodeFragment (c :: t)) as [[qf' raw]|e|] eqn:SE; [|unfold set_escaped in SE; rewrite Eq in SE; discriminate..]. cbn [bind].
    assert (qf' = qf) by (unfold set_escaped in SE; rewrite Eq in SE; cbn [bind] in SE; congruence). subst qf'.
    assert (EK : escaped encodeFragment qf raw = c :: t) by (apply (escaped_keeps _ _ _ _ SE F2); discriminate).
    eexists. split; [reflexivity|]. cbn [u_Scheme]. split; [rewrite U1; exact S3|]. split; [|split; [exact PB|]].
    + assert (SR : forall t raw, t <> [] -> string_rest (mkURL (u_Scheme u) (u_Opaque u) (u_User u) (u_Host u) (u_Path u) (u_RawPath u) (u_OmitHost u) (u_ForceQuery u) (u_RawQuery u) t raw)
        = string_rest u ++ "#"%char :: escaped encodeFragment t raw).
      { intros t' raw' N'. unfold string_rest. cbn [u_Opaque u_Path u_RawPath u_Host u_Scheme u_ForceQuery u_RawQuery u_Fragment u_RawFragment]. rewrite U2, app_nil_r.
        destruct t'; [congruence|]. rewrite <- app_assoc. reflexivity. }
      unfold URL_String. rewrite SR by exact Nq. cbn [u_Scheme]. rewrite U1, U4, EK. destruct s; [congruence|]. rewrite <- !app_assoc. cbn [app]. rewrite <- !app_assoc. reflexivity.
    + intros x I. apply in_app_or in I as [I|I]; [exact (NB _ PB x I)|]. destruct I as [<-|I]; [discriminate|exact (NB _ F1 x I)].
Qed.
(** sanitizeURI leaves them as they are. *)
Lemma sanitize_kept l : absolute_uri l -> no_dot_segment l -> sanitizeURI go_url l = Some l.
Proof.
  intros H ND. rewrite sanitizeURI_go. unfold go_sanitizeURI. destruct (Parse_kept l H) as (u & P & NS & US & _ & NB).
  rewrite fix_backslash_plain by (intros I; exact (NB _ I eq_refl)). rewrite drop_dots_id by exact ND.
  assert (TP : trim_prefix [dot; slash] l = l).
  { destruct H as (s & h & q & f & -> & (c & r & -> & Hc & _) & _). unfold trim_prefix. cbn [app has_prefix]. destruct (Ascii.eqb_spec dot c) as [<-|]; [exfalso; change (b2z dot) with 46 in Hc; lia|reflexivity]. }
  rewrite TP, P. destruct (u_Scheme u); [congruence|]. cbn [List.length Nat.eqb]. rewrite US. reflexivity.
Qed.
