(** Facts about the definitions of Base. *)
From Verif Require Export Base.
From Coq Require Export ZifyBool ZifyNat ZifyN.
Ltac Zify.zify_post_hook ::= Z.div_mod_to_equations.

Lemma b2z_range b : 0 <= b2z b < 256.
Proof.
  unfold b2z. pose proof (N_ascii_bounded b). lia.
Qed.

Lemma b2z_z2b z : b2z (z2b z) = z mod 256.
Proof.
  unfold b2z, z2b. rewrite N_ascii_embedding; lia.
Qed.

Lemma z2b_b2z b : z2b (b2z b) = b.
Proof.
  unfold z2b, b2z.
  pose proof (N_ascii_bounded b).
  rewrite Z.mod_small by lia. rewrite N2Z.id. apply ascii_N_embedding.
Qed.

Lemma b2z_inj a b : b2z a = b2z b -> a = b.
Proof. intros H. rewrite <- (z2b_b2z a), <- (z2b_b2z b), H. reflexivity. Qed.

Lemma z2b_mod z : z2b (z mod 256) = z2b z.
Proof. unfold z2b. rewrite Z.mod_mod by lia. reflexivity. Qed.

Lemma zlen_nonneg {A} (l : list A) : 0 <= zlen l.
Proof. unfold zlen; lia. Qed.

Lemma zlen_app {A} (a b : list A) : zlen (a ++ b) = zlen a + zlen b.
Proof. unfold zlen. rewrite app_length. lia. Qed.

Lemma zlen_cons {A} (a : A) l : zlen (a :: l) = 1 + zlen l.
Proof. unfold zlen. simpl List.length. lia. Qed.

Lemma zlen_nil {A} : zlen (@nil A) = 0.
Proof. reflexivity. Qed.

Lemma le_bytes_length w v : List.length (le_bytes w v) = w.
Proof. revert v; induction w; simpl; intros; auto. Qed.

Lemma le_val_le_bytes w v : le_val (le_bytes w v) = v mod 256 ^ Z.of_nat w.
Proof.
  revert v; induction w as [|w IH]; intros v.
  - simpl. rewrite Z.mod_1_r. reflexivity.
  - cbn [le_bytes le_val]. rewrite IH, b2z_z2b.
    replace (Z.of_nat (S w)) with (1 + Z.of_nat w) by lia.
    rewrite Z.pow_add_r by lia. rewrite Z.pow_1_r.
    rewrite Z.rem_mul_r; [reflexivity|lia|apply Z.pow_pos_nonneg; lia].
Qed.

Lemma le_val_range bs : 0 <= le_val bs < 256 ^ zlen bs.
Proof.
  induction bs as [|b bs IH]; cbn [le_val].
  - change (zlen (@nil byte)) with 0. lia.
  - rewrite zlen_cons, Z.pow_add_r, Z.pow_1_r by (pose proof (zlen_nonneg bs); lia).
    pose proof (b2z_range b). nia.
Qed.

Lemma le_bytes_le_val bs : le_bytes (List.length bs) (le_val bs) = bs.
Proof.
  induction bs as [|b bs IH]; cbn [le_val le_bytes List.length]; auto.
  pose proof (b2z_range b).
  f_equal.
  - rewrite <- z2b_mod.
    replace ((b2z b + 256 * le_val bs) mod 256) with (b2z b).
    + apply z2b_b2z.
    + rewrite Z.mul_comm, Z_mod_plus_full. rewrite Z.mod_small; lia.
  - replace ((b2z b + 256 * le_val bs) / 256) with (le_val bs); auto.
    rewrite Z.mul_comm, Z_div_plus_full by lia. rewrite Z.div_small; lia.
Qed.

Lemma sub_length {A} (l : list A) off n :
  (off + n <= List.length l)%nat -> List.length (sub l off n) = n.
Proof. intros. unfold sub. rewrite firstn_length, skipn_length. lia. Qed.

Lemma overwrite_length {A} (l new : list A) off :
  (off + List.length new <= List.length l)%nat ->
  List.length (overwrite l off new) = List.length l.
Proof.
  intros. unfold overwrite. rewrite !app_length, firstn_length, skipn_length. lia.
Qed.

Lemma skipn_app_exact {A} (a b : list A) n :
  List.length a = n -> skipn n (a ++ b) = b.
Proof.
  intros <-. rewrite skipn_app, Nat.sub_diag, skipn_all. reflexivity.
Qed.

Lemma firstn_app_exact {A} (a b : list A) n :
  List.length a = n -> firstn n (a ++ b) = a.
Proof.
  intros <-. rewrite firstn_app, Nat.sub_diag, firstn_all. simpl. apply app_nil_r.
Qed.

Lemma nth_error_overwrite {A} (l new : list A) off i :
  (off + List.length new <= List.length l)%nat ->
  nth_error (overwrite l off new) i =
  if ((off <=? i) && (i <? off + List.length new))%nat
  then nth_error new (i - off) else nth_error l i.
Proof.
  intros Hl. unfold overwrite.
  destruct (off <=? i)%nat eqn:E1; cbn [andb].
  - destruct (i <? off + List.length new)%nat eqn:E2.
    + rewrite nth_error_app2; rewrite firstn_length_le by lia; [|lia].
      rewrite nth_error_app1 by lia. reflexivity.
    + rewrite nth_error_app2; rewrite firstn_length_le by lia; [|lia].
      rewrite nth_error_app2 by lia.
      rewrite <- (firstn_skipn (off + List.length new) l) at 2.
      rewrite nth_error_app2 by (rewrite firstn_length_le; lia).
      rewrite firstn_length_le by lia. f_equal. lia.
  - rewrite nth_error_app1 by (rewrite firstn_length_le; lia).
    rewrite <- (firstn_skipn off l) at 2.
    rewrite nth_error_app1 by (rewrite firstn_length_le; lia). reflexivity.
Qed.

Lemma nth_error_ext {A} (a b : list A) :
  (forall i, nth_error a i = nth_error b i) -> a = b.
Proof.
  revert b; induction a as [|x a IH]; intros [|y b] H; auto.
  - specialize (H O); discriminate.
  - specialize (H O); discriminate.
  - f_equal.
    + specialize (H O); injection H; auto.
    + apply IH. intros i. exact (H (S i)).
Qed.

Lemma nth_error_skipn' {A} (l : list A) n i : nth_error (skipn n l) i = nth_error l (n + i).
Proof.
  revert l; induction n; intros l; simpl; auto.
  destruct l; auto. destruct i; reflexivity.
Qed.

Lemma nth_error_firstn' {A} (l : list A) n i :
  nth_error (firstn n l) i = if (i <? n)%nat then nth_error l i else None.
Proof.
  revert l i; induction n; intros l i; simpl.
  - destruct i; reflexivity.
  - destruct l as [|a l].
    + destruct (i <? S n)%nat; destruct i; reflexivity.
    + destruct i; simpl; auto. rewrite IHn.
      destruct (i <? n)%nat eqn:E; destruct (S i <? S n)%nat eqn:E'; auto; lia.
Qed.

Lemma nth_error_sub {A} (l : list A) off n i :
  nth_error (sub l off n) i = if (i <? n)%nat then nth_error l (off + i) else None.
Proof. unfold sub. rewrite nth_error_firstn', nth_error_skipn'. reflexivity. Qed.

(** Reading what was just written. *)
Lemma sub_overwrite_same {A} (l new : list A) off :
  (off + List.length new <= List.length l)%nat ->
  sub (overwrite l off new) off (List.length new) = new.
Proof.
  intros H. unfold sub, overwrite.
  rewrite skipn_app_exact by (rewrite firstn_length_le; lia).
  apply firstn_app_exact. reflexivity.
Qed.

(** Reading elsewhere. *)
Lemma sub_overwrite_other {A} (l new : list A) off o n :
  (off + List.length new <= List.length l)%nat ->
  (o + n <= off \/ off + List.length new <= o)%nat ->
  sub (overwrite l off new) o n = sub l o n.
Proof.
  intros H D. apply nth_error_ext. intros i.
  rewrite !nth_error_sub. destruct (i <? n)%nat eqn:E; auto.
  rewrite nth_error_overwrite by auto.
  destruct ((off <=? o + i) && (o + i <? off + List.length new))%nat eqn:E2; auto. lia.
Qed.

Lemma bind_Ok {A B} (m : res A) (f : A -> res B) b :
  bind m f = Ok b -> exists a, m = Ok a /\ f a = Ok b.
Proof. destruct m; simpl; intros; try discriminate. eauto. Qed.

Lemma bind_not_panic {A B} (m : res A) (f : A -> res B) :
  m <> Panic -> (forall a, m = Ok a -> f a <> Panic) -> bind m f <> Panic.
Proof. destruct m; simpl; intros; auto; congruence. Qed.

Lemma mapM_ok_length {A B} (f : A -> res B) l bs :
  mapM f l = Ok bs -> List.length bs = List.length l.
Proof.
  revert bs; induction l; simpl; intros bs H.
  - injection H as <-. reflexivity.
  - apply bind_Ok in H as (b & _ & H). apply bind_Ok in H as (bs' & Hb & H).
    injection H as <-. simpl. f_equal. auto.
Qed.

Lemma mapM_ok_nth {A B} (f : A -> res B) l bs i a :
  mapM f l = Ok bs -> nth_error l i = Some a ->
  exists b, nth_error bs i = Some b /\ f a = Ok b.
Proof.
  revert bs i; induction l as [|x l IH]; simpl; intros bs i H Hi.
  - destruct i; discriminate.
  - apply bind_Ok in H as (b & Hb & H). apply bind_Ok in H as (bs' & Hbs & H).
    injection H as <-. destruct i; simpl in *.
    + injection Hi as <-. eauto.
    + eauto.
Qed.

Lemma mapM_ext {A B} (f g : A -> res B) l :
  (forall a, In a l -> f a = g a) -> mapM f l = mapM g l.
Proof.
  induction l; simpl; intros H; auto.
  rewrite H by auto. rewrite IHl by auto. reflexivity.
Qed.

Lemma mapM_pure {A B} (f : A -> res B) (g : A -> B) l :
  (forall a, In a l -> f a = Ok (g a)) -> mapM f l = Ok (map g l).
Proof.
  induction l; simpl; intros H; auto.
  rewrite H by auto. simpl. rewrite IHl by auto. reflexivity.
Qed.

Lemma i64_id z : in_i64 z -> i64 z = z.
Proof. unfold in_i64, i64. intros. rewrite Z.mod_small; lia. Qed.

Lemma i64_range z : in_i64 (i64 z).
Proof. unfold in_i64, i64. pose proof (Z.mod_pos_bound (z + 2 ^ 63) (2 ^ 64)). lia. Qed.

Lemma set_nth_length {A} n (a : A) l : List.length (set_nth n a l) = List.length l.
Proof. revert n; induction l; destruct n; simpl; auto. Qed.

Lemma nth_error_set_nth {A} n (a : A) l i :
  nth_error (set_nth n a l) i =
  if (i =? n)%nat then (if (n <? List.length l)%nat then Some a else None) else nth_error l i.
Proof.
  revert n i; induction l as [|x l IH]; intros n i; destruct n, i; simpl; auto.
  - destruct (i =? n)%nat; reflexivity.
  - rewrite IH. destruct (i =? n)%nat; auto.
Qed.

Lemma zeros_length n : List.length (zeros n) = n.
Proof. apply repeat_length. Qed.

Lemma bytes_str_bytes s : bytes_str (str_bytes s) = s.
Proof. apply string_of_list_ascii_of_string. Qed.
Lemma str_bytes_str b : str_bytes (bytes_str b) = b.
Proof. apply list_ascii_of_string_of_list_ascii. Qed.
