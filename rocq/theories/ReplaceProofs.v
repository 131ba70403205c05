(** bytes.Replace with n = 1. *)
From Verif Require Import Base BaseFacts Types Doc JsonText Ext.

(** No occurrence of [p] starts inside [t], whatever follows [t]. *)
Definition skips (p t : bytes) : Prop :=
  forall a b rest, t = a ++ b -> b <> [] -> has_prefix p (b ++ rest) = false.

Lemma skips_nil p : skips p [].
Proof. intros a b rest E N. destruct a; [destruct b; [contradiction|discriminate]|discriminate]. Qed.
Lemma replace1_skips p r t rest : skips p t -> replace1 p r (t ++ rest) = t ++ replace1 p r rest.
Proof.
  induction t as [|c t IH]; intros S; [reflexivity|].
  cbn [app replace1]. rewrite (S [] (c :: t) rest eq_refl ltac:(discriminate) : has_prefix p (c :: t ++ rest) = false).
  f_equal. apply IH. intros a b rest' E N. exact (S (c :: a) b rest' (f_equal (cons c) E) N).
Qed.

(** The first character of the pattern does not occur. *)
Lemma skips_head c p t : ~ In c t -> skips (c :: p) t.
Proof.
  intros H a b rest -> N. destruct b as [|d b]; [contradiction|]. cbn [app has_prefix].
  destruct (Ascii.eqb_spec c d) as [->|]; [|reflexivity]. exfalso. apply H. apply in_or_app. right. left. reflexivity.
Qed.

Lemma has_prefix_app p b : has_prefix p b = true <-> exists s, b = p ++ s.
Proof.
  revert b. induction p as [|c p IH]; intros b; cbn [has_prefix].
  - split; [intros _; exists b; reflexivity|reflexivity].
  - destruct b as [|d b]; [split; [discriminate|intros [s E]; discriminate]|].
    rewrite andb_true_iff, IH, Ascii.eqb_eq. split.
    + intros [-> [s ->]]. exists s. reflexivity.
    + intros [s E]. injection E as -> ->. split; [reflexivity|exists s; reflexivity].
Qed.

(** [p] occurs in [t]. *)
Definition occurs (p t : bytes) : Prop := exists a b, t = a ++ p ++ b.

(** A text which ends with a character that [p] has at most at its end. *)
Lemma skips_closed p t z : ~ occurs p (t ++ [z]) -> ~ In z (removelast p) -> skips p (t ++ [z]).
Proof.
  intros O Z a b rest E N. destruct (has_prefix p (b ++ rest)) eqn:H; [|reflexivity]. exfalso.
  apply has_prefix_app in H. destruct H as [s H].
  assert (B : exists b', b = b' ++ [z]).
  { destruct (exists_last N) as (b' & y & ->). exists b'. rewrite app_assoc in E. apply app_inj_tail in E. destruct E as [_ <-]. reflexivity. }
  destruct B as [b' ->].
  apply app_eq_app in H. destruct H as [q [[H _]|[H _]]].
  - apply O. exists a, q. rewrite E, H. reflexivity.
  - destruct q as [|c q].
    + apply O. exists a, []. rewrite app_nil_r in *. rewrite E, H. reflexivity.
    + apply Z. rewrite H, removelast_app by discriminate. apply in_or_app. left. apply in_or_app. right. left. reflexivity.
Qed.
