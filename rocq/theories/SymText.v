(** Texts with opaque pieces, and replacement on them. *)
From Verif Require Import Base BaseFacts Types Doc F64 SpecText JsonText JsonTextProofs JsonStringProofs Codec Ext ReplaceProofs.

Inductive piece : Type := Ch (c : byte) | Op (i : nat).
Section Sym.
Context (env : nat -> bytes).
Definition den1 (p : piece) : bytes := match p with Ch c => [c] | Op i => env i end.
Definition den (l : list piece) : bytes := flat_map den1 l.
Lemma den_app a b : den (a ++ b) = den a ++ den b.
Proof. apply flat_map_app. Qed.

(** [hd i] lists characters which the opaque piece [i] does not begin with. *)
Context (hd : nat -> list byte).
Definition mem (c : byte) (l : list byte) : bool := existsb (Ascii.eqb c) l.
Definition heads_ok : Prop := forall i c p rest, mem c (hd i) = true -> has_prefix (c :: p) (env i ++ rest) = false.

(** None: not known *)
Fixpoint sprefix (p : bytes) (l : list piece) : option bool :=
  match p, l with
  | [], _ => Some true
  | c :: p', Ch d :: l' => if Ascii.eqb c d then sprefix p' l' else Some false
  | c :: _, Op i :: _ => if mem c (hd i) then Some false else None
  | _ :: _, [] => Some false
  end.
Fixpoint sreplace (pat : bytes) (rep : list piece) (l : list piece) : option (list piece) :=
  match l with
  | [] => Some []
  | Op i :: l' => option_map (cons (Op i)) (sreplace pat rep l')
  | Ch c :: l' =>
      match sprefix pat l with
      | Some true => Some (rep ++ skipn (List.length pat) l)
      | Some false => option_map (cons (Ch c)) (sreplace pat rep l')
      | None => None
      end
  end.

Lemma sprefix_sound p l b : heads_ok -> sprefix p l = Some b -> has_prefix p (den l) = b /\
  (b = true -> skipn (List.length p) (den l) = den (skipn (List.length p) l)).
Proof.
  intros H. revert l. induction p as [|c p IH]; intros l E.
  - injection E as <-. split; [reflexivity|]. intros _. reflexivity.
  - destruct l as [|[d|i] l]; cbn [sprefix] in E.
    + injection E as <-. split; [reflexivity|discriminate].
    + change (den (Ch d :: l)) with (d :: den l). cbn [has_prefix List.length skipn].
      destruct (Ascii.eqb c d); [exact (IH l E)|]. injection E as <-. split; [reflexivity|discriminate].
    + destruct (mem c (hd i)) eqn:M; [|discriminate]. injection E as <-.
      change (den (Op i :: l)) with (env i ++ den l). split; [apply H; exact M|discriminate].
Qed.
Lemma sreplace_sound pat rep l l' : heads_ok -> pat <> [] -> (forall i, In (Op i) l -> skips pat (env i)) -> sreplace pat rep l = Some l' ->
  replace1 pat (den rep) (den l) = den l'.
Proof.
  intros H N. revert l'. induction l as [|[c|i] l IH]; intros l' S E.
  - injection E as <-. cbn. destruct pat; [contradiction|reflexivity].
  - cbn [sreplace] in E. destruct (sprefix pat (Ch c :: l)) as [b|] eqn:P; [|discriminate].
    destruct (sprefix_sound _ _ _ H P) as [P1 P2]. change (den (Ch c :: l)) with (c :: den l) in *.
    cbn [replace1]. rewrite P1. destruct b.
    + injection E as <-. rewrite den_app. f_equal. apply (P2 eq_refl).
    + destruct (sreplace pat rep l) as [l1|] eqn:R; [|discriminate]. injection E as <-.
      rewrite (IH l1); [reflexivity| |reflexivity]. intros i Hi. apply S. right. exact Hi.
  - cbn [sreplace] in E. destruct (sreplace pat rep l) as [l1|] eqn:R; [|discriminate]. injection E as <-.
    change (den (Op i :: l)) with (env i ++ den l). rewrite replace1_skips by (apply S; left; reflexivity).
    rewrite (IH l1); [reflexivity| |reflexivity]. intros k Hk. apply S. right. exact Hk.
Qed.
Lemma sreplace_ops pat rep l l' i : sreplace pat rep l = Some l' -> In (Op i) l' -> In (Op i) l \/ In (Op i) rep.
Proof.
  revert l'. induction l as [|[c|k] l IH]; intros l' E Hi.
  - injection E as <-. destruct Hi.
  - cbn [sreplace] in E. destruct (sprefix pat (Ch c :: l)) as [[|]|]; [| |discriminate].
    + injection E as <-. apply in_app_or in Hi. destruct Hi as [Hi|Hi]; [right; exact Hi|left].
      rewrite <- (firstn_skipn (List.length pat) (Ch c :: l)). apply in_or_app. right. exact Hi.
    + destruct (sreplace pat rep l) as [l1|] eqn:R; [|discriminate]. injection E as <-.
      destruct Hi as [Hi|Hi]; [discriminate|]. destruct (IH l1 eq_refl Hi); [left; right|right]; assumption.
  - cbn [sreplace] in E. destruct (sreplace pat rep l) as [l1|] eqn:R; [|discriminate]. injection E as <-.
    destruct Hi as [[= ->]|Hi]; [left; left; reflexivity|]. destruct (IH l1 eq_refl Hi); [left; right|right]; assumption.
Qed.

Definition lit (b : bytes) : list piece := map Ch b.
Lemma den_lit b : den (lit b) = b.
Proof. induction b as [|c b IH]; [reflexivity|]. cbn. f_equal. exact IH. Qed.
Lemma lit_ops b i : ~ In (Op i) (lit b).
Proof. intros H. apply in_map_iff in H. destruct H as (c & E & _). discriminate. Qed.

(** A sequence of edits. *)
Fixpoint sedits (es : list (bytes * bytes)) (l : list piece) : option (list piece) :=
  match es with
  | [] => Some l
  | (pat, rep) :: es' => match sreplace pat (lit rep) l with Some l' => sedits es' l' | None => None end
  end.
Fixpoint edits (es : list (bytes * bytes)) (l : bytes) : bytes :=
  match es with
  | [] => l
  | (pat, rep) :: es' => edits es' (replace1 pat rep l)
  end.
Lemma sedits_sound es : forall l l', heads_ok -> Forall (fun e => fst e <> []) es ->
  (forall i, In (Op i) l -> Forall (fun e => skips (fst e) (env i)) es) ->
  sedits es l = Some l' -> edits es (den l) = den l'.
Proof.
  induction es as [|[pat rep] es IH]; intros l l' H N S E; [injection E as <-; reflexivity|].
  cbn [sedits] in E. destruct (sreplace pat (lit rep) l) as [l1|] eqn:R; [|discriminate]. cbn [edits].
  rewrite <- (den_lit rep), (sreplace_sound pat (lit rep) l l1 H (Forall_inv N)); [| |exact R].
  - apply IH; [exact H|exact (Forall_inv_tail N)| |exact E]. intros i Hi.
    destruct (sreplace_ops _ _ _ _ i R Hi) as [G|G]; [exact (Forall_inv_tail (S i G))|destruct (lit_ops _ _ G)].
  - intros i Hi. exact (Forall_inv (S i Hi)).
Qed.

(** ** Objects *)
Fixpoint smembers (m : list (string * list piece)) : list piece :=
  match m with
  | [] => []
  | (k, v) :: m' => (Ch ","%char :: lit (str_text k) ++ Ch ":"%char :: v) ++ smembers m'
  end.
Definition sobj (m : list (string * list piece)) : list piece :=
  match m with
  | [] => lit (str_bytes "{}")
  | (k, v) :: m' => (Ch "{"%char :: lit (str_text k) ++ Ch ":"%char :: v) ++ smembers m' ++ [Ch "}"%char]
  end.
End Sym.

Lemma print_depth j : forall d, print (fun _ => []) [] d j = print_compact j.
Proof.
  unfold print_compact. assert (G : forall d d', print (fun _ => []) [] d j = print (fun _ => []) [] d' j); [|intros; apply G].
  induction j as [|b|s|s|l IH|m IH] using json_ind'; intros d d'; try reflexivity.
  - destruct l as [|v l]; [reflexivity|]. cbn [print app]. f_equal.
    rewrite (Forall_inv IH (S d) (S d')). f_equal. f_equal. apply Forall_inv_tail in IH.
    induction IH as [|w l Hw _ IHl]; [reflexivity|]. cbn [flat_map]. rewrite (Hw (S d) (S d')), IHl. reflexivity.
  - destruct m as [|[k v] m]; [reflexivity|]. cbn [print app]. f_equal. f_equal.
    pose proof (Forall_inv IH) as H0. cbn [snd] in H0. rewrite (H0 (S d) (S d')). f_equal. f_equal. f_equal. apply Forall_inv_tail in IH.
    induction IH as [|w l Hw _ IHl]; [reflexivity|]. cbn [flat_map]. rewrite (Hw (S d) (S d')), IHl. reflexivity.
Qed.
Lemma print_compact_obj k v m : print_compact (JObj ((k, v) :: m)) =
  "{"%char :: str_text k ++ ":"%char :: print_compact v ++
  flat_map (fun p => ","%char :: str_text (fst p) ++ ":"%char :: print_compact (snd p)) m ++ ["}"%char].
Proof.
  unfold print_compact at 1. cbn [print app]. rewrite print_depth. f_equal. f_equal. f_equal. f_equal. f_equal.
  induction m as [|p m IH]; [reflexivity|]. cbn [flat_map]. rewrite print_depth, IH. reflexivity.
Qed.
Lemma den_obj env m sm : Forall2 (fun p q => fst p = fst q /\ print_compact (snd p) = den env (snd q)) m sm ->
  print_compact (JObj m) = den env (sobj sm).
Proof.
  intros H. destruct H as [|[k v] [k' sv] m sm [K V] H]; [reflexivity|]. cbn [fst snd] in *. subst k'.
  rewrite print_compact_obj. cbn [sobj]. rewrite !den_app.
  change (den env (Ch "{"%char :: lit (str_text k) ++ Ch ":"%char :: sv)) with ("{"%char :: den env (lit (str_text k) ++ Ch ":"%char :: sv)).
  rewrite den_app, den_lit. change (den env (Ch ":"%char :: sv)) with (":"%char :: den env sv). rewrite <- V.
  rewrite <- app_comm_cons. f_equal. rewrite <- app_assoc. f_equal. rewrite <- app_comm_cons. f_equal. f_equal. f_equal.
  induction H as [|[k1 v1] [k2 v2] m sm [K V'] H IH]; [reflexivity|]. cbn [fst snd] in *. subst k2.
  cbn [flat_map smembers fst snd]. rewrite IH, den_app.
  change (den env (Ch ","%char :: lit (str_text k1) ++ Ch ":"%char :: v2)) with (","%char :: den env (lit (str_text k1) ++ Ch ":"%char :: v2)).
  rewrite den_app, den_lit. change (den env (Ch ":"%char :: v2)) with (":"%char :: den env v2). rewrite <- V'. reflexivity.
Qed.
