(** Linearizability of the extension registry. *)
From Verif Require Import Base Registry SpecRegistry.

Section Proofs.
Context {fac : Type}.
Notation event := (event fac).
Notation call := (call fac).

Definition of_thread (t : nat) (e : event) : Prop := call_or_return t e.
Definition quiet (t : nat) (l : list event) : Prop := Forall (fun e => ~ call_or_return t e) l.

(** The value of a key after a history. *)
Fixpoint last_store (m : option fac) (k : string) (tr : list event) : option fac :=
  match tr with
  | [] => m
  | Store _ k' f :: tr' => last_store (if String.eqb k k' then Some f else m) k tr'
  | _ :: tr' => last_store m k tr'
  end.
Lemma last_store_app m k a b : last_store m k (a ++ b) = last_store (last_store m k a) k b.
Proof. revert m. induction a as [|[] a IH]; intros m; cbn; rewrite ?IH; reflexivity. Qed.
Definition stores (k : string) (e : event) : Prop := match e with Store _ k' _ => k' = k | _ => False end.
Lemma last_store_quiet k tr : Forall (fun e => ~ stores k e) tr -> forall m, last_store m k tr = m.
Proof.
  induction 1 as [|e tr H _ IH]; intros m; [reflexivity|]. destruct e; cbn in *; try apply IH.
  destruct (String.eqb_spec k k0) as [->|]; [contradiction H; reflexivity|apply IH].
Qed.
Lemma last_store_some k tr : forall m f, last_store m k tr = Some f ->
  (exists a t b, tr = a ++ Store t k f :: b /\ Forall (fun e => ~ stores k e) b) \/
  (m = Some f /\ Forall (fun e => ~ stores k e) tr).
Proof.
  induction tr as [|e tr IH]; intros m f E; [right; split; [exact E|constructor]|].
  assert (G : forall m', last_store m' k tr = Some f -> (m' = Some f -> (exists t, e = Store t k f) \/ (m = Some f /\ ~ stores k e)) ->
    (exists a t b, e :: tr = a ++ Store t k f :: b /\ Forall (fun e => ~ stores k e) b) \/
    (m = Some f /\ Forall (fun e => ~ stores k e) (e :: tr))).
  { intros m' E' C. destruct (IH m' f E') as [(a & t & b & -> & Q)|[Em Q]].
    - left. exists (e :: a), t, b. split; [reflexivity|exact Q].
    - destruct (C Em) as [[t ->]|[M N]]; [left; exists [], t, tr; split; [reflexivity|exact Q]|].
      right. split; [exact M|]. constructor; assumption. }
  destruct e; cbn [last_store] in E; try (apply (G m E); intros M; right; split; [exact M|cbn; tauto]).
  apply (G _ E). destruct (String.eqb_spec k k0) as [->|N]; [intros [= ->]; left; eexists; reflexivity|].
  intros M. right. split; [exact M|]. cbn. intros K. apply N. symmetry. exact K.
Qed.

(** Where a thread is, as seen from the history. *)
Definition started (tr : list event) (t : nat) (c : call) : Prop :=
  exists a b, tr = a ++ Inv t c :: b /\ quiet t b.
Definition effect (t : nat) (c : call) (r : option fac) : event :=
  match c with Reg k f => Store t k f | Qry k => Fetch t k r end.
Definition effected (tr : list event) (t : nat) (c : call) (r : option fac) : Prop :=
  exists a b d, tr = a ++ Inv t c :: b ++ effect t c r :: d /\ quiet t (b ++ effect t c r :: d).
Definition where_is (tr : list event) (t : nat) (p : pc fac) : Prop :=
  match p with
  | Idle => True
  | WantW k f | HoldW k f | Writing k f => started tr t (Reg k f)
  | Wrote k f => effected tr t (Reg k f) None
  | WantR k | HoldR k => started tr t (Qry k)
  | ReadR k r => effected tr t (Qry k) r
  | Done c r => effected tr t c r
  end.

Definition holds_w (p : pc fac) : bool := match p with HoldW _ _ | Writing _ _ | Wrote _ _ => true | _ => false end.
Definition holds_r (p : pc fac) : bool := match p with HoldR _ | ReadR _ _ => true | _ => false end.
Definition is_writing (p : pc fac) : bool := match p with Writing _ _ => true | _ => false end.

(** The mutex. *)
Record locked (s : state fac) : Prop := mkLocked {
  lk_writer : forall t, holds_w (pcs s t) = true -> writer s = true /\ forall u, holds_w (pcs s u) = true -> u = t;
  lk_free : writer s = false -> forall t, holds_w (pcs s t) = false;
  lk_excl : writer s = true -> readers s = 0%nat;
  lk_readers : exists l, NoDup l /\ List.length l = readers s /\ forall t, In t l <-> holds_r (pcs s t) = true;
  lk_dirty : dirty s = true -> exists t, is_writing (pcs s t) = true;
  lk_held : writer s = true -> exists t, holds_w (pcs s t) = true
}.

Lemma goto_eq t p s : goto (fac := fac) t p s t = p.
Proof. unfold goto. rewrite Nat.eqb_refl. reflexivity. Qed.
Lemma goto_neq t p s u : u <> t -> goto (fac := fac) t p s u = pcs s u.
Proof. unfold goto. intros N. destruct (Nat.eqb_spec u t); [contradiction|reflexivity]. Qed.

Lemma locked_initial : locked (initial (fac := fac)).
Proof.
  constructor; cbn; try discriminate; try reflexivity.
  exists []. split; [constructor|]. split; [reflexivity|]. intros t. split; [intros []|discriminate].
Qed.

(** A step of [t] that changes what it holds as given. *)
Lemma locked_plain s t p w n m d :
  locked s -> holds_w p = holds_w (pcs s t) -> holds_r p = holds_r (pcs s t) -> w = writer s -> n = readers s ->
  (d = true -> is_writing p = true \/ (d = dirty s /\ is_writing (pcs s t) = false)) ->
  locked (mkState (goto t p s) w n m d).
Proof.
  intros [L1 L2 L3 L4 L5 L6] Hw Hr -> -> Hd.
  assert (Ew : forall u, holds_w (goto t p s u) = holds_w (pcs s u)).
  { intros u. destruct (Nat.eq_dec u t) as [->|N]; [rewrite goto_eq; exact Hw|rewrite goto_neq by exact N; reflexivity]. }
  assert (Er : forall u, holds_r (goto t p s u) = holds_r (pcs s u)).
  { intros u. destruct (Nat.eq_dec u t) as [->|N]; [rewrite goto_eq; exact Hr|rewrite goto_neq by exact N; reflexivity]. }
  constructor; cbn [pcs writer readers table dirty].
  - intros u Hu. rewrite Ew in Hu. destruct (L1 u Hu) as [A B]. split; [exact A|]. intros v Hv. rewrite Ew in Hv. exact (B v Hv).
  - intros W u. rewrite Ew. exact (L2 W u).
  - exact L3.
  - destruct L4 as (l & A & B & C). exists l. split; [exact A|]. split; [exact B|]. intros u. rewrite Er. apply C.
  - intros D. destruct (Hd D) as [P|[E P]]; [exists t; rewrite goto_eq; exact P|].
    rewrite E in D. destruct (L5 D) as [u U]. exists u. rewrite goto_neq; [exact U|]. intros ->. rewrite P in U. discriminate.
  - intros W. destruct (L6 W) as [u U]. exists u. rewrite Ew. exact U.
Qed.

Lemma locked_step s e s' : locked s -> step s e s' -> locked s'.
Proof.
  intros L H. destruct H as [s t k f P|s t k P|s t k f P Wf Rf|s t k f P|s t k f P|s t k f P|s t k P Wf|s t k r P R|s t k r P|s t c r P].
  - apply locked_plain; try (rewrite P; reflexivity); try reflexivity; try assumption. intros _. right. split; [reflexivity|rewrite P; reflexivity].
  - apply locked_plain; try (rewrite P; reflexivity); try reflexivity; try assumption. intros _. right. split; [reflexivity|rewrite P; reflexivity].
  - destruct L as [L1 L2 L3 L4 L5 L6]. constructor; cbn [pcs writer readers table dirty].
    + intros u Hu. split; [reflexivity|]. assert (O : forall v, holds_w (goto t (HoldW k f) s v) = true -> v = t).
      { intros v Hv. destruct (Nat.eq_dec v t) as [E|N]; [exact E|]. rewrite goto_neq in Hv by exact N. rewrite (L2 Wf v) in Hv. discriminate. }
      intros v Hv. rewrite (O v Hv), (O u Hu). reflexivity.
    + discriminate.
    + intros _. exact Rf.
    + destruct L4 as (l & A & B & C). exists l. split; [exact A|]. split; [exact B|]. intros u. rewrite C.
      destruct (Nat.eq_dec u t) as [->|N]; [rewrite goto_eq, P; reflexivity|rewrite goto_neq by exact N; reflexivity].
    + intros D. destruct (L5 D) as [u U]. exists u. rewrite goto_neq; [exact U|]. intros ->. rewrite P in U. discriminate.
    + intros _. exists t. rewrite goto_eq. reflexivity.
  - apply locked_plain; try (rewrite P; reflexivity); try reflexivity; try assumption. intros _. left. reflexivity.
  - apply locked_plain; try (rewrite P; reflexivity); try reflexivity; try assumption. discriminate.
  - destruct L as [L1 L2 L3 L4 L5 L6]. assert (Ht : holds_w (pcs s t) = true) by (rewrite P; reflexivity). destruct (L1 t Ht) as [Wt Ut].
    assert (O : forall v, holds_w (goto t (Done (Reg k f) None) s v) = false).
    { intros v. destruct (Nat.eq_dec v t) as [->|N]; [rewrite goto_eq; reflexivity|]. rewrite goto_neq by exact N.
      destruct (holds_w (pcs s v)) eqn:E; [|reflexivity]. destruct N. exact (Ut v E). }
    constructor; cbn [pcs writer readers table dirty].
    + intros u Hu. rewrite O in Hu. discriminate.
    + intros _. exact O.
    + discriminate.
    + destruct L4 as (l & A & B & C). exists l. split; [exact A|]. split; [exact B|]. intros u. rewrite C.
      destruct (Nat.eq_dec u t) as [->|N]; [rewrite goto_eq, P; reflexivity|rewrite goto_neq by exact N; reflexivity].
    + intros D. destruct (L5 D) as [u U]. exists u. rewrite goto_neq; [exact U|]. intros ->. rewrite P in U. discriminate.
    + discriminate.
  - destruct L as [L1 L2 L3 L4 L5 L6].
    assert (Ew : forall u, holds_w (goto t (HoldR k) s u) = holds_w (pcs s u)).
    { intros u. destruct (Nat.eq_dec u t) as [->|N]; [rewrite goto_eq, P; reflexivity|rewrite goto_neq by exact N; reflexivity]. }
    constructor; cbn [pcs writer readers table dirty].
    + intros u Hu. rewrite Ew, (L2 Wf u) in Hu. discriminate.
    + intros _ u. rewrite Ew. exact (L2 Wf u).
    + rewrite Wf. discriminate.
    + destruct L4 as (l & A & B & C). exists (t :: l). split; [|split; [cbn; rewrite B; reflexivity|]].
      * constructor; [|exact A]. intros I. apply C in I. rewrite P in I. discriminate.
      * intros u. cbn [In]. destruct (Nat.eq_dec u t) as [->|N]; [rewrite goto_eq; split; [reflexivity|left; reflexivity]|].
        rewrite goto_neq by exact N. rewrite <- C. split; [intros [E|I]; [congruence|exact I]|right; assumption].
    + intros D. destruct (L5 D) as [u U]. exists u. rewrite goto_neq; [exact U|]. intros ->. rewrite P in U. discriminate.
    + rewrite Wf. discriminate.
  - apply locked_plain; try (rewrite P; reflexivity); try reflexivity; try assumption. intros _. right. split; [reflexivity|rewrite P; reflexivity].
  - destruct L as [L1 L2 L3 L4 L5 L6].
    assert (Ew : forall u, holds_w (goto t (Done (Qry k) r) s u) = holds_w (pcs s u)).
    { intros u. destruct (Nat.eq_dec u t) as [->|N]; [rewrite goto_eq, P; reflexivity|rewrite goto_neq by exact N; reflexivity]. }
    constructor; cbn [pcs writer readers table dirty].
    + intros u Hu. rewrite Ew in Hu. destruct (L1 u Hu) as [A B]. split; [exact A|]. intros v Hv. rewrite Ew in Hv. exact (B v Hv).
    + intros W u. rewrite Ew. exact (L2 W u).
    + intros W. rewrite (L3 W). reflexivity.
    + destruct L4 as (l & A & B & C). assert (I : In t l) by (apply C; rewrite P; reflexivity).
      apply in_split in I. destruct I as (l1 & l2 & ->). exists (l1 ++ l2).
      split; [exact (NoDup_remove_1 _ _ _ A)|]. split.
      * rewrite <- B, !app_length. cbn [List.length]. rewrite Nat.add_succ_r. reflexivity.
      * intros u. destruct (Nat.eq_dec u t) as [->|N].
        -- rewrite goto_eq. split; [intros I; destruct (NoDup_remove_2 _ _ _ A I)|discriminate].
        -- rewrite goto_neq by exact N. rewrite <- C, !in_app_iff. cbn [In]. split; [tauto|]. intros [I|[E|I]]; [tauto|congruence|tauto].
    + intros D. destruct (L5 D) as [u U]. exists u. rewrite goto_neq; [exact U|]. intros ->. rewrite P in U. discriminate.
    + intros W. destruct (L6 W) as [u U]. exists u. rewrite Ew. exact U.
  - apply locked_plain; try (rewrite P; reflexivity); try reflexivity; try assumption. intros _. right. split; [reflexivity|rewrite P; reflexivity].
Qed.
Lemma run_locked tr s : run (fac := fac) tr s -> locked s.
Proof. induction 1 as [|tr s e s' _ IH H]; [exact locked_initial|exact (locked_step s e s' IH H)]. Qed.

(** The history. *)
Record agrees (tr : list event) (s : state fac) : Prop := mkAgrees {
  ag_table : forall k, table s k = last_store None k tr;
  ag_pc : forall t, where_is tr t (pcs s t);
  ag_fetch : forall a t k r b, tr = a ++ Fetch t k r :: b -> r = last_store None k a;
  ag_ret : forall a t c r b, tr = a ++ Ret t c r :: b -> effected a t c r;
  ag_store : forall a t k f b, tr = a ++ Store t k f :: b -> started a t (Reg k f)
}.

Lemma snoc_split {A} (tr : list A) e a x b : tr ++ [e] = a ++ x :: b ->
  (exists b', b = b' ++ [e] /\ tr = a ++ x :: b') \/ (b = [] /\ x = e /\ tr = a).
Proof.
  intros E. destruct b as [|y b] using rev_ind.
  - apply app_inj_tail in E. destruct E as [-> ->]. right. repeat split; reflexivity.
  - clear IHb. left. exists b. rewrite app_comm_cons, app_assoc in E. apply app_inj_tail in E. destruct E as [-> ->]. split; reflexivity.
Qed.
Lemma started_snoc tr t c e : ~ call_or_return t e -> started tr t c -> started (tr ++ [e]) t c.
Proof.
  intros N (a & b & -> & Q). exists a, (b ++ [e]). split; [rewrite <- app_assoc; reflexivity|]. apply Forall_app. split; [exact Q|].
  constructor; [exact N|constructor].
Qed.
Lemma effected_snoc tr t c r e : ~ call_or_return t e -> effected tr t c r -> effected (tr ++ [e]) t c r.
Proof.
  intros N (a & b & d & -> & Q). exists a, b, (d ++ [e]). split; [rewrite <- !app_assoc; cbn [app]; rewrite <- app_assoc; reflexivity|].
  rewrite app_comm_cons, app_assoc. apply Forall_app. split; [exact Q|]. constructor; [exact N|constructor].
Qed.
Lemma where_snoc tr t p e : ~ call_or_return t e -> where_is tr t p -> where_is (tr ++ [e]) t p.
Proof. intros N. destruct p; cbn; auto using started_snoc, effected_snoc. Qed.
Lemma effected_now tr t c r : started tr t c -> effected (tr ++ [effect t c r]) t c r.
Proof.
  intros (a & b & -> & Q). exists a, b, []. split; [rewrite <- app_assoc; reflexivity|]. apply Forall_app. split; [exact Q|].
  constructor; [destruct c; cbn; tauto|constructor].
Qed.

Lemma agrees_step tr s e s' : locked s -> agrees tr s -> step s e s' -> agrees (tr ++ [e]) s'.
Proof.
  intros L [A1 A2 A3 A4 A5] H. constructor.
  - intros k. rewrite last_store_app, <- A1. destruct H; cbn [table last_store]; reflexivity.
  - intros u. destruct H as [s t k f P|s t k P|s t k f P Wf Rf|s t k f P|s t k f P|s t k f P|s t k P Wf|s t k r P R|s t k r P|s t c r P]; cbn [pcs];
    (destruct (Nat.eq_dec u t) as [->|N];
      [rewrite goto_eq; specialize (A2 t); rewrite P in A2; cbn [where_is] in *|
       rewrite goto_neq by exact N; apply where_snoc; [cbn; congruence|apply A2]]).
    + exists tr, []. split; [reflexivity|constructor].
    + exists tr, []. split; [reflexivity|constructor].
    + apply started_snoc; [cbn; tauto|exact A2].
    + apply started_snoc; [cbn; tauto|exact A2].
    + apply (effected_now tr t (Reg k f) None). exact A2.
    + apply effected_snoc; [cbn; tauto|exact A2].
    + apply started_snoc; [cbn; tauto|exact A2].
    + apply (effected_now tr t (Qry k) r). exact A2.
    + apply effected_snoc; [cbn; tauto|exact A2].
    + exact I.
  - intros a u k r b E. apply snoc_split in E. destruct E as [(b' & _ & E)|(_ & <- & <-)]; [exact (A3 _ _ _ _ _ E)|].
    inversion H as [| | | | | | |? ? ? ? P R| |]; subst. rewrite <- A1. destruct R as [D|R]; [|exact R].
    (* nobody is writing while a reader is inside *)
    exfalso. destruct (lk_dirty s L D) as [v V]. destruct (lk_readers s L) as (l & _ & Len & C).
    assert (W : writer s = true) by (apply (lk_writer s L v); destruct (pcs s v); try discriminate; reflexivity).
    rewrite (lk_excl s L W) in Len. destruct l; [|discriminate]. apply (C u). rewrite P. reflexivity.
  - intros a u c r b E. apply snoc_split in E. destruct E as [(b' & _ & E)|(_ & <- & <-)]; [exact (A4 _ _ _ _ _ E)|].
    inversion H as [| | | | | | | | |? ? ? ? P]; subst. specialize (A2 u). rewrite P in A2. exact A2.
  - intros a u k f b E. apply snoc_split in E. destruct E as [(b' & _ & E)|(_ & <- & <-)]; [exact (A5 _ _ _ _ _ E)|].
    inversion H as [| | | |? ? ? ? P| | | | |]; subst. specialize (A2 u). rewrite P in A2. exact A2.
Qed.
Lemma run_agrees tr s : run (fac := fac) tr s -> agrees tr s.
Proof.
  induction 1 as [|tr s e s' R IH H].
  - constructor; cbn; try reflexivity; try (intros; match goal with E : [] = ?a ++ _ |- _ => destruct a; discriminate end).
  - exact (agrees_step tr s e s' (run_locked tr s R) IH H).
Qed.

(** From splits to times. *)
Lemma nth_split_at {A} (tr : list A) i x : nth_error tr i = Some x -> exists a b, tr = a ++ x :: b /\ List.length a = i.
Proof. intros H. apply nth_error_split in H. destruct H as (a & b & -> & L). exists a, b. split; [reflexivity|exact L]. Qed.
Lemma nth_mid {A} (a : list A) x b : nth_error (a ++ x :: b) (List.length a) = Some x.
Proof. rewrite nth_error_app2 by lia. rewrite Nat.sub_diag. reflexivity. Qed.

(** The effect of a completed call lies between its call and its return. *)
Lemma effect_between tr s t c r i j : run tr s -> completed tr t c r i j ->
  exists n, (i < n < j)%nat /\ nth_error tr n = Some (effect t c r).
Proof.
  intros R (Lt & Hi & Hj & Q). destruct (nth_split_at _ _ _ Hj) as (a & b & E & La).
  destruct (ag_ret _ _ (run_agrees tr s R) _ _ _ _ _ E) as (a1 & b1 & d1 & Ea & Q1).
  exists (List.length (a1 ++ Inv t c :: b1)). assert (P : nth_error tr (List.length (a1 ++ Inv t c :: b1)) = Some (effect t c r)).
  { rewrite E, Ea. rewrite app_comm_cons, app_assoc. rewrite <- app_assoc. apply nth_mid. }
  assert (P0 : nth_error tr (List.length a1) = Some (Inv t c)).
  { rewrite E, Ea, <- app_assoc. apply nth_mid. }
  assert (Ln : (List.length (a1 ++ Inv t c :: b1) < j)%nat).
  { rewrite <- La, Ea, !app_length. cbn [List.length]. rewrite app_length. cbn [List.length]. lia. }
  split; [|exact P]. split; [|exact Ln]. rewrite app_length. cbn [List.length].
  (* the call found in the history is the one at i *)
  destruct (Nat.lt_total (List.length a1) i) as [K|[K|K]]; [|lia|].
  - (* i would lie in the quiet part *)
    exfalso. pose proof (proj1 (Forall_forall _ _) Q1) as Q1'. apply (Q1' (Inv t c)); [|reflexivity].
    assert (Hi' : nth_error a i = Some (Inv t c)).
    { rewrite E in Hi. rewrite nth_error_app1 in Hi by lia. exact Hi. }
    rewrite Ea in Hi'. change (a1 ++ Inv t c :: b1 ++ effect t c r :: d1) with (a1 ++ [Inv t c] ++ (b1 ++ effect t c r :: d1)) in Hi'.
    rewrite app_assoc in Hi'. rewrite nth_error_app2 in Hi' by (rewrite app_length; cbn; lia). exact (nth_error_In _ _ Hi').
  - exfalso. refine (Q (List.length a1) (Inv t c) _ P0 eq_refl). split; [exact K|].
    rewrite <- La, Ea, !app_length. cbn [List.length]. lia.
Qed.

Lemma fetch_value tr s t k r n : run tr s -> nth_error tr n = Some (Fetch t k r) -> r = last_store None k (firstn n tr).
Proof.
  intros R H. destruct (nth_split_at _ _ _ H) as (a & b & E & La). rewrite (ag_fetch _ _ (run_agrees tr s R) _ _ _ _ _ E).
  subst n. rewrite E, firstn_app, Nat.sub_diag, firstn_all. cbn [firstn]. rewrite app_nil_r. reflexivity.
Qed.

Theorem linearizable (tr : list event) s t k r i j : run tr s -> completed tr t (Qry k) r i j ->
  match r with
  | Some f => exists t' i', nth_error tr i' = Some (Inv t' (Reg k f)) /\ (i' < j)%nat /\
      forall r' j', completed tr t' (Reg k f) r' i' j' -> ~ registered_between tr k j' i
  | None => forall t2 g r2 i2 j2, completed tr t2 (Reg k g) r2 i2 j2 -> ~ (j2 < i)%nat
  end.
Proof.
  intros R C. destruct (effect_between tr s t _ r i j R C) as (n & Hn & En). cbn [effect] in En.
  pose proof (fetch_value tr s t k r n R En) as V.
  assert (Dom : (n < List.length tr)%nat) by (apply nth_error_Some; rewrite En; discriminate).
  assert (F : forall m e, (m < n)%nat -> nth_error tr m = Some e -> nth_error (firstn n tr) m = Some e).
  { intros m e Hm He. rewrite <- (firstn_skipn n tr) in He. rewrite nth_error_app1 in He; [exact He|]. rewrite firstn_length. lia. }
  destruct r as [f|].
  - symmetry in V. apply last_store_some in V. destruct V as [(a & t' & b & E & Q)|[? _]]; [|discriminate].
    (* the registration that made this store *)
    assert (Es : tr = a ++ Store t' k f :: (b ++ skipn n tr)).
    { rewrite <- (firstn_skipn n tr) at 1. rewrite E, <- app_assoc. reflexivity. }
    pose proof (ag_store _ _ (run_agrees tr s R) _ _ _ _ _ Es) as (a1 & b1 & Ea & Q1).
    assert (La : (List.length a < n)%nat).
    { pose proof (f_equal (@List.length _) E) as LE. rewrite firstn_length, app_length in LE. cbn [List.length] in LE. lia. }
    exists t', (List.length a1). split; [|split].
    + rewrite Es, Ea, <- app_assoc. apply nth_mid.
    + assert (List.length a1 <= List.length a)%nat by (rewrite Ea, app_length; lia). lia.
    + intros r' j' C' (t2 & g & r2 & i2 & j2 & C2 & H1 & H2).
      (* its store is at |a|, before j' *)
      assert (Lj : (List.length a < j')%nat).
      { destruct (Nat.lt_ge_cases (List.length a) j') as [K|K]; [exact K|exfalso].
        destruct C' as (Lt' & Hi' & Hj' & _). destruct (Nat.eq_dec (List.length a) j') as [<-|NE].
        - rewrite Es, nth_mid in Hj'. discriminate.
        - assert (Hj2 : nth_error a j' = Some (Ret t' (Reg k f) r')).
          { rewrite Es in Hj'. rewrite nth_error_app1 in Hj' by lia. exact Hj'. }
          rewrite Ea in Hj2. change (a1 ++ Inv t' (Reg k f) :: b1) with (a1 ++ [Inv t' (Reg k f)] ++ b1) in Hj2.
          rewrite app_assoc in Hj2. rewrite nth_error_app2 in Hj2 by (rewrite app_length; cbn; lia).
          apply nth_error_In in Hj2. apply (proj1 (Forall_forall _ _) Q1 _ Hj2). reflexivity. }
      destruct (effect_between tr s t2 _ r2 i2 j2 R C2) as (n2 & Hn2 & En2). cbn [effect] in En2.
      assert (In (Store t2 k g) b).
      { assert (Z : nth_error (firstn n tr) n2 = Some (Store t2 k g)) by (apply F; [lia|exact En2]).
        rewrite E in Z. change (a ++ Store t' k f :: b) with (a ++ [Store t' k f] ++ b) in Z. rewrite app_assoc in Z.
        rewrite nth_error_app2 in Z by (rewrite app_length; cbn; lia). exact (nth_error_In _ _ Z). }
      apply (proj1 (Forall_forall _ _) Q _ H). reflexivity.
  - intros t2 g r2 i2 j2 C2 L2. destruct (effect_between tr s t2 _ r2 i2 j2 R C2) as (n2 & Hn2 & En2). cbn [effect] in En2.
    assert (Z : nth_error (firstn n tr) n2 = Some (Store t2 k g)) by (apply F; [lia|exact En2]).
    apply nth_error_In in Z. revert V Z. generalize (firstn n tr). intros l.
    assert (G : forall m, m <> None \/ In (Store t2 k g) l -> None <> last_store m k l).
    { induction l as [|e l IH]; intros m [M|M].
      - cbn. congruence.
      - destruct M.
      - destruct e; cbn [last_store]; try (apply IH; left; exact M). apply IH. left. destruct (String.eqb k k0); [discriminate|exact M].
      - destruct M as [->|M]; [cbn [last_store]; rewrite String.eqb_refl; apply IH; left; discriminate|].
        destruct e; cbn [last_store]; apply IH; right; exact M. }
    intros V Z. apply (G None (or_intror Z) V).
Qed.

Theorem race_free tr (s : state fac) t u : run tr s -> t <> u -> writing s t -> ~ (writing s u \/ reading s u).
Proof.
  intros R N (k & f & P) H. pose proof (run_locked tr s R) as L.
  destruct (lk_writer s L t) as [W U]; [rewrite P; reflexivity|]. destruct H as [(k2 & f2 & P2)|(k2 & P2)].
  - apply N. symmetry. apply U. rewrite P2. reflexivity.
  - destruct (lk_readers s L) as (l & _ & Len & C). rewrite (lk_excl s L W) in Len. destruct l; [|discriminate].
    apply (C u). rewrite P2. reflexivity.
Qed.

(** Somebody can always go on: no deadlock. *)
Theorem progress tr (s : state fac) : run tr s -> (exists t, pcs s t <> Idle) ->
  exists u e s', pcs s u <> Idle /\ event_thread e = u /\ step s e s'.
Proof.
  intros R [t T]. pose proof (run_locked tr s R) as L.
  assert (G : forall u e s', pcs s u <> Idle -> step s e s' -> event_thread e = u ->
    exists u e s', pcs s u <> Idle /\ event_thread e = u /\ step s e s') by (intros u e s' A B C; exists u, e, s'; auto).
  destruct (writer s) eqn:W.
  - destruct (lk_held s L W) as [u U]. destruct (pcs s u) eqn:P; try discriminate.
    + eapply (G u); [congruence|eapply s_begin, P|reflexivity].
    + eapply (G u); [congruence|eapply s_end, P|reflexivity].
    + eapply (G u); [congruence|eapply s_unlock, P|reflexivity].
  - destruct (readers s) as [|n] eqn:Rd.
    + destruct (pcs s t) eqn:P; try (exfalso; apply T; reflexivity).
      * eapply (G t); [congruence|eapply s_lock; eassumption|reflexivity].
      * eapply (G t); [congruence|eapply s_begin, P|reflexivity].
      * eapply (G t); [congruence|eapply s_end, P|reflexivity].
      * eapply (G t); [congruence|eapply s_unlock, P|reflexivity].
      * eapply (G t); [congruence|eapply s_rlock; eassumption|reflexivity].
      * eapply (G t); [congruence|eapply s_read; [exact P|right; reflexivity]|reflexivity].
      * eapply (G t); [congruence|eapply s_runlock, P|reflexivity].
      * eapply (G t); [congruence|eapply s_ret, P|reflexivity].
    + destruct (lk_readers s L) as (l & _ & Len & C). rewrite Rd in Len. destruct l as [|u l]; [discriminate|].
      assert (U : holds_r (pcs s u) = true) by (apply C; left; reflexivity).
      destruct (pcs s u) eqn:P; try discriminate.
      * eapply (G u); [congruence|eapply s_read; [exact P|right; reflexivity]|reflexivity].
      * eapply (G u); [congruence|eapply s_runlock, P|reflexivity].
Qed.
End Proofs.
