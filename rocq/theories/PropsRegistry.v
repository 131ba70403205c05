(** C45: the extension registry under concurrency. *)
From Verif Require Import Base Registry SpecRegistry RegistryProofs.

(** In every execution, a completed lookup that finds a factory found one whose
    registration had started, and that no registration of the same key had
    replaced for good before the lookup began; a lookup that finds nothing had
    no completed registration before it. *)
Theorem C45_last_write_wins : forall (fac : Type) (tr : list (event fac)) s t k r i j,
  run tr s -> completed tr t (Qry k) r i j ->
  match r with
  | Some f => exists t' i', nth_error tr i' = Some (Inv t' (Reg k f)) /\ (i' < j)%nat /\
      forall r' j', completed tr t' (Reg k f) r' i' j' -> ~ registered_between tr k j' i
  | None => forall t2 g r2 i2 j2, completed tr t2 (Reg k g) r2 i2 j2 -> ~ (j2 < i)%nat
  end.
Proof. intros fac. exact linearizable. Qed.
Print Assumptions C45_last_write_wins.

(** The map is never read or written while somebody writes it. *)
Theorem C45_race_free : forall (fac : Type) (tr : list (event fac)) s t u,
  run tr s -> t <> u -> writing s t -> ~ (writing s u \/ reading s u).
Proof. intros fac. exact race_free. Qed.
Print Assumptions C45_race_free.

(** As long as a call is pending, some pending call can go on. *)
Theorem C45_no_deadlock : forall (fac : Type) (tr : list (event fac)) s,
  run tr s -> (exists t, pcs s t <> Idle) -> exists u e s', pcs s u <> Idle /\ event_thread e = u /\ step s e s'.
Proof. intros fac. exact progress. Qed.
Print Assumptions C45_no_deadlock.

(** Goroutine 0 registers 1 under "k" while goroutine 1 looks it up: both end,
    and the lookup sees it because its RLock came second. *)
Ltac slim R := unfold initial, goto, assign in R; cbn [pcs writer readers table dirty pred] in R.
Example C45_case : exists tr (s : state nat), run tr s /\
  completed tr 0 (Reg "k"%string 1%nat) None 0 6 /\ completed tr 1 (Qry "k"%string) (Some 1%nat) 3 10.
Proof.
  pose proof (run_nil (fac := nat)) as R.
  eapply run_step in R; [|eapply (s_invR _ 0 "k" 1%nat); reflexivity]. slim R.
  eapply run_step in R; [|eapply (s_lock _ 0 "k" 1%nat); reflexivity]. slim R.
  eapply run_step in R; [|eapply (s_begin _ 0 "k" 1%nat); reflexivity]. slim R.
  eapply run_step in R; [|eapply (s_invQ _ 1 "k"); reflexivity]. slim R.
  eapply run_step in R; [|eapply (s_end _ 0 "k" 1%nat); reflexivity]. slim R.
  eapply run_step in R; [|eapply (s_unlock _ 0 "k" 1%nat); reflexivity]. slim R.
  eapply run_step in R; [|eapply (s_ret _ 0 (Reg "k"%string 1%nat) None); reflexivity]. slim R.
  eapply run_step in R; [|eapply (s_rlock _ 1 "k"); reflexivity]. slim R.
  eapply run_step in R; [|eapply (s_read _ 1 "k" (Some 1%nat)); first [reflexivity|right; reflexivity]]. slim R.
  eapply run_step in R; [|eapply (s_runlock _ 1 "k" (Some 1%nat)); reflexivity]. slim R.
  eapply run_step in R; [|eapply (s_ret _ 1 (Qry "k"%string) (Some 1%nat)); reflexivity]. slim R.
  do 2 eexists. split; [exact R|]. clear R. cbn [app]. split.
  - split; [lia|]. split; [reflexivity|]. split; [reflexivity|]. intros n e H E. do 6 (destruct n; [cbn in E; try lia; injection E as <-; cbn; lia|]). lia.
  - split; [lia|]. split; [reflexivity|]. split; [reflexivity|]. intros n e H E. do 10 (destruct n; [cbn in E; try lia; injection E as <-; cbn; lia|]). lia.
Qed.
