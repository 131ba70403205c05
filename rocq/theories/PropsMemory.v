(** C73, C74: reads of one document by any number of goroutines at a time. *)
From Verif Require Import Base BaseFacts Types Binary SpecLayout Doc SpecDoc ModelerRead ModelerReadSpecProofs PropsModelerRead Memory SpecMemory MemoryProofs MemoryReads MemoryRead2 MemoryTyped MemoryAccessor MemoryCalls.

(** ** C73 *)
(** However the steps of the goroutines are mixed, and whatever the pools hand
    out: no races, no use of a pooled buffer after it is given back, no access
    outside of an array; the document and all other memory that is not a
    caller's buffer or in the pools stays as it is; a finished call has the
    result of the function on values, for some contents of the pooled buffers. *)
Theorem C73_no_races :
  forall cv doc ds ks st st', conv_ranges cv -> ready doc ds ks st -> st_run st = map (call_prog cv doc ds) ks -> steps st st' ->
  ~ race st' /\ ~ use_after_put st' /\ ~ stuck st'.
Proof.
  intros cv doc ds ks st st' HC HR E T. destruct (steps_ok _ _ _ _ T _ (start_world _ _ _ _ HR) (start_safe _ HC _ _ _ _ HR E)) as (os & W & S & _).
  split; [exact (after_no_race _ _ _ _ W S)|]. split; [exact (after_no_use _ _ _ _ W S)|exact (after_not_stuck _ _ _ _ W S)].
Qed.
Print Assumptions C73_no_races.

Theorem C73_memory_kept :
  forall cv doc ds ks st st', conv_ranges cv -> ready doc ds ks st -> st_run st = map (call_prog cv doc ds) ks -> steps st st' ->
  (forall a c, nth_error (st_heap st) a = Some c -> ~ call_array ks a -> ~ pooled st a -> nth_error (st_heap st') a = Some c) /\
  doc_loaded (st_heap st') doc ds.
Proof.
  intros cv doc ds ks st st' HC HR E T. destruct (steps_ok _ _ _ _ T _ (start_world _ _ _ _ HR) (start_safe _ HC _ _ _ _ HR E)) as (os & W & S & _).
  assert (K : forall a c, nth_error (st_heap st) a = Some c -> ~ call_array ks a -> ~ pooled st a -> nth_error (st_heap st') a = Some c).
  { intros a c Ea N1 N2. apply (w_shared _ _ _ _ W). rewrite rest_some; assumption. }
  split; [exact K|]. destruct HR as [R1 R2 R3 R4 R5 R6 R7]. unfold doc_loaded in *.
  assert (KD : forall s c, In s ds -> ms_len s <> 0%nat -> nth_error (st_heap st) (ms_arr s) = Some c -> nth_error (st_heap st') (ms_arr s) = Some c).
  { intros s c I L Ea. assert (DA : doc_array ds (ms_arr s)) by (exists s; auto). apply K; [exact Ea|intros C; exact (R4 _ C DA)|intros C; exact (proj1 (R7 _ C) DA)]. }
  clear -R1 KD. induction R1 as [|b s bs ss [H1 H2] _ IH]; constructor.
  - split; [exact H1|]. destruct b as [b|]; [|exact H2]. destruct H2 as [H2 H3]. split; [exact H2|]. destruct (Nat.eq_dec (ms_len s) 0) as [Z|Z]; [left; exact Z|]. destruct H3 as [H3|(c & H3 & H4)]; [congruence|].
    right. exists c. split; [|exact H4]. apply KD; [left; reflexivity|exact Z|exact H3].
  - apply IH. intros s' c I. apply KD. right. exact I.
Qed.
Print Assumptions C73_memory_kept.

Theorem C73_results :
  forall cv doc ds ks st st', conv_ranges cv -> ready doc ds ks st -> st_run st = map (call_prog cv doc ds) ks -> steps st st' ->
  forall i k r, nth_error ks i = Some k -> nth_error (st_run st') i = Some (Ret r) -> finished cv doc (st_heap st') k r.
Proof.
  intros cv doc ds ks st st' HC HR E T i k r Ek Er. destruct (steps_ok _ _ _ _ T _ (start_world _ _ _ _ HR) (start_safe _ HC _ _ _ _ HR E)) as (os & W & S & _).
  destruct (after_own _ _ _ _ S i _ Er) as (o & Q & Eo & EQ & H). rewrite nth_error_map, Ek in EQ. injection EQ as <-. cbn [wp] in H.
  eapply goal_finished; [|exact H]. intros a c. apply (w_own _ _ _ _ W o a c). eapply nth_error_In. exact Eo.
Qed.
Print Assumptions C73_results.

(** A result is the caller's own: no later step of any goroutine changes it, it
    is in no pool, not in the document and in no other result. *)
Theorem C73_results_stay :
  forall cv doc ds ks st st1 st2, conv_ranges cv -> ready doc ds ks st -> st_run st = map (call_prog cv doc ds) ks -> steps st st1 -> steps st1 st2 ->
  forall i s, nth_error (st_run st1) i = Some (Ret (Ok s)) ->
  nth_error (st_run st2) i = Some (Ret (Ok s)) /\
  (ms_cap s <> 0%nat ->
    nth_error (st_heap st2) (ms_arr s) = nth_error (st_heap st1) (ms_arr s) /\
    ~ pooled st2 (ms_arr s) /\ ~ doc_array ds (ms_arr s) /\
    forall j s', i <> j -> nth_error (st_run st2) j = Some (Ret (Ok s')) -> ms_cap s' <> 0%nat -> ms_arr s' <> ms_arr s).
Proof.
  intros cv doc ds ks st st1 st2 HC HR E T1 T2 i s Es. pose proof HR as [R1 R2 R3 R4 R5 R6 R7].
  destruct (steps_ok _ _ _ _ T1 _ (start_world _ _ _ _ HR) (start_safe _ HC _ _ _ _ HR E)) as (os1 & W1 & S1 & _).
  destruct (steps_ok _ _ _ _ T2 _ W1 S1) as (os2 & W2 & S2 & K).
  assert (OW : forall os stx, world (rest ks st) (st_heap stx) (st_pool stx) os -> safe (rest ks st) os (map (goal cv doc ks st) ks) (st_run stx) -> forall j sj, nth_error (st_run stx) j = Some (Ret (Ok sj)) -> exists o v, nth_error os j = Some o /\ owns o sj v).
  { intros os stx Wx Sx j sj Ej. destruct (after_own _ _ _ _ Sx j _ Ej) as (o & Q & Eo & EQ & H). rewrite nth_error_map in EQ. destruct (nth_error ks j) as [k|]; [|discriminate]. injection EQ as <-. cbn [wp] in H. destruct (goal_owns _ _ _ _ _ _ _ H) as (v & O). exists o, v. auto. }
  destruct (OW _ _ W1 S1 i s Es) as (o & v & Eo & O). destruct (K i o (Ok s) Eo Es) as [Eo2 Es2]. split; [exact Es2|]. intros Z.
  destruct (owned_arr _ _ _ O Z) as (c & Ec).
  assert (I1 : In o os1) by (eapply nth_error_In; exact Eo). assert (I2 : In o os2) by (eapply nth_error_In; exact Eo2).
  split; [rewrite (w_own _ _ _ _ W1 o _ c I1 Ec); exact (w_own _ _ _ _ W2 o _ c I2 Ec)|]. split; [|split].
  - intros P. apply pooled_in in P. destruct P as (s' & I & E'). pose proof (w_pool_own _ _ _ _ W2 s' o I I2) as N. rewrite E' in N. congruence.
  - intros DA. assert (Na : rest ks st (ms_arr s) = None) by (destruct (w_apart_shared _ _ _ _ W2 o I2 (ms_arr s)) as [A|A]; [congruence|exact A]).
    destruct DA as (sd & Id & Ld & Ed). assert (DA : doc_array ds (ms_arr s)) by (exists sd; auto).
    rewrite rest_some in Na; [|intros C; exact (R4 _ C DA)|intros C; exact (proj1 (R7 _ C) DA)].
    assert (No2 : nth_error (st_heap st) (ms_arr s) = None) by exact Na.
    unfold doc_loaded in R1. clear -Id Ld Ed R1 No2. induction R1 as [|b s0 bs ss [_ H2] _ IH]; [destruct Id|]. destruct Id as [->|Id]; [|exact (IH Id)].
    destruct b as [b|]; [|congruence]. destruct H2 as [_ [H2|(c0 & H2 & _)]]; congruence.
  - intros j s' N Ej Z' Ea. destruct (OW _ _ W2 S2 j s' Ej) as (o' & v' & Eo' & O'). destruct (owned_arr _ _ _ O' Z') as (c' & Ec'). rewrite Ea in Ec'.
    destruct (w_apart _ _ _ _ W2 i j o o' N Eo2 Eo' (ms_arr s)); congruence.
Qed.
Print Assumptions C73_results_stay.


(** Every execution ends, and where it ends all calls have returned. *)
Theorem C73_ends :
  forall cv doc ds ks st, conv_ranges cv -> ready doc ds ks st -> st_run st = map (call_prog cv doc ds) ks ->
  Acc (fun s' s => step s s') st /\
  forall st', steps st st' -> (forall st'', ~ step st' st'') -> forall i k, nth_error ks i = Some k -> exists r, nth_error (st_run st') i = Some (Ret r) /\ finished cv doc (st_heap st') k r.
Proof.
  intros cv doc ds ks st HC HR E. split; [apply state_acc|]. intros st' T N i k Ek.
  destruct (steps_ok _ _ _ _ T _ (start_world _ _ _ _ HR) (start_safe _ HC _ _ _ _ HR E)) as (os & W & S & _).
  pose proof S as (_ & L & _). rewrite map_length in L. assert (Li : (i < List.length (st_run st'))%nat) by (rewrite <- L; apply nth_error_Some; congruence).
  destruct (nth_error (st_run st') i) as [m|] eqn:Em; [|apply nth_error_None in Em; lia].
  assert (R : exists r, m = Ret r).
  { destruct (after_own _ _ _ _ S i m Em) as (o & Q & Eo & _ & H). destruct (nth_error_split os i Eo) as (os1 & os2 & E' & _). pose proof W as W'. rewrite E' in W'.
    destruct (step1_progress _ _ _ os1 o os2 m Q W' H) as [R|(h' & ps' & m' & P)]; [exact R|]. exfalso. destruct (nth_error_split _ i Em) as (l1 & l2 & E2 & _).
    apply (N (mkState h' ps' (l1 ++ m' :: l2))). destruct st' as [h0 ps0 r0]. cbn [st_heap st_pool st_run] in *. subst r0. constructor. exact P. }
  destruct R as [r ->]. exists r. split; [reflexivity|]. exact (C73_results _ _ _ _ _ _ HC HR E T i k r Ek Em).
Qed.
Print Assumptions C73_ends.

(** ** C74 *)
(** What a call returns among others is what it returns alone with new pooled
    buffers; for accessors with a buffer view, as in C20. *)
Theorem C74_as_if_alone_partial :
  forall cv doc ds ks st st', conv_ranges cv -> ready doc ds ks st -> st_run st = map (call_prog cv doc ds) ks -> steps st st' ->
  forall i k r, nth_error ks i = Some k -> nth_error (st_run st') i = Some (Ret r) ->
  match k with
  | CallAccessor acr _ b => reusable doc acr ->
      agrees (st_heap st') (ReadAccessor doc acr [] fresh_pools) (fun sl => image_of (image (Z.to_nat (ByteSize (acr_ComponentType acr)))) (els sl)) r
  | CallIndices acr _ vs => reusable doc acr -> acr_Count acr <> 0 ->
      agrees (st_heap st') (ReadIndices doc acr [] fresh_buf fresh_pools) (image_of (le_bytes 4)) r
  | CallTyped rd acr _ vs => reusable doc acr -> acr_Count acr <> 0 ->
      agrees (st_heap st') (typed_value cv rd doc acr [] fresh_buf fresh_pools) (image_of (image (comp_width rd))) r
  end.
Proof.
  intros cv doc ds ks st st' HC HR E T i k r Ek Er. pose proof (C73_results _ _ _ _ _ _ HC HR E T i k r Ek Er) as (pool & p & _ & _ & F).
  destruct k as [acr s b|acr s vs|rd acr s vs].
  - intros R. rewrite (ReadAccessor_indep doc acr b [] p fresh_pools R) in F. exact F.
  - intros R N. replace (ReadIndices doc acr [] fresh_buf fresh_pools) with (ReadIndices doc acr vs pool p); [exact F|]. eapply typed_by_indep; eauto using ReadIndices_by.
  - intros R N. replace (typed_value cv rd doc acr [] fresh_buf fresh_pools) with (typed_value cv rd doc acr vs pool p); [exact F|].
    destruct rd; cbn [typed_value]; (eapply typed_by_indep; [|exact R|left; exact N]); eauto using ReadNormal_by, ReadTangent_by, ReadPosition_by,
      ReadInverseBindMatrices_by, ReadTextureCoord_by, ReadWeights_by, ReadJoints_by, ReadColor_by, ReadColor64_by.
Qed.
Print Assumptions C74_as_if_alone_partial.

(** ** Executions *)
(** One goroutine until it returns; Get takes the first pooled buffer. *)
Fixpoint exec {A} (m : prog A) (h : list bytes) (ps : pool -> list mslice) : option (list bytes * (pool -> list mslice) * A) :=
  match m with
  | Ret a => Some (h, ps, a)
  | Alloc n k => exec (k (List.length h)) (h ++ [zeros n]) ps
  | Load a off n k =>
      match nth_error h a with Some c => if (off + n <=? List.length c)%nat then exec (k (sub c off n)) h ps else None | None => None end
  | Store a off d k =>
      match nth_error h a with Some c => if (off + List.length d <=? List.length c)%nat then exec k (set_nth a (overwrite c off d) h) ps else None | None => None end
  | Get p k =>
      match ps p with
      | s :: l => exec (k s) h (set_pool ps p l)
      | [] => exec (k (pool_slice p (List.length h))) (h ++ [zeros (pool_bytes p)]) ps
      end
  | Put p s k => exec k h (set_pool ps p (s :: ps p))
  end.
Lemma exec_steps {A} (m : prog A) : forall h ps h' ps' a l1 l2 st', exec m h ps = Some (h', ps', a) ->
  steps (mkState h' ps' (l1 ++ Ret a :: l2)) st' -> steps (mkState h ps (l1 ++ m :: l2)) st'.
Proof.
  induction m as [x|n k IH|a0 off n k IH|a0 off d k IH|p k IH|p s k IH]; intros h ps h' ps' a l1 l2 st' E T; cbn [exec] in E.
  - injection E as -> -> ->. exact T.
  - eapply steps_next; [constructor; apply s_alloc|]. eapply IH; eassumption.
  - destruct (nth_error h a0) as [c|] eqn:Ec; [|discriminate]. destruct (_ <=? _)%nat eqn:El; [|discriminate]. apply Nat.leb_le in El. eapply steps_next; [constructor; eapply s_load; eassumption|]. eapply IH; eassumption.
  - destruct (nth_error h a0) as [c|] eqn:Ec; [|discriminate]. destruct (_ <=? _)%nat eqn:El; [|discriminate]. apply Nat.leb_le in El. eapply steps_next; [constructor; eapply s_store; eassumption|]. eapply IH; eassumption.
  - destruct (ps p) as [|s l] eqn:Ep.
    + eapply steps_next; [constructor; apply s_new|]. eapply IH; eassumption.
    + eapply steps_next; [constructor; apply (s_get _ _ p k [] s l Ep)|]. eapply IH; eassumption.
  - eapply steps_next; [constructor; apply s_put|]. eapply IH; eassumption.
Qed.
Fixpoint exec_all {A} (done ms : list (prog A)) (h : list bytes) (ps : pool -> list mslice) : option (state A) :=
  match ms with
  | [] => Some (mkState h ps done)
  | m :: ms' => match exec m h ps with Some (h', ps', a) => exec_all (done ++ [Ret a]) ms' h' ps' | None => None end
  end.
Lemma exec_all_steps {A} (ms : list (prog A)) : forall done h ps st', exec_all done ms h ps = Some st' -> steps (mkState h ps (done ++ ms)) st'.
Proof.
  induction ms as [|m ms IH]; intros done h ps st' E; cbn [exec_all] in E.
  - injection E as <-. rewrite app_nil_r. apply steps_refl.
  - destruct (exec m h ps) as [[[h' ps'] a]|] eqn:Em; [|discriminate]. eapply exec_steps; [exact Em|]. specialize (IH _ _ _ _ E). rewrite <- app_assoc in IH. exact IH.
Qed.

Definition id_conv : conversions := mkConv (fun x => x) (fun x => x) (map (fun x => x mod 256)) (map (fun x => x mod 256)) (map (fun x => x mod 65536)) (map (fun x => x mod 65536)).
Definition no_pools (p : pool) : list mslice := [].
(** The document of C18 in array 0; a sparse read into a buffer of 8 bytes in
    array 1 and a read of indices without a buffer. *)
Definition ex_ds : list mslice := [mkMs 0 0 (Z.to_nat 15) (Z.to_nat 15)].
Definition ex_calls : list call :=
  [CallAccessor (ex18_acr (Some 0)) (mkMs 1 1 0 7) (zeros 7);
   CallIndices (rd_acr (Some 1) 0 CUbyte AScalar 3) ms_nil []].
Definition ex_state : state (res mslice) :=
  mkState [match doc_Buffers ex18_doc with Some b :: _ => buf_Data b | _ => [] end; zeros 8] no_pools (map (call_prog id_conv ex18_doc ex_ds) ex_calls).
Example C73_example_conv : conv_ranges id_conv.
Proof.
  unfold conv_ranges, id_conv. cbn [cv_DenormalizeUbyte cv_DenormalizeUshort cv_NormalizeRGB cv_NormalizeRGBA cv_NormalizeRGB64 cv_NormalizeRGBA64].
  split; [lia|]. split; [lia|]. split; [|split; [|split]]; intros e He; (eapply comps_map; [|exact He]); intros; apply Z.mod_pos_bound; lia.
Qed.
Example C73_example_ready : ready ex18_doc ex_ds ex_calls ex_state.
Proof.
  split.
  - constructor; [|constructor]. split; [cbn; lia|]. split; [reflexivity|]. right. eexists. split; [reflexivity|]. split; [vm_compute; lia|]. vm_compute. reflexivity.
  - constructor; [|constructor; [|constructor]].
    + split; [split; [cbn; lia|]; right; eexists; split; [reflexivity|]; vm_compute; lia|]. split; [reflexivity|]. right. eexists. split; [reflexivity|]. split; [vm_compute; lia|]. vm_compute. reflexivity.
    + split; [split; [cbn; lia|]; left; reflexivity|]. split; [split; [reflexivity|left; reflexivity]|constructor].
  - intros [|[|i]] [|[|j]] k1 k2 N E1 E2; try lia; cbn in E1, E2; try (destruct i; discriminate); try (destruct j; discriminate); injection E1 as <-; injection E2 as <-; cbn; lia.
  - intros a (k & [<-|[<-|[]]] & Z & E) (s & [<-|[]] & L & E'); cbn in *; lia.
  - intros p s [].
  - constructor.
  - intros a (p & s & [] & _).
Qed.
(** One execution: the second call takes the buffers which the first has put
    back. *)
Example C73_example_run :
  exists st' s1 s2, steps ex_state st' /\ st_run st' = [Ret (Ok s1); Ret (Ok s2)] /\
    holds (st_heap st') s1 (map z2b [21; 0; 11; 0; 22; 0]) /\ ms_arr s1 = 1%nat /\
    holds (st_heap st') s2 (map z2b [2; 0; 0; 0; 0; 0; 0; 0; 2; 0; 0; 0]) /\ List.length (st_pool st' BufPool) = 1%nat.
Proof.
  eexists. exists (mkMs 1 1 6 6), (mkMs 4 0 12 12). split; [apply (exec_all_steps (map (call_prog id_conv ex18_doc ex_ds) ex_calls) []); vm_compute; reflexivity|]. split; [reflexivity|].
  split; [split; [reflexivity|]; right; eexists; split; [reflexivity|]; split; [cbn; lia|reflexivity]|]. split; [reflexivity|].
  split; [split; [reflexivity|]; right; eexists; split; [reflexivity|]; split; [cbn; lia|reflexivity]|]. reflexivity.
Qed.

(** ** C74 *)
(** Missing: of two goroutines, one reads the positions of a mesh and the other
    an accessor without buffer view, which is all zeros by the specification of
    glTF; it gets the other's positions when it takes the same pooled buffer. *)
Definition ex_doc74 : Document := rd_doc [0; 1; 2; 3; 4; 5; 6; 7; 8; 9; 10; 11] [(0, 12, 0)].
Definition ex_ds74 : list mslice := [mkMs 0 0 (Z.to_nat 12) (Z.to_nat 12)].
Definition ex_calls74 : list call :=
  [CallTyped RPosition (rd_acr (Some 0) 0 CFloat AVec3 1) ms_nil []; CallTyped RPosition (rd_acr None 0 CFloat AVec3 1) ms_nil []].
Definition ex_state74 (ks : list call) : state (res mslice) :=
  mkState [map z2b [0; 1; 2; 3; 4; 5; 6; 7; 8; 9; 10; 11]] no_pools (map (call_prog id_conv ex_doc74 ex_ds74) ks).
Lemma ex_ready74 ks : Forall (fun k => exists a, k = CallTyped RPosition a ms_nil []) ks -> ready ex_doc74 ex_ds74 ks (ex_state74 ks).
Proof.
  intros HK. assert (NC : forall k, In k ks -> ms_cap (call_buffer k) = 0%nat) by (intros k I; rewrite Forall_forall in HK; destruct (HK _ I) as [a ->]; reflexivity). split.
  - constructor; [|constructor]. split; [cbn; lia|]. split; [reflexivity|]. right. eexists. split; [reflexivity|]. split; [vm_compute; lia|]. vm_compute. reflexivity.
  - eapply Forall_impl; [|exact HK]. intros k [a ->]. split; [split; [cbn; lia|]; left; reflexivity|]. split; [split; [reflexivity|left; reflexivity]|constructor].
  - intros i j k1 k2 _ E1 _ N _. destruct (N (NC _ (nth_error_In _ _ E1))).
  - intros a (k & I & N & _) _. exact (N (NC _ I)).
  - intros p s [].
  - constructor.
  - intros a (p & s & [] & _).
Qed.
Theorem C74_as_if_alone_refuted :
  exists cv doc ds ks k, conv_ranges cv /\ In k ks /\
    (* alone *)
    (exists st st' s, ready doc ds [k] st /\ st_run st = map (call_prog cv doc ds) [k] /\ steps st st' /\
       st_run st' = [Ret (Ok s)] /\ holds (st_heap st') s (zeros 12)) /\
    (* beside others *)
    (exists st st' i s, ready doc ds ks st /\ st_run st = map (call_prog cv doc ds) ks /\ steps st st' /\
       nth_error ks i = Some k /\ nth_error (st_run st') i = Some (Ret (Ok s)) /\ holds (st_heap st') s (map z2b [0; 1; 2; 3; 4; 5; 6; 7; 8; 9; 10; 11])).
Proof.
  exists id_conv, ex_doc74, ex_ds74, ex_calls74, (CallTyped RPosition (rd_acr None 0 CFloat AVec3 1) ms_nil []).
  split; [exact C73_example_conv|]. split; [right; left; reflexivity|]. split.
  - eexists (ex_state74 [_]), _, _. split; [apply ex_ready74; repeat constructor; eexists; reflexivity|]. split; [reflexivity|].
    split; [apply (exec_all_steps (map (call_prog id_conv ex_doc74 ex_ds74) [CallTyped RPosition (rd_acr None 0 CFloat AVec3 1) ms_nil []]) []); vm_compute; reflexivity|].
    split; [reflexivity|]. split; [reflexivity|]. right. eexists. split; [reflexivity|]. split; [cbn; lia|reflexivity].
  - eexists (ex_state74 ex_calls74), _, 1%nat, _. split; [apply ex_ready74; repeat constructor; eexists; reflexivity|]. split; [reflexivity|].
    split; [apply (exec_all_steps (map (call_prog id_conv ex_doc74 ex_ds74) ex_calls74) []); vm_compute; reflexivity|].
    split; [reflexivity|]. split; [reflexivity|]. split; [reflexivity|]. right. eexists. split; [reflexivity|]. split; [cbn; lia|reflexivity].
Qed.
Print Assumptions C74_as_if_alone_refuted.
