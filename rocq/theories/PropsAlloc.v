(** C79: the memory that reading accessors asks for. *)
From Verif Require Import Base BaseFacts Types Binary SpecLayout Doc SpecDoc ModelerRead ModelerReadSpecProofs PropsModelerRead Memory SpecMemory MemoryReads PropsMemory
  SpecAlloc ModelerSparseProofs AllocProofs.

(** ** C79 *)
(** Whatever the document, the callers' buffers and the pools are, and however
    the goroutines are interleaved: at no time have the calls asked for more
    than their counts say. *)
Theorem C79_by_counts :
  forall cv doc ds ks st st', st_run st = map (call_prog cv doc ds) ks -> steps st st' ->
  heap_bytes (st_heap st') <= heap_bytes (st_heap st) + total call_room ks.
Proof.
  intros cv doc ds ks st st' E T. destruct (steps_room _ _ T (map call_room ks)) as (ns & F & L).
  { rewrite E. clear. induction ks as [|k ks IH]; constructor; [apply call_within|exact IH]. }
  assert (P : 0 <= total (fun n => n) ns). { clear L. induction F as [|m n ms ns W _ IH]; unfold total in *; cbn [fold_right]; [lia|]. apply within_pos in W. lia. }
  assert (S : total (fun n => n) (map call_room ks) = total call_room ks). { clear. unfold total. induction ks; cbn [map fold_right]; lia. }
  lia.
Qed.
Print Assumptions C79_by_counts.

(** Calls that succeed ask for no more than a multiple of the data that the
    document has, if the accessors have buffer views. *)
Theorem C79_proportional_partial :
  forall cv doc ds ks st st', conv_ranges cv -> ready doc ds ks st -> st_run st = map (call_prog cv doc ds) ks -> steps st st' ->
  strides_valid doc -> Forall (fun k => counts_valid (call_accessor k) /\ acr_BufferView (call_accessor k) <> None) ks ->
  Forall (fun m => exists s, m = Ret (Ok s)) (st_run st') ->
  heap_bytes (st_heap st') <= heap_bytes (st_heap st) + zlen ks * (3472 + 200 * doc_bytes doc).
Proof.
  intros cv doc ds ks st st' HC HR E T SV KV OKs. pose proof (C79_by_counts cv doc ds ks st st' E T) as B.
  assert (L : forall i k, nth_error ks i = Some k -> call_room k <= 3472 + 200 * doc_bytes doc).
  { intros i k Ek.
    assert (Li : exists m, nth_error (st_run st') i = Some m).
    { destruct (nth_error (st_run st') i) as [m|] eqn:Em; [eauto|]. exfalso. apply nth_error_None in Em.
      assert (LE : List.length (st_run st') = List.length (st_run st)). { clear -T. induction T as [s|s s1 s2 S _ IH]; [reflexivity|]. rewrite IH. destruct S. cbn [st_run]. rewrite !app_length. reflexivity. }
      rewrite LE, E, map_length in Em. apply nth_error_None in Em. congruence. }
    destruct Li as [m Em]. rewrite Forall_forall in OKs. destruct (OKs m (nth_error_In _ _ Em)) as [s ->].
    pose proof (C73_results _ _ _ _ _ _ HC HR E T i k _ Ek Em) as (pool & p & _ & _ & F).
    destruct (proj1 (Forall_forall _ _) KV k (nth_error_In _ _ Ek)) as [CV BV].
    assert (A : exists b p sl, ReadAccessor doc (call_accessor k) b p = Ok sl).
    { assert (G : forall V (rd : Document -> Accessor -> list V -> bytes -> pools -> res (list V)) acr vs, (forall r, rd doc acr vs pool p = Ok r -> exists sl, ReadAccessor doc acr pool p = Ok sl) ->
        forall f, agrees (st_heap st') (rd doc acr vs pool p) f (Ok s) -> exists b p sl, ReadAccessor doc acr b p = Ok sl).
      { intros V rd acr vs H f A. unfold agrees in A. destruct (rd doc acr vs pool p) as [r| |]; [|discriminate..]. destruct (H r eq_refl) as [sl Sl]. exists pool, p, sl. exact Sl. }
      assert (RT : forall V (z : V) check cvt cps acr vs r, read_typed z check cvt cps doc acr vs pool p = Ok r -> exists sl, ReadAccessor doc acr pool p = Ok sl).
      { intros V z check cvt cps acr vs r. unfold read_typed. destruct (check _ _); cbn [bind]; [|discriminate..]. destruct (ReadAccessor doc acr pool p) as [sl| |]; cbn [bind]; [|discriminate..]. eauto. }
      destruct k as [acr s0 b|acr s0 vs|rd acr s0 vs]; cbn [call_accessor] in *.
      - unfold agrees in F. destruct (ReadAccessor doc acr b p) as [sl| |] eqn:R; [|discriminate..]. eauto.
      - eapply G; [|exact F]. intros r. unfold ReadIndices. destruct (check_indices _ _); cbn [bind]; [|discriminate..]. destruct (ReadAccessor doc acr pool p) as [sl| |]; cbn [bind]; [|discriminate..]. eauto.
      - destruct rd; cbn [typed_value] in F; (eapply G; [|exact F]; intros r H; unfold ReadNormal, ReadTangent, ReadTextureCoord, ReadWeights, ReadJoints, ReadPosition, ReadColor, ReadColor64, ReadInverseBindMatrices in H; exact (RT _ _ _ _ _ _ _ _ H)). }
    destruct A as (b & p' & sl & A). destruct (accessor_count doc _ b p' sl SV CV BV A) as [C R].
    destruct k as [acr s0 b0|acr s0 vs|rd acr s0 vs]; cbn [call_accessor call_room] in *; unfold elements in *; [lia|lia|].
    assert (W : (comp_count rd * comp_width rd <= 64)%nat) by (destruct rd; cbn; lia). nia. }
  assert (S : total call_room ks <= zlen ks * (3472 + 200 * doc_bytes doc)).
  { clear -L. assert (H : Forall (fun k => call_room k <= 3472 + 200 * doc_bytes doc) ks) by (apply Forall_forall; intros k I; apply In_nth_error in I; destruct I as [i I]; exact (L i k I)).
    set (z := 3472 + 200 * doc_bytes doc) in *. clearbody z. clear L. induction H as [|k ks H _ IH]; [unfold total; cbn; lia|]. unfold total in *. cbn [fold_right]. rewrite zlen_cons. lia. }
  lia.
Qed.
Print Assumptions C79_proportional_partial.

(** Missing: a call may ask for any amount before it finds out that there is
    no data (and returns an error), and without a buffer view it succeeds. *)
Definition ask_acr (bv : option Z) (n : Z) : Accessor := rd_acr bv 0 CFloat AScalar n.
Lemma ask_run bv n : 0 <= n -> 4 * n <= 2 ^ 48 -> exists st' r,
  steps (mkState [] no_pools [call_prog id_conv zero_Document [] (CallAccessor (ask_acr bv n) ms_nil [])]) st' /\
  st_run st' = [Ret r] /\ r = (match bv with None => Ok (mkMs 0 0 (Z.to_nat n * 4) (Z.to_nat n * 4)) | Some i => if i <? 0 then Panic else Err (ErrMsg "bufferview index overflows") end) /\
  heap_bytes (st_heap st') = 4 * n.
Proof.
  intros N M. cbn [call_prog]. unfold ReadAccessor_m. 
  change (acr_ComponentType (ask_acr bv n)) with CFloat. change (acr_Type (ask_acr bv n)) with AScalar. change (acr_BufferView (ask_acr bv n)) with bv.
  change (acr_ByteOffset (ask_acr bv n)) with 0. change (acr_Count (ask_acr bv n)) with n. change (acr_Sparse (ask_acr bv n)) with (@None Sparse). cbv zeta. unfold read_dense_m, MakeSliceBuffer_m, ms_nil.
  change (checkAccessorType CFloat AScalar) with (@Ok unit tt). cbn [ms_arr ms_off ms_cap ms_len]. unfold MakeSlice_m. change (checkAccessorType CFloat AScalar) with (@Ok unit tt). cbv iota beta.
  change (ByteSize CFloat * Components AScalar) with 4. replace ((n <? 0) || (max_alloc <? n * 4)) with false by (symmetry; unfold max_alloc; lia).
  change (esize CFloat AScalar) with 4%nat. unfold bindr. cbn [bindp].
  eexists _, _. split; [eapply steps_next; [apply (step_at _ _ [] _ [] _ _ _ (s_alloc _ _ _ _))|]; apply steps_refl|]. cbn [app List.length st_run st_heap]. split; [|split; [reflexivity|]].
  - destruct bv as [i|]; [|reflexivity]. unfold readBufferView_m. change (zlen (doc_BufferViews zero_Document)) with 0. destruct (0 <=? i) eqn:I; [replace (i <? 0) with false by lia; reflexivity|].
    replace (i <? 0) with true by lia. unfold index. rewrite I. reflexivity.
  - unfold heap_bytes, zeros, zlen. cbn [fold_right]. rewrite repeat_length. lia.
Qed.
Theorem C79_proportional_refuted :
  (forall n, 0 <= n <= 2 ^ 46 -> exists st st' e, doc_bytes zero_Document = 0 /\ ready zero_Document [] [CallAccessor (ask_acr (Some 0) n) ms_nil []] st /\
     st_run st = map (call_prog id_conv zero_Document []) [CallAccessor (ask_acr (Some 0) n) ms_nil []] /\ steps st st' /\ st_run st' = [Ret (Err e)] /\
     heap_bytes (st_heap st') = heap_bytes (st_heap st) + 4 * n) /\
  (forall n, 0 <= n <= 2 ^ 46 -> exists st st' s, doc_bytes zero_Document = 0 /\ ready zero_Document [] [CallAccessor (ask_acr None n) ms_nil []] st /\
     st_run st = map (call_prog id_conv zero_Document []) [CallAccessor (ask_acr None n) ms_nil []] /\ steps st st' /\ st_run st' = [Ret (Ok s)] /\
     heap_bytes (st_heap st') = heap_bytes (st_heap st) + 4 * n).
Proof.
  assert (RD : forall bv n, ready zero_Document [] [CallAccessor (ask_acr bv n) ms_nil []] (mkState [] no_pools [call_prog id_conv zero_Document [] (CallAccessor (ask_acr bv n) ms_nil [])])).
  { intros bv n. split.
    - constructor.
    - constructor; [|constructor]. split; [split; [cbn; lia|left; reflexivity]|]. split; [reflexivity|left; reflexivity].
    - intros [|i] [|j] k1 k2 D E1 E2; try lia; cbn in E1, E2; try (destruct i; discriminate); destruct j; discriminate.
    - intros a (k & [<-|[]] & Z & _). destruct (Z eq_refl).
    - intros p s [].
    - constructor.
    - intros a (p & s & [] & _). }
  split; intros n N.
  - destruct (ask_run (Some 0) n) as (st' & r & S & R & Er & H); [lia|lia|]. cbn in Er. subst r. eexists _, st', _. split; [reflexivity|]. split; [apply RD|]. split; [reflexivity|]. split; [exact S|]. split; [exact R|]. rewrite H. unfold heap_bytes. cbn. lia.
  - destruct (ask_run None n) as (st' & r & S & R & Er & H); [lia|lia|]. subst r. eexists _, st', _. split; [reflexivity|]. split; [apply RD|]. split; [reflexivity|]. split; [exact S|]. split; [exact R|]. rewrite H. unfold heap_bytes. cbn. lia.
Qed.
Print Assumptions C79_proportional_refuted.

(** The calls of C73_example_run: they meet the hypotheses. *)
Example C79_example_room : total call_room ex_calls = 6 + (3 + 12 + 6 + 2448) + (3 + 1024 + 12) /\ strides_valid ex18_doc /\
  Forall (fun k => counts_valid (call_accessor k) /\ acr_BufferView (call_accessor k) <> None) ex_calls /\ doc_bytes ex18_doc = 15.
Proof.
  split; [vm_compute; reflexivity|]. split; [|split; [|vm_compute; reflexivity]].
  - repeat (constructor; [vm_compute; split; discriminate|]). constructor.
  - repeat (constructor; [split; [vm_compute; auto|discriminate]|]). constructor.
Qed.
