(** How much memory the programs of Memory.v ask for, and what that says about
    executions. *)
From Verif Require Import Base BaseFacts Types Binary SpecLayout Doc SpecDoc ModelerRead Memory SpecMemory MemoryReads SpecAlloc ModelerSparseProofs.

(** On every path the program asks for at most n bytes. *)
Fixpoint within {A} (m : prog A) (n : Z) : Prop :=
  match m with
  | Ret _ => 0 <= n
  | Alloc k f => forall a, within (f a) (n - Z.of_nat k)
  | Load _ _ _ f => forall d, within (f d) n
  | Store _ _ _ k => within k n
  | Get p f => forall s, within (f s) (n - Z.of_nat (pool_bytes p))
  | Put _ _ k => within k n
  end.
Lemma within_mono {A} (m : prog A) : forall n n', within m n -> n <= n' -> within m n'.
Proof.
  induction m as [x|k f IH|a off k f IH|a off d k IH|p f IH|p s k IH]; cbn [within]; intros n n' W L; try lia; try (intros; eapply IH; [apply W|lia]); eapply IH; eassumption.
Qed.
Lemma within_bindp {A B} (m : prog A) (f : A -> prog B) : forall n k, within m n -> (forall x, within (f x) k) -> within (bindp m f) (n + k).
Proof.
  induction m as [x|z g IH|a off z g IH|a off d m IH|p g IH|p s m IH]; cbn [within bindp]; intros n k W F.
  - eapply within_mono; [apply F|lia].
  - intros a. replace (n + k - Z.of_nat z) with (n - Z.of_nat z + k) by lia. apply IH; [apply W|exact F].
  - intros d. apply IH; [apply W|exact F].
  - apply IH; assumption.
  - intros s. replace (n + k - Z.of_nat (pool_bytes p)) with (n - Z.of_nat (pool_bytes p) + k) by lia. apply IH; [apply W|exact F].
  - apply IH; assumption.
Qed.
Lemma within_bindp0 {A B} (m : prog A) (f : A -> prog B) k : within m 0 -> (forall x, within (f x) k) -> within (bindp m f) k.
Proof. intros W F. change k with (0 + k). apply within_bindp; assumption. Qed.
Lemma within_bindr {A B} (m : prog (res A)) (f : A -> prog (res B)) n k :
  within m n -> (forall x, within (f x) k) -> 0 <= k -> within (bindr m f) (n + k).
Proof. intros W F K. unfold bindr. apply within_bindp; [exact W|]. intros [x| |]; [apply F|exact K|exact K]. Qed.
Lemma within_bindr0 {A B} (m : prog (res A)) (f : A -> prog (res B)) k :
  within m 0 -> (forall x, within (f x) k) -> 0 <= k -> within (bindr m f) k.
Proof. intros W F K. replace k with (0 + k) by lia. apply within_bindr; assumption. Qed.
Lemma within_pure {A} (r : res A) n : 0 <= n -> within (pure r) n.
Proof. intros H. exact H. Qed.
Lemma within_pool {A} p (body : mslice -> prog (res A)) n : (forall s, within (body s) n) -> within (with_pool p body) (n + Z.of_nat (pool_bytes p)).
Proof.
  intros W s. replace (n + Z.of_nat (pool_bytes p) - Z.of_nat (pool_bytes p)) with (n + 0) by lia. apply within_bindp; [apply W|]. intros x. cbn. lia.
Qed.
Lemma within_load s off n k : 0 <= k -> within (load_at s off n) k.
Proof. intros K. destruct n; cbn; [exact K|intros _; exact K]. Qed.
Lemma within_store {A} s off d (m : prog A) k : within m k -> within (store_at s off d m) k.
Proof. intros W. destruct d; exact W. Qed.

Lemma elements_nat c t n : elements n (mem_size c t) = Z.of_nat (Z.to_nat n * esize c t).
Proof. unfold elements. rewrite esize_nat. lia. Qed.
Lemma elements_pos n s : 0 <= elements n s.
Proof. unfold elements. nia. Qed.

Lemma MakeSlice_within c t n : within (MakeSlice_m c t n) (elements n (mem_size c t)).
Proof.
  pose proof (elements_pos n (mem_size c t)). unfold MakeSlice_m. destruct (checkAccessorType c t); try assumption. destruct (_ || _); [assumption|]. intros ?. rewrite elements_nat. cbn. lia.
Qed.
Lemma reslice_within c t v l r n : (0 < r -> l + r = n) -> within (reslice_m c t v l r) (elements n (mem_size c t)).
Proof.
  intros H. pose proof (elements_pos n (mem_size c t)) as P. unfold reslice_m. destruct (l <? 0) eqn:L; [exact P|]. destruct (0 <? r) eqn:R; [|exact P].
  destruct (max_alloc <? _); [exact P|]. intros a. apply Z.ltb_lt in R. apply Z.ltb_ge in L. specialize (H R).
  assert (E : elements n (mem_size c t) - Z.of_nat (Z.to_nat l * esize c t + Z.to_nat r * esize c t) = 0).
  { rewrite elements_nat. rewrite <- H. rewrite Z2Nat.inj_add by lia. lia. }
  rewrite E. apply within_bindp0; [apply within_load; lia|]. intros old. apply within_store. cbn. lia.
Qed.
Lemma castSlice_within c t n v : within (castSlice_m c t n v) (elements n (mem_size c t)).
Proof.
  pose proof (elements_pos n (mem_size c t)). unfold castSlice_m. destruct (_ =? 0); [assumption|]. cbv zeta.
  assert (R : forall l, within (reslice_m c t v (if n <? l then n else l) (if l <? n then n - l else 0)) (elements n (mem_size c t))).
  { intros l. apply reslice_within. destruct (l <? n) eqn:L; [|lia]. destruct (n <? l) eqn:L2; lia. }
  destruct c, t; cbn [ct_valid at_valid andb]; first [apply R|assumption].
Qed.
Lemma MakeSliceBuffer_within c t n v : within (MakeSliceBuffer_m c t n v) (elements n (mem_size c t)).
Proof.
  pose proof (elements_pos n (mem_size c t)). unfold MakeSliceBuffer_m. destruct (checkAccessorType c t); try assumption. cbn [ms_len]. destruct (ms_cap v); [apply MakeSlice_within|apply castSlice_within].
Qed.

Lemma mapM_within {A B} (f : A -> prog (res B)) l : (forall x, within (f x) 0) -> within (mapM_m f l) 0.
Proof.
  intros W. induction l as [|x l IH]; cbn [mapM_m]; [cbn; lia|]. apply within_bindr0; [apply W| |lia]. intros b. apply within_bindr0; [exact IH| |lia]. intros bs. cbn. lia.
Qed.
Lemma load_within w s off : within (load_m w s off) 0.
Proof. unfold load_m. destruct (_ && _); [|cbn; lia]. apply within_bindp0; [apply within_load; lia|]. intros b. cbn. lia. Qed.
Lemma get_elem_within c t s b : within (get_elem_m c t s b) 0.
Proof. unfold get_elem_m. destruct (_ && _); [|cbn; lia]. apply mapM_within. intros o. apply load_within. Qed.
Lemma read_loop_within c t s e d n : forall i, within (read_loop_m c t s e d i n) 0.
Proof.
  induction n as [|n IH]; intros i; cbn [read_loop_m]; [cbn; lia|]. apply within_bindr0; [apply get_elem_within| |lia]. intros v. apply within_store. apply IH.
Qed.
Lemma byte_loop_within s d n : forall i, within (byte_loop_m s d i n) 0.
Proof.
  induction n as [|n IH]; intros i; cbn [byte_loop_m]; [cbn; lia|]. apply within_bindp0; [apply within_load; lia|]. intros b.
  destruct (_ <? _)%nat; [|cbn; lia]. apply within_store. apply IH.
Qed.
Lemma copy_within d s : within (copy_m d s) 0.
Proof. unfold copy_m. apply within_bindp0; [apply within_load; lia|]. intros b. apply within_store. cbn. lia. Qed.
Lemma Read_within s st c t d : within (Read_m s st c t d) 0.
Proof.
  unfold Read_m. cbv zeta. destruct (Z.of_nat (ms_len s) <? _); [cbn; lia|].
  destruct c, t; try apply read_loop_within; [apply byte_loop_within|]. destruct (negb _); [apply copy_within|apply read_loop_within].
Qed.

Section Reads.
Context (doc : Document) (ds : list mslice).
Lemma read_dense_within c t bv off n buf : within (read_dense_m doc ds c t bv off n buf) (elements n (mem_size c t)).
Proof.
  pose proof (elements_pos n (mem_size c t)). unfold read_dense_m. replace (elements n (mem_size c t)) with (elements n (mem_size c t) + 0) by lia.
  apply within_bindr; [apply MakeSliceBuffer_within| |lia]. intros data. destruct bv as [i|]; [|cbn; lia].
  repeat (apply within_bindr0; [apply within_pure; lia| |lia]; intros ?). apply within_bindr0; [apply Read_within| |lia]. intros []. cbn. lia.
Qed.
Lemma makeBufferOf_within d n buf : within (makeBufferOf_m d n buf) (elements n d).
Proof.
  pose proof (elements_pos n d) as P. unfold makeBufferOf_m. cbv zeta. destruct (_ <? n).
  - destruct (_ <=? _)%nat; [apply within_store; exact P|]. intros a. replace (elements n d - Z.of_nat (Z.to_nat n * d)) with (0 + 0) by (unfold elements; lia).
    apply within_bindp; [apply within_load; lia|]. intros old. apply within_store. cbn. lia.
  - destruct (negb _); [|exact P]. destruct (n <? 0); exact P.
Qed.
Lemma fill_within {A} c t d (img : A -> bytes) f data buf n : forall i, within (fill_loop_m c t d img f data buf i n) 0.
Proof.
  induction n as [|n IH]; intros i; cbn [fill_loop_m]; [cbn; lia|]. apply within_bindp0; [apply within_load; lia|]. intros b.
  destruct (_ <? _)%nat; [|cbn; lia]. apply within_store. apply IH.
Qed.
Lemma typed_within {A} check d (img : A -> bytes) copies convert reader c t n buf room : 0 <= room -> (forall s, within (reader s) room) ->
  within (typed_m check d img copies convert reader c t n buf) (room + 1024 + elements n d).
Proof.
  intros P W. pose proof (elements_pos n d). unfold typed_m. destruct (check c t); [|cbn; lia|cbn; lia].
  replace (room + 1024 + elements n d) with (room + (elements n d + 0) + Z.of_nat (pool_bytes BufPool)) by (cbn [pool_bytes]; lia).
  apply within_pool. intros s. apply within_bindr; [apply W| |lia]. intros data. apply within_bindr; [apply makeBufferOf_within| |lia]. intros b.
  apply within_bindr0; [|intros []; cbn; lia|lia]. unfold convert_m. destruct (match copies _ with Some _ => _ | None => _ end); [apply copy_within|].
  destruct (convert (SK c t)); [apply fill_within|cbn; lia].
Qed.
Lemma sparse_within c t ix vs data n : forall i, within (sparse_loop_m c t ix vs data i n) 0.
Proof.
  induction n as [|n IH]; intros i; cbn [sparse_loop_m]; [cbn; lia|]. destruct (_ <? _)%nat; [|cbn; lia]. apply within_bindp0; [apply within_load; lia|].
  intros kb. destruct (_ <? _)%nat; [|cbn; lia]. apply within_bindp0; [apply within_load; lia|]. intros v. cbv zeta.
  destruct (_ <? _); [|cbn; lia]. apply within_store. apply IH.
Qed.
Lemma ReadAccessor_within acr buf : within (ReadAccessor_m doc ds acr buf) (accessor_room acr).
Proof.
  unfold ReadAccessor_m, accessor_room. cbv zeta. set (c := acr_ComponentType acr). set (t := acr_Type acr).
  assert (R : 0 <= match acr_Sparse acr with None => 0 | Some sp => elements (spa_Count sp) (mem_size (spi_ComponentType (spa_Indices sp)) AScalar) + elements (spa_Count sp) 4 + elements (spa_Count sp) (mem_size c t) + 400 + 2 * 1024 end).
  { destruct (acr_Sparse acr) as [sp|]; [|lia]. pose proof (elements_pos (spa_Count sp) (mem_size (spi_ComponentType (spa_Indices sp)) AScalar)).
    pose proof (elements_pos (spa_Count sp) 4). pose proof (elements_pos (spa_Count sp) (mem_size c t)). lia. }
  apply within_bindr; [apply read_dense_within| |exact R]. intros data. destruct (acr_Sparse acr) as [sp|]; [|cbn; lia].
  set (e1 := elements (spa_Count sp) (mem_size (spi_ComponentType (spa_Indices sp)) AScalar)). set (e2 := elements (spa_Count sp) 4). set (e3 := elements (spa_Count sp) (mem_size c t)).
  assert (0 <= e1 /\ 0 <= e2 /\ 0 <= e3) by (repeat split; apply elements_pos).
  replace (e1 + e2 + e3 + 400 + 2 * 1024) with ((e1 + 1024 + e2) + (e3 + 0 + Z.of_nat (pool_bytes BufPool)) + Z.of_nat (pool_bytes U32Pool)) by (cbn [pool_bytes]; lia).
  apply within_pool. intros ub. apply within_bindr; [|intros ix|cbn [pool_bytes]; lia].
  - apply typed_within; [lia|]. intros s. apply read_dense_within.
  - apply within_pool. intros vb. apply within_bindr; [apply read_dense_within| |lia]. intros vs. apply within_bindr0; [apply sparse_within| |lia]. intros []. cbn. lia.
Qed.
Lemma room_pos acr : 0 <= accessor_room acr.
Proof.
  unfold accessor_room. pose proof (elements_pos (acr_Count acr) (mem_size (acr_ComponentType acr) (acr_Type acr))). destruct (acr_Sparse acr) as [sp|]; [|lia].
  pose proof (elements_pos (spa_Count sp) (mem_size (spi_ComponentType (spa_Indices sp)) AScalar)).
  pose proof (elements_pos (spa_Count sp) 4). pose proof (elements_pos (spa_Count sp) (mem_size (acr_ComponentType acr) (acr_Type acr))). lia.
Qed.
Lemma call_within cv k : within (call_prog cv doc ds k) (call_room k).
Proof.
  destruct k as [acr s b|acr s vs|r acr s vs]; cbn [call_prog call_room].
  - apply ReadAccessor_within.
  - apply typed_within; [apply room_pos|]. intros. apply ReadAccessor_within.
  - destruct r; cbn [comp_count comp_width]; (apply typed_within; [apply room_pos|]; intros; apply ReadAccessor_within).
Qed.
End Reads.

(** ** Executions *)
Lemma heap_app h c : heap_bytes (h ++ [c]) = heap_bytes h + zlen c.
Proof. unfold heap_bytes. induction h as [|x h IH]; cbn [app fold_right]; lia. Qed.
Lemma heap_set h a c c' : nth_error h a = Some c -> zlen c' = zlen c -> heap_bytes (set_nth a c' h) = heap_bytes h.
Proof.
  revert a. induction h as [|x h IH]; intros [|a] E L; cbn in *; try discriminate.
  - injection E as ->. lia.
  - unfold heap_bytes in IH. rewrite (IH a E L). reflexivity.
Qed.
Lemma step1_room {A} h ps (m : prog A) h' ps' m' n : step1 (h, ps, m) (h', ps', m') -> within m n -> exists n', within m' n' /\ heap_bytes h' + n' <= heap_bytes h + n.
Proof.
  intros S W. inversion S; subst; cbn [within] in W.
  - exists (n - Z.of_nat n0). split; [apply W|]. rewrite heap_app. unfold zeros, zlen. rewrite repeat_length. lia.
  - exists n. split; [apply W|lia].
  - exists n. split; [exact W|]. rewrite (heap_set _ _ c); [lia|assumption|]. unfold zlen. rewrite overwrite_length by assumption. reflexivity.
  - exists (n - Z.of_nat (pool_bytes p)). split; [apply W|lia].
  - exists (n - Z.of_nat (pool_bytes p)). split; [apply W|]. rewrite heap_app. unfold zeros, zlen. rewrite repeat_length. lia.
  - exists n. split; [exact W|lia].
Qed.
Lemma within_pos {A} (m : prog A) : forall n, within m n -> 0 <= n.
Proof.
  induction m as [x|k f IH|a off k f IH|a off d k IH|p f IH|p s k IH]; cbn [within]; intros n W.
  - exact W.
  - pose proof (IH 0%nat _ (W 0%nat)). lia.
  - exact (IH [] _ (W [])).
  - exact (IH _ W).
  - pose proof (IH ms_nil _ (W ms_nil)). lia.
  - exact (IH _ W).
Qed.
Lemma total_app {A} (f : A -> Z) l1 l2 : total f (l1 ++ l2) = total f l1 + total f l2.
Proof. unfold total. induction l1; cbn [app fold_right]; lia. Qed.
Lemma steps_room {A} (st st' : state A) : steps st st' -> forall ns, Forall2 within (st_run st) ns ->
  exists ns', Forall2 within (st_run st') ns' /\ heap_bytes (st_heap st') + total (fun n => n) ns' <= heap_bytes (st_heap st) + total (fun n => n) ns.
Proof.
  induction 1 as [s|s s1 s2 S _ IH]; intros ns F; [exists ns; split; [exact F|lia]|].
  destruct S as [h ps l1 m l2 h' ps' m' S]. cbn [st_run st_heap] in *.
  apply Forall2_app_inv_l in F. destruct F as (n1 & n2 & F1 & F2 & ->). inversion F2 as [|? n ? n3 W F3]; subst.
  destruct (step1_room _ _ _ _ _ _ _ S W) as (n' & W' & L). destruct (IH (n1 ++ n' :: n3)) as (ns' & F' & L').
  { apply Forall2_app; [exact F1|]. constructor; assumption. }
  exists ns'. split; [exact F'|]. rewrite !total_app in *. unfold total in *. cbn [fold_right] in *. lia.
Qed.

(** ** Successful reads *)
Lemma mem_size_64 c t : (mem_size c t <= 64)%nat.
Proof. unfold mem_size. destruct c, t; cbn; lia. Qed.
Lemma total_pos {A} (f : A -> Z) l : (forall y, 0 <= f y) -> 0 <= total f l.
Proof. intros P. induction l as [|z l IH]; unfold total in *; cbn [fold_right]; [lia|]. specialize (P z). lia. Qed.
Lemma total_In {A} (f : A -> Z) l x : (forall y, 0 <= f y) -> In x l -> f x <= total f l.
Proof.
  intros P. induction l as [|y l IH]; intros []; unfold total in *; cbn [fold_right].
  - subst y. pose proof (total_pos f l P). unfold total in *. lia.
  - specialize (IH H). specialize (P y). lia.
Qed.
Lemma index_In {A} (l : list A) i x : index l i = Ok x -> In x l.
Proof. unfold index. destruct (_ && _); [|discriminate]. destruct (nth_error l (Z.to_nat i)) eqn:E; [|discriminate]. intros [= <-]. eapply nth_error_In. exact E. Qed.
Lemma size_pos c t : ct_valid c = true -> at_valid t = true -> 1 <= SizeOfElement c t <= 64.
Proof. destruct c, t; try discriminate; intros _ _; vm_compute; split; discriminate. Qed.
Lemma Read_count b stride data data' : Read b stride data = Ok data' -> 0 <= stride <= 252 -> zlen (els data) < 2 ^ 48 ->
  (exists c t, sk data = SK c t) -> zlen (els data) <= zlen b.
Proof.
  intros R S N (c & t & K). unfold Read, TypeOf in R. rewrite K in R. destruct (ct_valid c && at_valid t) eqn:V; [|discriminate]. apply andb_true_iff in V. destruct V as [Vc Vt].
  pose proof (size_pos c t Vc Vt) as P. cbn [bind] in R. pose proof (zlen_nonneg (els data)) as L0. pose proof (zlen_nonneg b) as Lb.
  set (n := zlen (els data)) in *. set (size := SizeOfElement c t) in *. set (st := if stride =? 0 then size else stride) in *.
  assert (St : 1 <= st <= 252) by (unfold st; destruct (stride =? 0) eqn:E; lia).
  destruct (zlen b <? (if st =? size then i64 (n * st) else i64 (i64 (n * st) - i64 (st - size)))) eqn:H; [discriminate|]. clear R.
  assert (E1 : i64 (n * st) = n * st) by (apply i64_id; unfold in_i64; nia). rewrite E1 in H. apply Z.ltb_ge in H. destruct (st =? size) eqn:E; [nia|].
  assert (E2 : i64 (st - size) = st - size) by (apply i64_id; unfold in_i64; lia). rewrite E2 in H. rewrite i64_id in H by (unfold in_i64; nia). destruct (Z.eq_dec n 0); [lia|]. nia.
Qed.
Lemma view_bytes doc i buf : readBufferView doc i = Ok buf -> zlen buf <= doc_bytes doc.
Proof.
  unfold readBufferView, ReadBufferView. destruct (_ <=? i); [discriminate|]. destruct (index (doc_BufferViews doc) i) as [[v|]| |]; cbn [bind deref]; try discriminate.
  destruct (_ <=? _); [discriminate|]. destruct (index (doc_Buffers doc) (bvw_Buffer v)) as [[b|]| |] eqn:E; cbn [bind deref]; try discriminate. cbv zeta. destruct (_ <? _); [discriminate|].
  unfold slice_range. destruct (_ && _); [|discriminate]. intros [= <-]. apply index_In in E.
  pose proof (total_In (fun o => match o with Some b => zlen (buf_Data b) | None => 0 end) _ (Some b) (fun o => match o return 0 <= match o with Some b => zlen (buf_Data b) | None => 0 end with Some b => zlen_nonneg _ | None => Z.le_refl 0 end) E) as T.
  cbv beta in T. unfold doc_bytes. unfold zlen in *. rewrite firstn_length, skipn_length. lia.
Qed.
Lemma dense_count doc c t i off n buffer sl : strides_valid doc -> n < 2 ^ 48 -> read_dense doc c t (Some i) off n buffer = Ok sl -> Z.max 0 n <= doc_bytes doc.
Proof.
  intros S N R. unfold read_dense in R. destruct (MakeSliceBuffer c t n buffer) as [data| |] eqn:M; cbn [bind] in R; [|discriminate..].
  destruct (MakeSliceBuffer_inv _ _ _ _ _ M) as (K & L & _). destruct (readBufferView doc i) as [buf| |] eqn:V; cbn [bind] in R; [|discriminate..].
  pose proof (view_bytes _ _ _ V) as B. destruct (index (doc_BufferViews doc) i) as [[v|]| |] eqn:I; cbn [bind deref] in R; try discriminate.
  unfold slice_from in R. destruct (_ && _); [|discriminate]. cbn [bind] in R. apply index_In in I. pose proof (proj1 (Forall_forall _ _) S _ I) as Sv. cbv beta iota in Sv.
  rewrite <- L in N. pose proof (Read_count _ _ _ _ R Sv N (ex_intro _ c (ex_intro _ t K))) as C. rewrite L in C. unfold zlen in *. rewrite skipn_length in C. lia.
Qed.
Lemma accessor_count doc acr b p sl : strides_valid doc -> counts_valid acr -> acr_BufferView acr <> None -> ReadAccessor doc acr b p = Ok sl ->
  Z.max 0 (acr_Count acr) <= doc_bytes doc /\ accessor_room acr <= 2448 + 136 * doc_bytes doc.
Proof.
  intros S [N1 N2] V R. unfold ReadAccessor in R. destruct (acr_BufferView acr) as [i|] eqn:Ei; [|congruence].
  destruct (read_dense doc (acr_ComponentType acr) (acr_Type acr) (Some i) (acr_ByteOffset acr) (acr_Count acr) b) as [data| |] eqn:D; cbn [bind] in R; [|discriminate..].
  pose proof (dense_count _ _ _ _ _ _ _ _ S N1 D) as C. split; [exact C|]. unfold accessor_room, elements.
  pose proof (mem_size_64 (acr_ComponentType acr) (acr_Type acr)) as M. destruct (acr_Sparse acr) as [sp|]; [|nia]. cbv zeta in R. unfold read_indices_dense in R.
  destruct (check_indices (spi_ComponentType (spa_Indices sp)) AScalar) eqn:CI; cbn [bind] in R; [|discriminate..].
  destruct (read_dense doc (spi_ComponentType (spa_Indices sp)) AScalar _ _ _ (p_idx p)) as [ix| |] eqn:D2; cbn [bind] in R; [|discriminate..].
  pose proof (dense_count _ _ _ _ _ _ _ _ S N2 D2) as C2. assert (M2 : (mem_size (spi_ComponentType (spa_Indices sp)) AScalar <= 4)%nat) by (unfold mem_size; destruct (spi_ComponentType (spa_Indices sp)); cbn; lia). nia.
Qed.
