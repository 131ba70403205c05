(** ReadAccessor, ReadIndices and the typed readers on memory do what the
    functions of ModelerRead.v say, for some contents of the pooled buffers. *)
From Verif Require Import Base BaseFacts Types Binary SpecLayout BinaryProofs SliceProofs Doc ModelerRead ModelerReadSpecProofs Memory MemoryProofs MemoryReads MemoryRead2 MemoryTyped.

Section Specs.
Context (D : arrays) (doc : Document) (ds : list mslice) (HD : doc_at D doc ds).

(** read.go:133-160 *)
Lemma idx_copies_ok c t : check_indices c t = Ok tt -> forall f, idx_copies (SK c t) = Some f -> forall e, wf_elem c t e -> u32_ok (f e) /\ le_bytes 4 (f e) = image (Z.to_nat (ByteSize c)) e.
Proof.
  intros H f E e [L R]. destruct c; try discriminate H; destruct t; try discriminate H; try discriminate E. injection E as <-. cbn in L. destruct e as [|z [|? ?]]; cbn in L; try lia. inversion R; subst.
  split; [assumption|]. cbn [scalar hd]. change (Z.to_nat (ByteSize CUint)) with 4%nat. unfold image. cbn [map List.concat]. rewrite app_nil_r. reflexivity.
Qed.
Lemma idx_convert_ok c t : check_indices c t = Ok tt -> forall f, idx_convert (SK c t) = Some f -> forall e, wf_elem c t e -> u32_ok (f e).
Proof.
  intros H f E e [L R]. unfold u32_ok. destruct c; try discriminate H; destruct t; try discriminate H; try discriminate E; injection E as <-; cbn in L; destruct e as [|z [|? ?]]; cbn in L; try lia; inversion R as [|? ? Hz ?]; subst; cbn [scalar hd]; cbn in Hz; lia.
Qed.
Lemma convert_indices_v count vs data : (buf <- makeBufferOf 0 count vs ;; convert_v (idx_copies (sk data)) (idx_convert (sk data)) (els data) buf) = convert_indices count vs data.
Proof. unfold convert_indices, convert_v. destruct (makeBufferOf 0 count vs); cbn [bind]; [|reflexivity..]. destruct (sk data) as [c t| | | |]; [|reflexivity..]. destruct c; try reflexivity; destruct t; reflexivity. Qed.

Lemma indices_spec {Pt} c t count reader (readv : bytes -> Pt -> res slice) (G : Pt -> Prop) p0 : G p0 ->
  (forall o s b, owns o (extended s) b -> wp D o (reader s) (fun r o' => exists p, G p /\ slice_post c t (touch s) o (readv b p) r o')) ->
  forall o buf vs, owns o buf (imgs (le_bytes 4) vs) -> Forall u32_ok vs ->
  wp D o (indices_m reader c t count buf) (fun r o' => exists b p, List.length b = pool_bytes BufPool /\ G p /\
    list_post (le_bytes 4) u32_ok (touch buf) o (_ <- check_indices c t ;; data <- readv b p ;; convert_indices count vs data) r o').
Proof.
  intros G0 HR o buf vs O V. unfold indices_m. eapply wp_mono; [|apply (typed_spec D (le_bytes 4) 4 u32_ok le4_length ltac:(lia) 0 ltac:(unfold u32_ok; lia) eq_refl check_indices idx_copies idx_convert c t count (idx_copies_ok c t) (idx_convert_ok c t) reader readv G p0 G0 HR o buf vs O V)].
  intros r o' (b & p & L & Gp & R). exists b, p. split; [exact L|]. split; [exact Gp|]. unfold typed_v in R.
  destruct (check_indices c t); cbn [bind] in *; [|exact R..]. destruct (readv b p) as [data|e|]; cbn [bind] in *; [|exact R..]. rewrite convert_indices_v in R. exact R.
Qed.

(** Contents of the pooled buffers. *)
Definition pools_ok (p : pools) : Prop :=
  List.length (p_u32 p) = Z.to_nat 100 /\ Forall u32_ok (p_u32 p) /\ List.length (p_idx p) = pool_bytes BufPool /\ List.length (p_val p) = pool_bytes BufPool.
Lemma fresh_pools_ok : pools_ok fresh_pools.
Proof. unfold pools_ok. cbn [fresh_pools p_u32 p_idx p_val]. split; [reflexivity|]. split; [|split; reflexivity]. apply Forall_forall. intros z Hz. apply repeat_spec in Hz. subst z. unfold u32_ok. lia. Qed.

(** read.go:31-82 *)
Lemma ReadAccessor_spec acr o buf b : owns o (extended buf) b ->
  wp D o (ReadAccessor_m doc ds acr buf) (fun r o' => exists p, pools_ok p /\ slice_post (acr_ComponentType acr) (acr_Type acr) (touch buf) o (ReadAccessor doc acr b p) r o').
Proof.
  intros O. unfold ReadAccessor_m, ReadAccessor. set (c := acr_ComponentType acr). set (t := acr_Type acr).
  apply wp_bindr. eapply wp_mono; [|apply (read_dense_spec D doc ds o c t _ _ _ buf b HD O)]. intros r o1 [F1 R1].
  destruct (read_dense doc c t (acr_BufferView acr) (acr_ByteOffset acr) (acr_Count acr) b) as [data|e|].
  2,3: subst r; exists fresh_pools; split; [exact fresh_pools_ok|]; split; [exact F1|reflexivity].
  destruct R1 as (s & -> & Sk & Hc & Ht & W & Os & Is). cbn [bind].
  destruct (acr_Sparse acr) as [sp|].
  2: { cbn [wp]. exists fresh_pools. split; [exact fresh_pools_ok|]. split; [exact F1|]. exists s. auto 8. }
  set (si := spa_Indices sp). set (sv := spa_Values sp).
  apply wp_pool. intros a1 b1 N1 M1 L1. set (o2 := upd o1 a1 b1). set (ub := pool_slice U32Pool a1).
  destruct (bytes_u32 (Z.to_nat 100) b1) as (us & Ul & Ur & Ui); [rewrite L1; reflexivity|].
  assert (Ob1 : owns o2 ub (imgs (le_bytes 4) us)) by (rewrite Ui; exact (pool_owns o1 U32Pool a1 b1 L1)).
  assert (F12 : frame (fun _ => False) o1 o2) by (apply frame_new; exact N1).
  assert (Os2 : owns o2 s (mem_image c (els data))) by (apply (frame_owns _ _ _ _ _ F12 Os); intros _ []).
  assert (Ns1 : ~ touch s a1) by exact (touch_not_new _ _ _ _ Os N1).
  (* leaving the outer pool *)
  assert (Out1 : forall o' p r v, pools_ok p -> frame (fun x => touch s x \/ touch ub x) o2 o' ->
     match v with Ok sl => r = Ok s /\ sk sl = SK c t /\ Forall (wf_elem c t) (els sl) /\ owns o' s (mem_image c (els sl)) | Err e => r = Err e | Panic => r = Panic end ->
     (indices <- read_indices_dense doc (spi_ComponentType si) AScalar (Some (spi_BufferView si)) (spi_ByteOffset si) (spa_Count sp) (p_u32 p) (p_idx p) ;;
      values <- read_dense doc c t (Some (spv_BufferView sv)) (spv_ByteOffset sv) (spa_Count sp) (p_val p) ;;
      s <- sparse_loop 0 (Z.to_nat (spa_Count sp)) indices (els values) (els data) ;; Ok (mkSlice (sk data) s)) = v ->
     (exists c2, o' a1 = Some c2 /\ List.length c2 = pool_bytes U32Pool) /\
     exists p, pools_ok p /\ slice_post c t (touch buf) o
       (indices <- read_indices_dense doc (spi_ComponentType si) AScalar (Some (spi_BufferView si)) (spi_ByteOffset si) (spa_Count sp) (p_u32 p) (p_idx p) ;;
        values <- read_dense doc c t (Some (spv_BufferView sv)) (spv_ByteOffset sv) (spa_Count sp) (p_val p) ;;
        s <- sparse_loop 0 (Z.to_nat (spa_Count sp)) indices (els values) (els data) ;; Ok (mkSlice (sk data) s)) r (del o' a1)).
  { intros o' p r v Gp F R E. split; [exact (frame_kept _ o1 U32Pool a1 b1 o' L1 F)|]. exists p. split; [exact Gp|]. rewrite E.
    split; [eapply frame_within; [exact Is|exact F1|exact (frame_pool _ o1 U32Pool a1 b1 o' N1 F)]|].
    destruct v as [sl|e|]; [|exact R..]. destruct R as (-> & Sk' & W' & O'). exists s. split; [reflexivity|]. split; [exact Sk'|]. split; [exact Hc|]. split; [exact Ht|]. split; [exact W'|]. split; [|exact Is].
    apply owns_del; [exact O'|]. intros Z Ea. exact (Ns1 (conj Z (eq_sym Ea))). }
  apply wp_bindr. eapply wp_mono; [|apply (indices_spec (spi_ComponentType si) AScalar (spa_Count sp) _ (fun b (_ : unit) => read_dense doc (spi_ComponentType si) AScalar (Some (spi_BufferView si)) (spi_ByteOffset si) (spa_Count sp) b) (fun _ => True) tt I)].
  3: exact Ob1. 3: exact Ur.
  2: { intros o' s' b' O'. eapply wp_mono; [|apply (read_dense_spec D doc ds o' _ _ _ _ _ s' b' HD O')]. intros r o'' R. exists tt. auto. }
  intros r o3 (pb & _ & Lpb & _ & F3 & R3).
  assert (Ri : forall val, read_indices_dense doc (spi_ComponentType si) AScalar (Some (spi_BufferView si)) (spi_ByteOffset si) (spa_Count sp) (p_u32 (mkPools us pb val)) (p_idx (mkPools us pb val)) =
    (_ <- check_indices (spi_ComponentType si) AScalar ;; data <- read_dense doc (spi_ComponentType si) AScalar (Some (spi_BufferView si)) (spi_ByteOffset si) (spa_Count sp) pb ;; convert_indices (spa_Count sp) us data)) by reflexivity.
  set (vi := (_ <- check_indices (spi_ComponentType si) AScalar ;; _)) in *. clearbody vi.
  assert (Gf : forall val, List.length val = pool_bytes BufPool -> pools_ok (mkPools us pb val)) by (intros val Lv; unfold pools_ok; cbn [p_u32 p_idx p_val]; auto).
  assert (Fl : forall x, touch ub x -> touch s x \/ touch ub x) by auto.
  destruct vi as [zs|e|].
  2: { subst r. refine (Out1 o3 (mkPools us pb fresh_buf) _ (Err e) (Gf fresh_buf eq_refl) (frame_mono _ _ _ _ Fl F3) eq_refl _). rewrite Ri. reflexivity. }
  2: { subst r. refine (Out1 o3 (mkPools us pb fresh_buf) _ Panic (Gf fresh_buf eq_refl) (frame_mono _ _ _ _ Fl F3) eq_refl _). rewrite Ri. reflexivity. }
  destruct R3 as (ix & -> & Zs & Oi & Ii).
  assert (Ns : forall x, touch s x -> touch ub x -> False) by (intros x T1 [_ T2]; cbn in T2; subst x; exact (Ns1 T1)).
  assert (Os3 : owns o3 s (mem_image c (els data))) by (apply (frame_owns _ _ _ _ _ F3 Os2); intros Z T; exact (Ns _ (conj Z eq_refl) T)).
  assert (Dx : disjoint s ix).
  { intros x [T1 ->] [T2 E]. destruct Ii as [Ii|[Ii|Ii]]; [congruence|rewrite <- E in Ii; exact (Ns _ (conj T1 eq_refl) Ii)|]. destruct (owned_arr _ _ _ Os2 T1) as (cx & Ex). rewrite E in Ex. congruence. }
  apply wp_pool. intros a2 b2 N2 M2 L2. set (o4 := upd o3 a2 b2). set (vb := pool_slice BufPool a2).
  assert (F34 : frame (fun _ => False) o3 o4) by (apply frame_new; exact N2).
  assert (Os4 : owns o4 s (mem_image c (els data))) by (apply (frame_owns _ _ _ _ _ F34 Os3); intros _ []).
  assert (Oi4 : owns o4 ix (imgs (le_bytes 4) zs)) by (apply (frame_owns _ _ _ _ _ F34 Oi); intros _ []).
  assert (Ns2 : ~ touch s a2) by exact (touch_not_new _ _ _ _ Os3 N2).
  assert (Ni2 : ~ touch ix a2) by exact (touch_not_new _ _ _ _ Oi N2).
  set (p := mkPools us pb b2). assert (Gp : pools_ok p) by (apply Gf; exact L2).
  (* leaving the inner pool *)
  assert (Out2 : forall o' r v, frame (fun x => touch s x \/ touch vb x) o4 o' ->
     match v with Ok sl => r = Ok s /\ sk sl = SK c t /\ Forall (wf_elem c t) (els sl) /\ owns o' s (mem_image c (els sl)) | Err e => r = Err e | Panic => r = Panic end ->
     (values <- read_dense doc c t (Some (spv_BufferView sv)) (spv_ByteOffset sv) (spa_Count sp) b2 ;;
      s <- sparse_loop 0 (Z.to_nat (spa_Count sp)) zs (els values) (els data) ;; Ok (mkSlice (sk data) s)) = v ->
     (exists c2, o' a2 = Some c2 /\ List.length c2 = pool_bytes BufPool) /\
     ((exists c2, del o' a2 a1 = Some c2 /\ List.length c2 = pool_bytes U32Pool) /\
     exists p, pools_ok p /\ slice_post c t (touch buf) o
       (indices <- read_indices_dense doc (spi_ComponentType si) AScalar (Some (spi_BufferView si)) (spi_ByteOffset si) (spa_Count sp) (p_u32 p) (p_idx p) ;;
        values <- read_dense doc c t (Some (spv_BufferView sv)) (spv_ByteOffset sv) (spa_Count sp) (p_val p) ;;
        s <- sparse_loop 0 (Z.to_nat (spa_Count sp)) indices (els values) (els data) ;; Ok (mkSlice (sk data) s)) r (del (del o' a2) a1))).
  { intros o' r v F R E. split; [exact (frame_kept _ o3 BufPool a2 b2 o' L2 F)|].
    refine (Out1 (del o' a2) p r v Gp _ _ _).
    - eapply frame_mono; [|eapply frame_or; [exact F3|exact (frame_pool _ o3 BufPool a2 b2 o' N2 F)]]. cbv beta. tauto.
    - destruct v as [sl|e|]; [|exact R..]. destruct R as (Rr & Sk' & W' & O'). split; [exact Rr|]. split; [exact Sk'|]. split; [exact W'|]. apply owns_del; [exact O'|]. intros Z Ea. exact (Ns2 (conj Z (eq_sym Ea))).
    - unfold p. rewrite Ri. cbn [bind p_val]. exact E. }
  apply wp_bindr. eapply wp_mono; [|apply (read_dense_spec D doc ds o4 c t _ _ _ vb b2 HD)].
  2: exact (pool_owns o3 BufPool a2 b2 L2).
  intros r o5 [F5 R5]. assert (Fl2 : forall x, touch vb x -> touch s x \/ touch vb x) by auto.
  destruct (read_dense doc c t (Some (spv_BufferView sv)) (spv_ByteOffset sv) (spa_Count sp) b2) as [vals|e|].
  2: { subst r. exact (Out2 o5 _ (Err e) (frame_mono _ _ _ _ Fl2 F5) eq_refl eq_refl). }
  2: { subst r. exact (Out2 o5 _ Panic (frame_mono _ _ _ _ Fl2 F5) eq_refl eq_refl). }
  destruct R5 as (vx & -> & Sv & _ & _ & Wv & Ov & Iv).
  assert (Nsv : forall x, touch s x -> touch vb x -> False) by (intros x T1 [_ T2]; cbn in T2; subst x; exact (Ns2 T1)).
  assert (Niv : forall x, touch ix x -> touch vb x -> False) by (intros x T1 [_ T2]; cbn in T2; subst x; exact (Ni2 T1)).
  assert (Os5 : owns o5 s (mem_image c (els data))) by (apply (frame_owns _ _ _ _ _ F5 Os4); intros Z T; exact (Nsv _ (conj Z eq_refl) T)).
  assert (Oi5 : owns o5 ix (imgs (le_bytes 4) zs)) by (apply (frame_owns _ _ _ _ _ F5 Oi4); intros Z T; exact (Niv _ (conj Z eq_refl) T)).
  assert (Dv : disjoint s vx).
  { intros x [T1 ->] [T2 E]. destruct Iv as [Iv|[Iv|Iv]]; [congruence|rewrite <- E in Iv; exact (Nsv _ (conj T1 eq_refl) Iv)|]. destruct (owned_arr _ _ _ Os4 T1) as (cx & Ex). rewrite E in Ex. congruence. }
  apply wp_bindr. eapply wp_mono; [|apply (sparse_loop_spec D c t ix vx s zs (els vals) Hc Ht Dx Dv Zs Wv (Z.to_nat (spa_Count sp)) 0 o5 (els data) Oi5 Ov Os5 W)].
  intros r o6 [F6 R6]. assert (F46 : frame (fun x => touch s x \/ touch vb x) o4 o6) by (eapply frame_mono; [|eapply frame_or; [exact F5|exact F6]]; cbv beta; tauto).
  cbn [bind] in Out2. destruct (sparse_loop 0 (Z.to_nat (spa_Count sp)) zs (els vals) (els data)) as [vs|e|]; cbn [bind] in Out2.
  2: { subst r. exact (Out2 o6 _ (Err e) F46 eq_refl eq_refl). }
  2: { subst r. exact (Out2 o6 _ Panic F46 eq_refl eq_refl). }
  destruct R6 as (-> & O6 & W6). cbn [wp]. refine (Out2 o6 _ (Ok (mkSlice (sk data) vs)) F46 _ eq_refl). cbn [sk els]. auto.
Qed.

(** read.go:132-161 *)
Lemma ReadIndices_spec acr o buf vs : owns o buf (imgs (le_bytes 4) vs) -> Forall u32_ok vs ->
  wp D o (ReadIndices_m doc ds acr buf) (fun r o' => exists b p, List.length b = pool_bytes BufPool /\ pools_ok p /\
    list_post (le_bytes 4) u32_ok (touch buf) o (ReadIndices doc acr vs b p) r o').
Proof.
  intros O V. unfold ReadIndices_m. apply (indices_spec _ _ _ _ (ReadAccessor doc acr) pools_ok fresh_pools fresh_pools_ok); [|exact O|exact V].
  intros o' s b Ob. apply ReadAccessor_spec. exact Ob.
Qed.

(** Elements with n components of w bytes. *)
Definition comps_ok (w n : nat) (v : elem) : Prop := List.length v = n /\ Forall (fun x => 0 <= x < 256 ^ Z.of_nat w) v.
Lemma comps_length w n v : comps_ok w n v -> List.length (image w v) = (n * w)%nat.
Proof. intros [L _]. rewrite image_length, L. reflexivity. Qed.
Lemma image_zeros w n : image w (repeat 0 n) = zeros (n * w).
Proof.
  unfold image. induction n as [|n IH]; [reflexivity|]. cbn [repeat map List.concat Nat.mul]. rewrite IH. unfold zeros. rewrite repeat_app. f_equal.
  clear IH. induction w as [|w IH]; [reflexivity|]. cbn [le_bytes repeat]. change (0 / 256) with 0. rewrite IH. reflexivity.
Qed.

Lemma read_typed_spec w n check convert copies acr o buf vs : (0 < n)%nat -> (0 < w)%nat ->
  let c := acr_ComponentType acr in let t := acr_Type acr in
  (check c t = Ok tt -> forall f, copies (SK c t) = Some f -> forall e, wf_elem c t e -> comps_ok w n (f e) /\ image w (f e) = image (Z.to_nat (ByteSize c)) e) ->
  (check c t = Ok tt -> forall f, convert (SK c t) = Some f -> forall e, wf_elem c t e -> comps_ok w n (f e)) ->
  owns o buf (imgs (image w) vs) -> Forall (comps_ok w n) vs ->
  wp D o (read_typed_m doc ds w n check convert copies acr buf) (fun r o' => exists b p, List.length b = pool_bytes BufPool /\ pools_ok p /\
    list_post (image w) (comps_ok w n) (touch buf) o (read_typed (repeat 0 n) check convert copies doc acr vs b p) r o').
Proof.
  intros Hn Hw c t H1 H2 O V. unfold read_typed_m. eapply wp_mono; [|apply (typed_spec D (image w) (n * w) (comps_ok w n) (comps_length w n) ltac:(nia) (repeat 0 n)) with (readv := ReadAccessor doc acr) (G := pools_ok) (p0 := fresh_pools) (vs := vs)].
  - intros r o' R. exact R.
  - split; [apply repeat_length|]. apply Forall_forall. intros z Hz. apply repeat_spec in Hz. subst z. split; [lia|]. apply Z.pow_pos_nonneg; lia.
  - apply image_zeros.
  - exact H1.
  - exact H2.
  - exact fresh_pools_ok.
  - intros o' s b Ob. apply ReadAccessor_spec. exact Ob.
  - exact O.
  - exact V.
Qed.
End Specs.
