(** Proofs for C75. *)
From Verif Require Import Base BaseFacts Types Binary BinaryProofs Doc ModelerWrite Memory SpecMemory WriteMemory SpecWriteMemory MemoryProofs MemoryReads.

(** ** Bytes *)
Lemma byte_at_poke h a p d b q :
  byte_at (poke h a p d) b q =
  match nth_error h a with
  | Some c => if Nat.eqb a b then nth_error (overwrite c p d) q else byte_at h b q
  | None => byte_at h b q
  end.
Proof.
  unfold poke, byte_at. destruct (nth_error h a) as [c|] eqn:E; [|reflexivity]. rewrite nth_error_set_nth.
  assert (L : (a < List.length h)%nat) by (apply nth_error_Some; congruence). apply Nat.ltb_lt in L. rewrite L. destruct (Nat.eqb a b) eqn:Q; reflexivity.
Qed.
Definition sized (h h' : list bytes) : Prop := forall a c, nth_error h a = Some c -> exists c', nth_error h' a = Some c' /\ List.length c' = List.length c.
Definition chg (R : nat -> nat -> Prop) (h h' : list bytes) : Prop := kept R h h' /\ sized h h'.
Lemma sized_refl h : sized h h. Proof. intros a c E. eauto. Qed.
Lemma sized_trans h1 h2 h3 : sized h1 h2 -> sized h2 h3 -> sized h1 h3.
Proof. intros A B a c E. destruct (A _ _ E) as (c' & E' & L'). destruct (B _ _ E') as (c2 & E2 & L2). exists c2. split; [exact E2|congruence]. Qed.
Lemma chg_refl R h : chg R h h. Proof. split; [intros a p x E _; exact E|apply sized_refl]. Qed.
Lemma chg_mono (R R' : nat -> nat -> Prop) h h' : (forall a p, R a p -> R' a p) -> chg R h h' -> chg R' h h'.
Proof. intros I [K S]. split; [|exact S]. intros a p x E N. apply K; auto. Qed.
Lemma chg_trans R h1 h2 h3 : chg R h1 h2 -> chg R h2 h3 -> chg R h1 h3.
Proof. intros [K1 S1] [K2 S2]. split; [intros a p x E N; auto|eapply sized_trans; eauto]. Qed.
Lemma sized_length h h' : sized h h' -> (List.length h <= List.length h')%nat.
Proof.
  intros S. destruct (List.length h) as [|n] eqn:E; [lia|]. destruct (nth_error h n) as [c|] eqn:En; [|apply nth_error_None in En; lia].
  destruct (S _ _ En) as (c' & E' & _). assert (n < List.length h')%nat by (apply nth_error_Some; congruence). lia.
Qed.
Lemma byte_at_lt h a p x : byte_at h a p = Some x -> (a < List.length h)%nat.
Proof. unfold byte_at. destruct (nth_error h a) eqn:E; [|discriminate]. intros _. apply nth_error_Some. congruence. Qed.
Lemma set_nth_same {A} n (a : A) l : nth_error l n = Some a -> set_nth n a l = l.
Proof. revert l. induction n; intros [|x l]; cbn; intros E; try discriminate; [congruence|]. f_equal. auto. Qed.
Lemma poke_nil h a p : poke h a p [] = h.
Proof. unfold poke. destruct (nth_error h a) eqn:E; [|reflexivity]. rewrite overwrite_nil. apply set_nth_same. exact E. Qed.
Lemma poke_chg h a p d c : nth_error h a = Some c -> (p + List.length d <= List.length c)%nat ->
  chg (fun b q => b = a /\ (p <= q < p + List.length d)%nat) h (poke h a p d).
Proof.
  intros E L. split.
  - intros b q x Ex N. rewrite byte_at_poke, E. destruct (Nat.eqb a b) eqn:Q; [|exact Ex]. apply Nat.eqb_eq in Q. subst b.
    rewrite nth_error_overwrite by exact L. unfold byte_at in Ex. rewrite E in Ex. destruct (_ && _)%bool eqn:B; [|exact Ex]. exfalso. apply N. split; [reflexivity|]. lia.
  - intros b c0 E0. unfold poke. rewrite E, nth_error_set_nth. destruct (Nat.eqb a b) eqn:Q.
    + apply Nat.eqb_eq in Q. subst b. assert (L' : (a <? List.length h)%nat = true) by (apply Nat.ltb_lt, nth_error_Some; congruence). rewrite L'. eexists. split; [reflexivity|]. rewrite overwrite_length by exact L. congruence.
    + eauto.
Qed.
Lemma holds_bytes h s v : holds h s v <->
  List.length v = ms_len s /\ forall i x, nth_error v i = Some x -> byte_at h (ms_arr s) (ms_off s + i) = Some x.
Proof.
  unfold holds, byte_at. split.
  - intros (L & K). split; [exact L|]. intros i x Ei. assert (i < List.length v)%nat by (apply nth_error_Some; congruence). destruct K as [K|(c & E & B & ->)]; [lia|].
    rewrite E. rewrite nth_error_sub in Ei. destruct (i <? ms_len s)%nat; [exact Ei|discriminate].
  - intros (L & K). split; [exact L|]. destruct (ms_len s) as [|n] eqn:En; [left; reflexivity|right].
    destruct (nth_error v n) as [x|] eqn:Ex; [|apply nth_error_None in Ex; lia]. pose proof (K _ _ Ex) as Kn. destruct (nth_error h (ms_arr s)) as [c|]; [|discriminate].
    exists c. split; [reflexivity|]. assert (ms_off s + n < List.length c)%nat by (apply nth_error_Some; congruence). split; [lia|].
    apply nth_error_ext. intros i. rewrite nth_error_sub. destruct (i <? Datatypes.S n)%nat eqn:Ei.
    + apply Nat.ltb_lt in Ei. destruct (nth_error v i) as [y|] eqn:Ey; [symmetry; apply K; exact Ey|]. apply nth_error_None in Ey. lia.
    + apply Nat.ltb_ge in Ei. apply nth_error_None. lia.
Qed.
Lemma holds_kept R h h' s v : holds h s v -> kept R h h' -> disjoint s R -> holds h' s v.
Proof.
  intros H K N. apply holds_bytes in H. destruct H as [L H]. apply holds_bytes. split; [exact L|]. intros i x E. apply K; [apply H; exact E|]. apply N. split; [reflexivity|].
  assert (i < List.length v)%nat by (apply nth_error_Some; congruence). lia.
Qed.
Lemma peek_holds h s v : holds h s v -> peek h s = v.
Proof.
  intros (L & K). unfold peek. destruct K as [K|(c & E & B & ->)]; [|rewrite E; reflexivity]. destruct v; [|cbn in L; lia]. destruct (nth_error h (ms_arr s)); [|reflexivity]. rewrite K. reflexivity.
Qed.
Lemma in_memory_sized h h' s : in_memory h s -> sized h h' -> in_memory h' s.
Proof. intros (L & K) S. split; [exact L|]. destruct K as [K|(c & E & B)]; [left; exact K|]. right. destruct (S _ _ E) as (c' & E' & L'). exists c'. split; [exact E'|lia]. Qed.
Lemma poke_window h dst v o d : holds h dst v -> (o + List.length d <= ms_len dst)%nat ->
  holds (poke h (ms_arr dst) (ms_off dst + o) d) dst (overwrite v o d) /\ chg (range dst) h (poke h (ms_arr dst) (ms_off dst + o) d).
Proof.
  intros H Ld. destruct d as [|x0 d'].
  - rewrite poke_nil, overwrite_nil. split; [exact H|apply chg_refl].
  - set (d := x0 :: d') in *. assert (Pd : (1 <= List.length d)%nat) by (subst d; cbn; lia). pose proof H as (L & K). destruct K as [K|(c & E & B & V)]; [lia|].
    split; [|eapply chg_mono; [|eapply poke_chg; [exact E|lia]]; intros a p [-> Q]; split; [reflexivity|lia]].
    apply holds_bytes. apply holds_bytes in H. destruct H as [_ H]. split; [rewrite overwrite_length; lia|].
    intros i x Ex. rewrite byte_at_poke, E, Nat.eqb_refl. rewrite nth_error_overwrite in Ex by lia. rewrite nth_error_overwrite by lia.
    destruct ((o <=? i) && (i <? o + List.length d))%nat eqn:B1; destruct ((ms_off dst + o <=? ms_off dst + i) && (ms_off dst + i <? ms_off dst + o + List.length d))%nat eqn:B2; try lia.
    + rewrite <- Ex. f_equal. lia.
    + specialize (H _ _ Ex). unfold byte_at in H. rewrite E in H. exact H.
Qed.

(** ** binary.Write *)
Definition wrote (h : list bytes) (dst : mslice) (out : list bytes * res unit) (v : res bytes) : Prop :=
  chg (range dst) h (fst out) /\
  match v with Ok v' => snd out = Ok tt /\ holds (fst out) dst v' | Err e => out = (h, Err e) | Panic => snd out = Panic end.
Lemma store_wrote w h dst v off x : 0 <= w -> holds h dst v -> wrote h dst (store_m w dst off x h) (store w v off x).
Proof.
  intros Hw H. pose proof H as (L & _). unfold store_m, store, zlen. rewrite L. destruct (_ && _) eqn:B; [|split; [apply chg_refl|reflexivity]].
  destruct (poke_window h dst v (Z.to_nat off) (le_bytes (Z.to_nat w) x) H) as [P1 P2]; [rewrite le_bytes_length; lia|]. split; [exact P2|]. split; [reflexivity|exact P1].
Qed.
Lemma put_all_not_err w base ncols tbl v : forall b e, put_all w base ncols tbl v b <> Err e.
Proof.
  induction tbl as [|[o [r k]] tbl IH]; intros b e Ep; cbn [put_all] in Ep; [discriminate|].
  unfold index in Ep. destruct (_ && _); [|discriminate]. destruct (nth_error v _); [|discriminate]. cbn [bind] in Ep. unfold store in Ep at 1. destruct (_ && _); [|discriminate]. cbn [bind] in Ep. exact (IH _ _ Ep).
Qed.
Lemma put_all_wrote w base ncols tbl v dst : 0 <= w -> forall h b, holds h dst b -> wrote h dst (put_all_m w base ncols tbl v dst h) (put_all w base ncols tbl v b).
Proof.
  intros Hw. induction tbl as [|[o [r k]] tbl IH]; intros h b H; cbn [put_all_m put_all].
  - split; [apply chg_refl|split; [reflexivity|exact H]].
  - unfold bindm at 1, ret. destruct (index v (r * ncols + k)) as [x|e|]; cbn [bind]; try (split; [apply chg_refl|reflexivity]).
    pose proof (store_wrote w h dst b (base + o) x Hw H) as [C1 P]. unfold bindm. destruct (store_m w dst (base + o) x h) as [h1 r1]. cbn [fst snd] in *.
    destruct (store w b (base + o) x) as [b'|e|] eqn:Es; cbn [bind].
    + destruct P as [-> Hb]. pose proof (IH h1 b' Hb) as [C2 P2]. split; [eapply chg_trans; eassumption|]. destruct (put_all w base ncols tbl v b') eqn:Ep; try exact P2.
      exfalso. exact (put_all_not_err _ _ _ _ _ _ _ Ep).
    + unfold store in Es. destruct (_ && _); discriminate.
    + rewrite P. split; [exact C1|reflexivity].
Qed.
Lemma ByteSize_nonneg c : 0 <= ByteSize c.
Proof. destruct c; cbn; lia. Qed.
Lemma put_elem_wrote c t h dst b base v : holds h dst b -> wrote h dst (put_elem_m c t dst base v h) (put_elem c t b base v).
Proof.
  intros H. pose proof H as (L & _). unfold put_elem_m, put_elem, zlen. rewrite L. destruct (_ && _); [|split; [apply chg_refl|reflexivity]].
  apply put_all_wrote; [apply ByteSize_nonneg|exact H].
Qed.
Lemma write_loop_not_err c t e vs : forall b i x, write_loop c t b e i vs <> Err x.
Proof.
  induction vs as [|v vs IH]; intros b i x E; cbn [write_loop] in E; [discriminate|]. unfold put_elem in E. destruct (_ && _); [|discriminate].
  destruct (put_all _ _ _ _ _ _) eqn:Ep; cbn [bind] in E; try discriminate; [exact (IH _ _ _ E)|]. exact (put_all_not_err _ _ _ _ _ _ _ Ep).
Qed.
Lemma write_loop_wrote c t dst e src sv : disjoint src (range dst) -> forall n i h b, holds h dst b -> holds h src sv ->
  wrote h dst (write_loop_m c t dst e src i n h)
    (write_loop c t b e (Z.of_nat i) (map (fun j => mem_elem (ByteSize c) (Z.to_nat (Components t)) sv (j * esize c t)) (seq i n))).
Proof.
  intros N. induction n as [|n IH]; intros i h b H HS; cbn [write_loop_m seq map write_loop].
  - split; [apply chg_refl|split; [reflexivity|exact H]].
  - rewrite (peek_holds _ _ _ HS). set (v := mem_elem _ _ sv _). pose proof (put_elem_wrote c t h dst b (i64 (e * Z.of_nat i)) v H) as [C P]. unfold bindm.
    destruct (put_elem_m c t dst _ v h) as [h1 r1]. cbn [fst snd] in *. destruct (put_elem c t b _ v) as [b1|x|] eqn:Ep; cbn [bind].
    + destruct P as [-> Hb]. assert (HS1 : holds h1 src sv) by (eapply holds_kept; [exact HS|exact (proj1 C)|exact N]).
      pose proof (IH (S i) h1 b1 Hb HS1) as [C2 P2]. rewrite Nat2Z.inj_succ, <- Z.add_1_r in P2. split; [eapply chg_trans; eassumption|].
      destruct (write_loop c t b1 e (Z.of_nat i + 1) _) eqn:E; try exact P2. exfalso. exact (write_loop_not_err _ _ _ _ _ _ _ E).
    + exfalso. unfold put_elem in Ep. destruct (_ && _); [|discriminate]. exact (put_all_not_err _ _ _ _ _ _ _ Ep).
    + rewrite P. split; [exact C|reflexivity].
Qed.
Lemma le_val_1 b : z2b (le_val [b]) = b.
Proof. cbn [le_val]. rewrite Z.mul_0_r, Z.add_0_r. apply z2b_b2z. Qed.
Lemma ubytes_of v n : n = List.length v -> map (fun e => z2b (hd 0 e)) (mem_elems CUbyte AScalar v n) = v.
Proof.
  intros ->. apply nth_error_ext. intros i. unfold mem_elems. rewrite map_map, nth_error_map. destruct (nth_error v i) as [x|] eqn:E.
  - assert (Li : (i < List.length v)%nat) by (apply nth_error_Some; congruence).
    rewrite (nth_error_nth' _ 0%nat) by (rewrite seq_length; exact Li). rewrite seq_nth by exact Li. cbn [option_map]. f_equal.
    unfold mem_elem. change (Z.to_nat (Components AScalar)) with 1%nat. cbn [seq map hd]. change (Z.to_nat (ByteSize CUbyte * Components AScalar)) with 1%nat. change (Z.to_nat (ByteSize CUbyte)) with 1%nat.
    cbn [Nat.add].
    replace (sub v _ 1) with [x]; [apply le_val_1|]. apply nth_error_ext. intros j. rewrite nth_error_sub. destruct j as [|j]; cbn [nth_error Nat.ltb Nat.leb]; [rewrite <- E; f_equal; lia|]. destruct j; reflexivity.
  - apply nth_error_None in E. rewrite (proj2 (nth_error_None _ _)); [reflexivity|rewrite seq_length; exact E].
Qed.
Definition src_ok (h : list bytes) (R : nat -> nat -> Prop) (s : msrc) (v : bytes) : Prop :=
  let '(c, t) := sk_ct (src_kind s) in
  ms_len (src_at s) = (src_count s * esize c t)%nat /\ holds h (src_at s) v /\ disjoint (src_at s) R.
Lemma Write_wrote h dst b stride s sv : holds h dst b -> src_ok h (range dst) s sv -> wrote h dst (Write_m dst stride s h) (Write b stride (src_value h s)).
Proof.
  intros H HS. pose proof H as (L & _). unfold Write_m, Write. destruct (TypeOf (src_value h s)) as [[[c t] n]|e|] eqn:ET; cbn [bind]; try (split; [apply chg_refl|reflexivity]).
  destruct (n =? 0); [split; [apply chg_refl|split; [reflexivity|exact H]]|]. unfold zlen. rewrite L. destruct (_ <? _); [split; [apply chg_refl|reflexivity]|].
  unfold src_ok in HS. unfold src_value in *. destruct (sk_ct (src_kind s)) as [c' t'] eqn:Ek. destruct HS as (Ls & Hs & N). rewrite (peek_holds _ _ _ Hs) in *. cbn [sk els] in *.
  assert (ECT : c' = c /\ t' = t).
  { unfold TypeOf in ET. cbn [sk] in ET. destruct (src_kind s); cbn in Ek; try discriminate; [destruct (_ && _); [|discriminate]| |]; injection Ek as <- <-; injection ET as <- <- _; auto. }
  destruct ECT as [-> ->].
  assert (LOOP : forall e, wrote h dst (write_loop_m c t dst e (src_at s) 0 (src_count s) h) (write_loop c t b e 0 (mem_elems c t sv (src_count s)))).
  { intros e. unfold mem_elems. apply (write_loop_wrote c t dst e (src_at s) sv N (src_count s) 0 h b H Hs). }
  destruct (src_kind s) as [c1 t1| | | |] eqn:Es; try (apply LOOP). cbn in Ek. injection Ek as -> ->. destruct c; try apply LOOP. destruct t; try apply LOOP.
  pose proof Hs as (Lv & _). change (esize CUbyte AScalar) with 1%nat in Ls. rewrite ubytes_of by lia.
  set (n0 := Nat.min (ms_len dst) (List.length sv)). unfold copy. rewrite L. fold n0.
  assert (LF : List.length (firstn n0 sv) = n0) by (rewrite firstn_length; unfold n0; lia).
  destruct (poke_window h dst b 0 (firstn n0 sv) H) as [P1 P2]; [unfold n0 in *; lia|]. rewrite Nat.add_0_r in P1, P2.
  split; [exact P2|]. split; [reflexivity|]. unfold overwrite in P1. cbn [firstn app] in P1. rewrite LF in P1. exact P1.
Qed.
Lemma src_value_kept h h' R s v : src_ok h R s v -> kept R h h' -> src_value h' s = src_value h s.
Proof.
  intros HS K. unfold src_ok, src_value in *. destruct (sk_ct (src_kind s)) as [c t]. destruct HS as (_ & Hs & N). rewrite (peek_holds _ _ _ Hs), (peek_holds h' _ v); [reflexivity|]. eapply holds_kept; eassumption.
Qed.
Lemma src_ok_kept h h' (R R' : nat -> nat -> Prop) s v : src_ok h R s v -> kept R' h h' -> (forall a p, R' a p -> R a p) -> src_ok h' R s v.
Proof.
  unfold src_ok. destruct (sk_ct (src_kind s)) as [c t]. intros (L & H & N) K I. split; [exact L|]. split; [|exact N]. eapply holds_kept; [exact H|exact K|]. intros a p Q Q'. exact (N a p Q (I _ _ Q')).
Qed.
Lemma src_ok_mono h (R R' : nat -> nat -> Prop) s v : src_ok h R s v -> (forall a p, R' a p -> R a p) -> src_ok h R' s v.
Proof.
  unfold src_ok. destruct (sk_ct (src_kind s)) as [c t]. intros (L & H & N) I. split; [exact L|]. split; [exact H|]. intros a p Q Q'. exact (N a p Q (I _ _ Q')).
Qed.

(** ** append *)
Lemma append_spec spare h s v n : holds h s v -> in_memory h s ->
  let out := append_zeros_m spare s n h in chg (spare_of s) h (fst out) /\
  match grow v n with
  | Ok v' => exists s', snd out = Ok s' /\ holds (fst out) s' v' /\ in_memory (fst out) s' /\ (ms_len s <= ms_len s')%nat /\
      ((ms_arr s' = ms_arr s /\ ms_off s' = ms_off s /\ ms_cap s' = ms_cap s) \/ ms_arr s' = List.length h)
  | Err e => snd out = Err e
  | Panic => snd out = Panic
  end.
Proof.
  intros H (M1 & M2). pose proof H as (L & K). cbn zeta. unfold append_zeros_m, grow, zlen. rewrite L. destruct (_ || _) eqn:B; [split; [apply chg_refl|reflexivity]|].
  set (m := Z.to_nat n). destruct (ms_len s + m <=? ms_cap s)%nat eqn:C; cbn [fst snd].
  - apply Nat.leb_le in C. destruct (Nat.eq_dec m 0) as [Z|Z].
    + rewrite Z. change (zeros 0) with (@nil ascii). rewrite poke_nil, app_nil_r. split; [apply chg_refl|]. eexists. split; [reflexivity|]. split; [|split; [|split; [cbn; lia|left; auto]]].
      * rewrite Nat.add_0_r. exact H.
      * split; [cbn; lia|]. exact M2.
    + destruct M2 as [M2|(c & E & Bc)]; [lia|]. assert (PC : (ms_off s + ms_len s + List.length (zeros m) <= List.length c)%nat) by (unfold zeros; rewrite repeat_length; lia).
      pose proof (poke_chg h (ms_arr s) (ms_off s + ms_len s) (zeros m) c E PC) as PK. unfold zeros in PK at 1. rewrite repeat_length in PK.
      assert (CH : chg (spare_of s) h (poke h (ms_arr s) (ms_off s + ms_len s) (zeros m))) by (eapply chg_mono; [|exact PK]; intros a p [-> Q]; split; [reflexivity|lia]).
      split; [exact CH|]. eexists. split; [reflexivity|]. split; [|split; [|split; [cbn; lia|left; auto]]].
      * apply holds_bytes. apply holds_bytes in H. destruct H as [_ H]. cbn [ms_len ms_arr ms_off]. split; [unfold zeros; rewrite app_length, repeat_length; lia|].
        intros i x Ex. rewrite byte_at_poke, E, Nat.eqb_refl, nth_error_overwrite by exact PC. assert (i < List.length (v ++ zeros m))%nat by (apply nth_error_Some; congruence). rewrite app_length in *. unfold zeros in * |-. rewrite repeat_length in *.
        destruct (_ && _)%bool eqn:B2.
        -- rewrite nth_error_app2 in Ex by lia. rewrite <- Ex. unfold zeros. f_equal. lia.
        -- unfold zeros in B2. rewrite repeat_length in B2. rewrite nth_error_app1 in Ex by lia. specialize (H _ _ Ex). unfold byte_at in H. rewrite E in H. exact H.
      * split; [cbn; lia|]. right. destruct (proj2 CH _ _ E) as (c' & E' & L'). exists c'. cbn. split; [exact E'|lia].
  - apply Nat.leb_gt in C. rewrite (peek_holds _ _ _ H). set (extra := spare _ _). set (new := v ++ zeros m ++ zeros extra).
    assert (LN : List.length new = (ms_len s + m + extra)%nat) by (unfold new, zeros; rewrite !app_length, !repeat_length; lia).
    assert (EN : nth_error (h ++ [new]) (List.length h) = Some new) by (rewrite nth_error_app2 by lia; rewrite Nat.sub_diag; reflexivity).
    split.
    + split.
      * intros a p x Ex _. pose proof (byte_at_lt _ _ _ _ Ex). unfold byte_at in *. rewrite nth_error_app1 by lia. exact Ex.
      * intros a c E. exists c. split; [|reflexivity]. rewrite nth_error_app1; [exact E|]. apply nth_error_Some. congruence.
    + eexists. split; [reflexivity|]. split; [|split; [|split; [cbn; lia|right; reflexivity]]].
      * split; [cbn; unfold zeros; rewrite app_length, repeat_length; lia|]. right. exists new. cbn [ms_arr ms_off ms_len]. split; [exact EN|]. split; [lia|].
        unfold sub, new. cbn [skipn]. rewrite app_assoc. symmetry. apply firstn_app_exact. unfold zeros. rewrite app_length, repeat_length. lia.
      * split; [cbn; lia|]. right. exists new. cbn. split; [exact EN|lia].
Qed.
