(** The writers on memory do what the writers on values do (C75). *)
From Verif Require Import Base BaseFacts Types Binary BinaryProofs Doc ModelerWrite Memory SpecMemory WriteMemory SpecWriteMemory MemoryProofs MemoryReads WriteMemoryProofs.

(** ** The loop over the data *)
(** Positions of s from lo on. *)
Definition tail_of (s : mslice) (lo : nat) (a p : nat) : Prop := a = ms_arr s /\ (ms_off s + lo <= p < ms_off s + ms_len s)%nat.
Lemma Write_length b stride d b' : Write b stride d = Ok b' -> List.length b' = List.length b.
Proof.
  unfold Write. destruct (TypeOf d) as [[[c t] n]|e|]; cbn [bind]; try discriminate. destruct (n =? 0); [intros [= <-]; reflexivity|]. destruct (_ <? _); [discriminate|].
  assert (LOOP : forall e vs b i b', write_loop c t b e i vs = Ok b' -> List.length b' = List.length b).
  { intros e. induction vs as [|v vs IH]; intros b0 i b1 E; cbn [write_loop] in E; [congruence|]. apply bind_Ok in E. destruct E as (b2 & E2 & E). rewrite (IH _ _ _ E). clear -E2.
    unfold put_elem in E2. destruct (_ && _); [|discriminate]. revert b0 b2 E2. generalize (put_offsets c t). induction l as [|[o [r k]] l IH]; intros b0 b2 E; cbn [put_all] in E; [congruence|].
    apply bind_Ok in E. destruct E as (x & _ & E). apply bind_Ok in E. destruct E as (b3 & E3 & E). rewrite (IH _ _ E). unfold store in E3. destruct (_ && _) eqn:B; [|discriminate]. injection E3 as <-.
    apply overwrite_length. rewrite le_bytes_length. unfold zlen in B. pose proof (ByteSize_nonneg c). lia. }
  destruct (sk d) as [c0 t0| | | |]; try apply LOOP. destruct c0; try apply LOOP. destruct t0; try apply LOOP.
  intros [= <-]. unfold copy. rewrite app_length, firstn_length, skipn_length. lia.
Qed.
Lemma SizeOfElement_nonneg c t : 0 <= SizeOfElement c t.
Proof. destruct c, t; cbn; lia. Qed.

Lemma write_data_loop_spec s stride lo data : forall h b dataOffset,
  holds h s b -> Z.of_nat lo <= dataOffset -> Forall (fun d => exists v, src_ok h (tail_of s lo) d v) data ->
  let out := write_data_loop_m s stride dataOffset data h in
  chg (tail_of s lo) h (fst out) /\
  match write_data_loop b stride dataOffset (map (src_value h) data) with
  | Ok b' => snd out = Ok tt /\ holds (fst out) s b'
  | Err e => snd out = Err e
  | Panic => snd out = Panic
  end.
Proof.
  induction data as [|d data IH]; intros h b off H Hlo HD; cbn zeta; cbn [write_data_loop_m write_data_loop map].
  - split; [apply chg_refl|]. split; [reflexivity|exact H].
  - apply Forall_cons_iff in HD; destruct HD as [(dv & Hd) HD']. pose proof H as (L & _). unfold slice_from, zlen. rewrite L. destruct (_ && _) eqn:B; cbn [bind]; [|split; [apply chg_refl|reflexivity]].
    set (o := Z.to_nat off) in *. set (w := mkMs (ms_arr s) (ms_off s + o) (ms_len s - o) (ms_cap s - o)).
    assert (Hw : holds h w (skipn o b)).
    { apply holds_bytes. apply holds_bytes in H. destruct H as [_ H]. split; [rewrite skipn_length; cbn; lia|]. intros i x E. rewrite nth_error_skipn' in E. specialize (H _ _ E). cbn [w ms_arr ms_off]. rewrite <- H. f_equal. lia. }
    assert (WT : forall a p, range w a p -> tail_of s lo a p).
    { intros a p [-> Q]. cbn [w ms_arr ms_off ms_len] in Q. split; [reflexivity|]. lia. }
    assert (OWN : forall a p, range w a p -> range s a p).
    { intros a p [-> Q]. cbn [w ms_arr ms_off ms_len] in Q. split; [reflexivity|]. lia. }
    pose proof (Write_wrote h w (skipn o b) stride d dv Hw (src_ok_mono _ _ _ _ _ Hd WT)) as [C P].
    destruct (Write_m w stride d h) as [h1 r1] eqn:EW. cbn [fst snd] in C, P.
    assert (C' : chg (tail_of s lo) h h1) by (eapply chg_mono; [exact WT|exact C]).
    assert (SV : forall d' v', src_ok h (tail_of s lo) d' v' -> src_value h1 d' = src_value h d') by (intros d' v' Q; eapply src_value_kept; [exact Q|exact (proj1 C')]).
    assert (NEXT : forall b1, (r1 = Ok tt \/ exists e, r1 = Err e) -> holds h1 s b1 ->
      let out := (let (h', r) := (h1, r1) in match r with Panic => (h', Panic) | _ => ('(c, a, _) <~~ ret (TypeOf (src_value h' d)) ;; write_data_loop_m s stride (off + SizeOfElement c a) data) h' end) in
      chg (tail_of s lo) h (fst out) /\
      match ('(c, a, _) <- TypeOf (src_value h d) ;; write_data_loop b1 stride (off + SizeOfElement c a) (map (src_value h) data)) with
      | Ok b' => snd out = Ok tt /\ holds (fst out) s b' | Err e => snd out = Err e | Panic => snd out = Panic end).
    { intros b1 Hr H1. cbn zeta. assert (R1 : (match r1 with Panic => (h1, Panic) | _ => ('(c, a, _) <~~ ret (TypeOf (src_value h1 d)) ;; write_data_loop_m s stride (off + SizeOfElement c a) data) h1 end) = ('(c, a, _) <~~ ret (TypeOf (src_value h1 d)) ;; write_data_loop_m s stride (off + SizeOfElement c a) data) h1) by (destruct Hr as [->|[e ->]]; reflexivity).
      rewrite R1. rewrite (SV _ _ Hd). unfold bindm, ret. destruct (TypeOf (src_value h d)) as [[[c t] n]|e|]; cbn [bind]; [|split; [exact C'|reflexivity]|split; [exact C'|reflexivity]].
      assert (HD1 : Forall (fun d => exists v, src_ok h1 (tail_of s lo) d v) data).
      { eapply Forall_impl; [|exact HD']. intros d' (v' & Q). exists v'. eapply src_ok_kept; [exact Q|exact (proj1 C')|auto]. }
      pose proof (SizeOfElement_nonneg c t). specialize (IH h1 b1 (off + SizeOfElement c t) H1 ltac:(lia) HD1). cbn zeta in IH. destruct IH as [C2 P2].
      replace (map (src_value h) data) with (map (src_value h1) data); [split; [eapply chg_trans; eassumption|exact P2]|].
      apply map_ext_in. intros d' I. rewrite Forall_forall in HD'. destruct (HD' _ I) as (v' & Q). exact (SV _ _ Q). }
    destruct (Write (skipn o b) stride (src_value h d)) as [t'|e|] eqn:EV; cbn [bind].
    + destruct P as [-> Hw1]. apply NEXT; [left; reflexivity|]. pose proof (Write_length _ _ _ _ EV) as LT. rewrite skipn_length in LT.
      apply holds_bytes. split; [rewrite overwrite_length; lia|]. intros i x Ex. rewrite nth_error_overwrite in Ex by lia. destruct ((o <=? i)%nat && (i <? o + List.length t')%nat) eqn:B2.
      * apply holds_bytes in Hw1. destruct Hw1 as [_ Hw1]. specialize (Hw1 _ _ Ex). cbn [w ms_arr ms_off] in Hw1. rewrite <- Hw1. f_equal. lia.
      * apply holds_bytes in H. destruct H as [_ H]. apply (proj1 C); [apply H; exact Ex|]. intros [_ Q]. cbn [w ms_off ms_len] in Q. assert (i < List.length b)%nat by (apply nth_error_Some; congruence). lia.
    + injection P as -> ->. apply NEXT; [right; eexists; reflexivity|exact H].
    + rewrite P. split; [exact C'|reflexivity].
Qed.

(** ** The document *)
Lemma Forall2_nth {A B} (P : A -> B -> Prop) l1 l2 : Forall2 P l1 l2 -> forall i a, nth_error l1 i = Some a -> exists b, nth_error l2 i = Some b /\ P a b.
Proof. induction 1; intros [|i] a0 E; cbn in *; try discriminate; [injection E as <-; eauto|eauto]. Qed.
Lemma Forall2_set {A B} (P : A -> B -> Prop) l1 l2 a b : Forall2 P l1 l2 -> P a b -> forall n, Forall2 P (set_nth n a l1) (set_nth n b l2).
Proof. intros H HP. induction H; intros [|n]; cbn; constructor; auto. Qed.
Lemma Forall2_len {A B} (P : A -> B -> Prop) l1 l2 : Forall2 P l1 l2 -> List.length l1 = List.length l2.
Proof. induction 1; cbn; congruence. Qed.
Lemma index_last {A} (l : list A) : index l (zlen l - 1) = match nth_error l (List.length l - 1) with Some a => Ok a | None => Panic end.
Proof.
  unfold index, zlen. destruct l as [|x l]; [reflexivity|]. set (l' := x :: l). assert (L : (1 <= List.length l')%nat) by (subst l'; cbn; lia).
  replace (_ && _) with true by lia. replace (Z.to_nat (Z.of_nat (List.length l') - 1)) with (List.length l' - 1)%nat by lia. reflexivity.
Qed.

Section Doc.
Context (h0 : list bytes) (P0 : nat -> nat -> Prop).
Definition new_or (a p : nat) : Prop := P0 a p \/ (List.length h0 <= a)%nat.
Record inv (h : list bytes) (doc : Document) (ds : list mslice) : Prop := mkInv {
  i_ext : chg P0 h0 h;
  i_wr : writable h doc ds;
  i_spare : forall a p, last_spare ds a p -> new_or a p
}.
(** Sources of the beginning are what they were. *)
Lemma inv_src h doc ds s : inv h doc ds -> src_ready h0 P0 s -> exists v, src_ok h (last_spare ds) s v /\ src_value h s = src_value h0 s.
Proof.
  intros [X W SP] R. unfold src_ready in R. destruct (sk_ct (src_kind s)) as [c t] eqn:Ek. destruct R as (L & (v & Hv) & N). exists v.
  assert (A : src_ok h0 P0 s v) by (unfold src_ok; rewrite Ek; auto).
  split; [|eapply src_value_kept; [exact A|exact (proj1 X)]].
  unfold src_ok. rewrite Ek. split; [exact L|]. split; [eapply holds_kept; [exact Hv|exact (proj1 X)|exact N]|].
  intros a p Q Q'. destruct (SP _ _ Q') as [Z|Z]; [exact (N _ _ Q Z)|]. destruct Hv as (Lv & [Hv|(c' & E & B & _)]); destruct Q as [-> Q]; [lia|].
  assert (ms_arr (src_at s) < List.length h0)%nat by (apply nth_error_Some; congruence). lia.
Qed.
Lemma inv_srcs h doc ds l : inv h doc ds -> Forall (src_ready h0 P0) l -> map (src_value h) l = map (src_value h0) l.
Proof. intros I F. apply map_ext_in. intros s Hs. rewrite Forall_forall in F. destruct (inv_src _ _ _ _ I (F _ Hs)) as (v & _ & E). exact E. Qed.

(** The document with another buffer at the end of the list. *)
Lemma inv_set_last h h' doc ds s s' b : inv h doc ds ->
  nth_error ds (List.length ds - 1) = Some s -> 
  kept (fun a p => spare_of s a p \/ (List.length h <= a)%nat) h h' -> sized h h' ->
  holds h' s' (buf_Data b) -> in_memory h' s' -> (ms_len s <= ms_len s')%nat ->
  ((ms_arr s' = ms_arr s /\ ms_off s' = ms_off s /\ ms_cap s' = ms_cap s) \/ ms_arr s' = List.length h) ->
  inv h' (set_lastBuffer doc b) (set_nth (List.length (doc_Buffers doc) - 1) s' ds).
Proof.
  intros [X [W1 W2 W3] SP] Es K SZ Hs' Ms' Ls' Hpos. unfold doc_loaded in W1. pose proof (Forall2_len _ _ _ W1) as LL. rewrite LL. set (n := (List.length ds - 1)%nat) in *.
  assert (LS : forall a p, spare_of s a p -> last_spare ds a p) by (intros a p Q; exists s; auto).
  assert (LD : List.length (set_nth n s' ds) = List.length ds) by apply set_nth_length.
  assert (EL : nth_error (set_nth n s' ds) n = Some s').
  { rewrite nth_error_set_nth, Nat.eqb_refl. assert (L : (n < List.length ds)%nat) by (apply nth_error_Some; congruence). apply Nat.ltb_lt in L. rewrite L. reflexivity. }
  assert (LS' : forall a p, last_spare (set_nth n s' ds) a p -> spare_of s' a p) by (intros a p (x & Ex & Q); rewrite LD in Ex; fold n in Ex; rewrite EL in Ex; injection Ex as <-; exact Q).
  assert (SS : forall a p, spare_of s' a p -> spare_of s a p \/ (List.length h <= a)%nat).
  { intros a p [-> Q]. destruct Hpos as [(E1 & E2 & E3)|E1]; [left|right; lia]. split; [congruence|lia]. }
  (* data of the buffers is not where the writers append *)
  assert (OUT : forall x v, In x ds -> holds h x v -> disjoint x (fun a p => spare_of s a p \/ (List.length h <= a)%nat)).
  { intros x v I Hx a p Q [Q'|Q']; [rewrite Forall_forall in W3; exact (W3 _ I _ _ Q (LS _ _ Q'))|]. destruct Hx as (Lv & [Hv|(c' & E & B & _)]); destruct Q as [-> Q]; [lia|].
    assert (ms_arr x < List.length h)%nat by (apply nth_error_Some; congruence). lia. }
  assert (HV : forall x, In x ds -> exists v, holds h x v).
  { intros x I. apply In_nth_error in I. destruct I as [i Ei]. destruct (nth_error (doc_Buffers doc) i) as [ob|] eqn:Eb; [|apply nth_error_None in Eb; assert (i < List.length ds)%nat by (apply nth_error_Some; congruence); lia].
    destruct (Forall2_nth _ _ _ W1 _ _ Eb) as (x' & Ex' & _ & Q). rewrite Ei in Ex'. injection Ex' as <-. destruct ob as [bb|]; [eexists; exact Q|]. exists []. split; [cbn; lia|left; exact Q]. }
  split.
  - destruct X as [XK XS]. split; [|eapply sized_trans; eassumption]. intros a p x Ex N. pose proof (byte_at_lt _ _ _ _ Ex) as La. apply K; [apply XK; assumption|].
    intros [Q|Q]; [|pose proof (sized_length _ _ XS); lia]. destruct (SP _ _ (LS _ _ Q)) as [Z|Z]; [exact (N Z)|lia].
  - split.
    + unfold doc_loaded. unfold set_lastBuffer. cbn [set_doc_Buffers doc_Buffers]. rewrite LL. fold n. apply Forall2_set.
      * assert (G : forall bs xs, Forall2 (fun b s => (ms_len s <= ms_cap s)%nat /\ match b with Some b => holds h s (buf_Data b) | None => ms_len s = 0%nat end) bs xs -> (forall x, In x xs -> In x ds) ->
          Forall2 (fun b s => (ms_len s <= ms_cap s)%nat /\ match b with Some b => holds h' s (buf_Data b) | None => ms_len s = 0%nat end) bs xs).
        { intros bs xs F. induction F as [|ob x bs xs [G1 G2] F IH]; intros SUB; constructor.
          - split; [exact G1|]. destruct ob as [bb|]; [|exact G2]. eapply holds_kept; [exact G2|exact K|]. eapply OUT; [apply SUB; left; reflexivity|exact G2].
          - apply IH. intros y I. apply SUB. right. exact I. }
        apply G; [exact W1|auto].
      * split; [exact (proj1 Ms')|exact Hs'].
    + apply Forall_set_nth; [|exact Ms']. eapply Forall_impl; [|exact W2]. intros x Q. eapply in_memory_sized; [exact Q|exact SZ].
    + apply Forall_forall. intros x Ix. apply In_nth_error in Ix. destruct Ix as [i Ei]. rewrite nth_error_set_nth in Ei. intros a p Q Q'. apply LS' in Q'.
      destruct (Nat.eqb n i); [destruct (_ <? _)%nat; [|discriminate]; injection Ei as <-; destruct Q as [-> Q], Q' as [_ Q']; lia|].
      apply nth_error_In in Ei. destruct (HV _ Ei) as [v Hv]. exact (OUT _ _ Ei Hv _ _ Q (SS _ _ Q')).
  - intros a p Q. apply LS' in Q. destruct (SS _ _ Q) as [Z|Z]; [exact (SP _ _ (LS _ _ Z))|]. right. pose proof (sized_length _ _ (proj2 X)). lia.
Qed.

(** ** The functions *)
Context (spare : nat -> nat -> nat).
Definition goal {A} (out : list bytes * res ((Document * list mslice) * A)) (v : res (Document * A)) : Prop :=
  chg P0 h0 (fst out) /\
  match v with
  | Ok (doc', a) => exists ds', snd out = Ok ((strip doc', ds'), a) /\ inv (fst out) doc' ds'
  | Err e => snd out = Err e
  | Panic => snd out = Panic
  end.
Lemma goal_bind {A B} (m : mem ((Document * list mslice) * A)) (f : (Document * list mslice) * A -> mem ((Document * list mslice) * B)) h v (g : Document * A -> res (Document * B)) :
  goal (m h) v -> (forall doc a ds h', inv h' doc ds -> goal (f ((strip doc, ds), a) h') (g (doc, a))) -> goal (bindm m f h) (bind v g).
Proof.
  intros [C P] H. unfold bindm. destruct (m h) as [h' r]. cbn [fst snd] in *. destruct v as [[doc a]|e|]; cbn [bind].
  - destruct P as (ds & -> & I). apply H. exact I.
  - rewrite P. split; [exact C|reflexivity].
  - rewrite P. split; [exact C|reflexivity].
Qed.
Lemma goal_ret {A} h doc ds (a : A) : inv h doc ds -> goal (ret (Ok ((strip doc, ds), a)) h) (Ok (doc, a)).
Proof. intros I. split; [exact (i_ext _ _ _ I)|]. exists ds. split; [reflexivity|exact I]. Qed.
Lemma goal_pure {A B} h doc ds (r : res A) (f : A -> mem ((Document * list mslice) * B)) g : inv h doc ds -> (forall a, r = Ok a -> goal (f a h) (g a)) -> goal (bindm (ret r) f h) (bind r g).
Proof. intros I H. unfold bindm, ret. destruct r as [a|e|]; cbn [bind]; [apply H; reflexivity|split; [exact (i_ext _ _ _ I)|reflexivity]|split; [exact (i_ext _ _ _ I)|reflexivity]]. Qed.
Lemma goal_panic {A} h doc ds : inv h doc ds -> goal (A := A) (ret Panic h) Panic.
Proof. intros I. split; [exact (i_ext _ _ _ I)|reflexivity]. Qed.

Lemma inv_buffers h doc doc' ds : inv h doc ds -> doc_Buffers doc' = doc_Buffers doc -> inv h doc' ds.
Proof. intros [X [W1 W2 W3] SP] E. split; [exact X|split; [unfold doc_loaded in *; rewrite E; exact W1|exact W2|exact W3]|exact SP]. Qed.
Lemma lastBuffer_spec h doc ds : inv h doc ds ->
  match lastBuffer doc with
  | Ok (doc1, b) => exists ds1 s, lastBuffer_m (strip doc, ds) = Ok ((strip doc1, ds1), strip_buf b, s) /\ inv h doc1 ds1 /\
      nth_error ds1 (List.length ds1 - 1) = Some s /\ holds h s (buf_Data b) /\ in_memory h s /\ List.length (doc_Buffers doc1) = List.length ds1
  | Err e => False
  | Panic => lastBuffer_m (strip doc, ds) = Panic
  end.
Proof.
  intros I. unfold lastBuffer, lastBuffer_m. cbn [fst].
  set (doc1 := match doc_Buffers doc with [] => set_doc_Buffers [Some zero_Buffer] doc | _ => doc end).
  set (ds1 := match doc_Buffers doc with [] => [ms_nil] | _ => ds end).
  assert (E1 : match doc_Buffers (strip doc) with [] => (set_doc_Buffers [Some zero_Buffer] (strip doc), [ms_nil]) | _ => (strip doc, ds) end = (strip doc1, ds1)).
  { unfold doc1, ds1, strip. cbn [set_doc_Buffers doc_Buffers]. destruct (doc_Buffers doc) as [|ob bs] eqn:EB; [reflexivity|rewrite EB; reflexivity]. }
  rewrite E1. clear E1.
  assert (I1 : inv h doc1 ds1).
  { unfold doc1, ds1. pose proof I as [X [W1 W2 W3] SP]. unfold doc_loaded in W1. destruct (doc_Buffers doc) as [|ob bs] eqn:Eb; [|exact I]. inversion W1. subst ds.
    split; [exact X| |].
    - split; [constructor; [|constructor]; split; [cbn; lia|split; [reflexivity|left; reflexivity]]|constructor; [split; [cbn; lia|left; reflexivity]|constructor]|].
      constructor; [|constructor]. intros a p [_ Q]. cbn in Q. lia.
    - intros a p (s & E & Q). cbn in E. injection E as <-. destruct Q as [_ Q]. cbn in Q. lia. }
  clearbody doc1 ds1. pose proof I1 as [X [W1 W2 W3] SP]. unfold doc_loaded in W1. pose proof (Forall2_len _ _ _ W1) as LL.
  assert (LB : zlen (doc_Buffers (strip doc1)) = zlen (doc_Buffers doc1)) by (unfold strip, zlen; cbn [set_doc_Buffers doc_Buffers]; rewrite map_length; reflexivity).
  rewrite index_last. rewrite (index_last (doc_Buffers (strip doc1))). 
  assert (EN : nth_error (doc_Buffers (strip doc1)) (List.length (doc_Buffers (strip doc1)) - 1) = option_map (option_map strip_buf) (nth_error (doc_Buffers doc1) (List.length (doc_Buffers doc1) - 1))) by (unfold strip; cbn [set_doc_Buffers doc_Buffers]; rewrite map_length; apply nth_error_map).
  rewrite EN.
  destruct (nth_error (doc_Buffers doc1) _) as [ob|] eqn:Eb; cbn [option_map bind]; [|reflexivity]. destruct ob as [b|]; cbn [option_map deref bind]; [|reflexivity].
  destruct (Forall2_nth _ _ _ W1 _ _ Eb) as (s & Es & Q1 & Q2). rewrite LB. unfold zlen at 1. rewrite LL. fold (zlen ds1). rewrite index_last. rewrite LL in Es. rewrite Es. cbn [bind].
  exists ds1, s. split; [reflexivity|]. split; [exact I1|]. split; [exact Es|]. split; [exact Q2|]. split; [|solve [exact LL | reflexivity]]. rewrite Forall_forall in W2. apply W2. eapply nth_error_In. exact Es.
Qed.
Lemma strip_set_last doc b : set_lastBuffer (strip doc) (strip_buf b) = strip (set_lastBuffer doc b).
Proof.
  unfold set_lastBuffer, strip. cbn [set_doc_Buffers doc_Buffers]. rewrite map_length. unfold set_doc_Buffers. cbn. f_equal.
  generalize (List.length (doc_Buffers doc) - 1)%nat as n. generalize (doc_Buffers doc). induction l; intros [|n]; cbn; try reflexivity. f_equal. apply IHl.
Qed.
Lemma ensurePadding_sim h doc ds : inv h doc ds ->
  goal (bindm (ensurePadding_m spare (strip doc, ds)) (fun d => ret (Ok (d, tt))) h) (bind (ensurePadding doc) (fun d => Ok (d, tt))).
Proof.
  intros I. unfold ensurePadding_m, ensurePadding. pose proof (lastBuffer_spec h doc ds I) as LB. destruct (lastBuffer doc) as [[doc1 b]|e|]; [|destruct LB|]; cbn [bind].
  - destruct LB as (ds1 & s & E & I1 & Es & Hs & Ms & LL). unfold bindm, ret. rewrite E. pose proof Hs as (Lb & _). unfold zlen. rewrite Lb.
    set (pad := getPadding _). pose proof (append_spec spare h s (buf_Data b) pad Hs Ms) as [C P]. destruct (append_zeros_m spare s pad h) as [h1 r1]. cbn [fst snd] in C, P.
    destruct (grow (buf_Data b) pad) as [v'|e|] eqn:Eg; cbn [bind].
    + destruct P as (s' & -> & Hs' & Ms' & Ls' & Hpos). set (b' := set_buf_ByteLength (i64 (buf_ByteLength b + pad)) (set_buf_Data v' b)).
      assert (I2 : inv h1 (set_lastBuffer doc1 b') (set_nth (List.length (doc_Buffers doc1) - 1) s' ds1)).
      { eapply (inv_set_last h h1 doc1 ds1 s s' b'); try eassumption; [|exact (proj2 C)]. eapply chg_mono in C; [exact (proj1 C)|]. intros a p Q. left. exact Q. }
      split; [exact (i_ext _ _ _ I2)|]. exists (set_nth (List.length (doc_Buffers doc1) - 1) s' ds1). split; [|exact I2]. unfold set_lastBuffer_m. cbn [fst snd].
      change (set_buf_ByteLength (i64 (buf_ByteLength (strip_buf b) + pad)) (strip_buf b)) with (strip_buf b'). rewrite strip_set_last. unfold strip at 2. cbn [set_doc_Buffers doc_Buffers]. rewrite map_length. reflexivity.
    + exfalso. unfold grow in Eg. destruct (_ || _); discriminate.
    + rewrite P. split; [|reflexivity]. cbn [fst]. destruct (i_ext _ _ _ I) as [XK XS]. split; [|eapply sized_trans; [exact XS|exact (proj2 C)]].
      intros a p x Ex N. pose proof (byte_at_lt _ _ _ _ Ex). apply (proj1 C); [apply XK; assumption|]. intros Q. destruct (i_spare _ _ _ I1 a p) as [Z|Z]; [exists s; auto|exact (N Z)|lia].
  - unfold bindm, ret. rewrite LB. split; [exact (i_ext _ _ _ I)|reflexivity].
Qed.

Lemma writeBufferViews_sim h doc ds target data : inv h doc ds -> Forall (src_ready h0 P0) data ->
  goal (writeBufferViews_m spare (strip doc, ds) target data h) (writeBufferViews doc target (map (src_value h0) data)).
Proof.
  intros I HD. unfold writeBufferViews_m, writeBufferViews. rewrite (inv_srcs _ _ _ _ I HD), map_length.
  destruct (view_loop target (List.length data) 0 0 0 0 (map (src_value h0) data)) as [[[stride size]|e|]|e|]; cbn [bind];
    try (split; [exact (i_ext _ _ _ I)|reflexivity]).
  2: { split; [exact (i_ext _ _ _ I)|]. exists ds. split; [reflexivity|exact I]. }
  pose proof (lastBuffer_spec h doc ds I) as LB. destruct (lastBuffer doc) as [[doc1 b]|e|]; [|destruct LB|]; cbn [bind].
  2: { unfold bindm, ret. rewrite LB. split; [exact (i_ext _ _ _ I)|reflexivity]. }
  destruct LB as (ds1 & s & E & I1 & Es & Hs & Ms & LL). unfold bindm, ret. rewrite E. pose proof Hs as (Lb & _). assert (ZB : zlen (buf_Data b) = Z.of_nat (ms_len s)) by (unfold zlen; rewrite Lb; reflexivity). rewrite ZB.
  pose proof (append_spec spare h s (buf_Data b) size Hs Ms) as [C P]. destruct (append_zeros_m spare s size h) as [h1 r1] eqn:EA. cbn [fst snd] in C, P.
  assert (XP : forall h2, kept (fun a p => spare_of s a p \/ (List.length h <= a)%nat) h h2 -> sized h h2 -> chg P0 h0 h2).
  { intros h2 K2 S2. destruct (i_ext _ _ _ I) as [XK XS]. split; [|eapply sized_trans; eassumption].
    intros a p x Ex N. pose proof (byte_at_lt _ _ _ _ Ex). apply K2; [apply XK; assumption|]. intros [Q|Q]; [|pose proof (sized_length _ _ XS); lia]. destruct (i_spare _ _ _ I1 a p) as [Z|Z]; [exists s; auto|exact (N Z)|lia]. }
  assert (C1 : kept (fun a p => spare_of s a p \/ (List.length h <= a)%nat) h h1) by (eapply chg_mono in C; [exact (proj1 C)|intros a p Q; left; exact Q]).
  destruct (grow (buf_Data b) size) as [v'|e|] eqn:Eg; cbn [bind].
  2: { exfalso. unfold grow in Eg. destruct (_ || _); discriminate. }
  2: { rewrite P. split; [|reflexivity]. apply XP; [exact C1|exact (proj2 C)]. }
  destruct P as (s' & -> & Hs' & Ms' & Ls' & Hpos).
  assert (TS : forall a p, tail_of s' (ms_len s) a p -> spare_of s a p \/ (List.length h <= a)%nat).
  { intros a p [-> Q]. destruct Hpos as [(E1 & E2 & E3)|E1]; [left|right; lia]. split; [congruence|]. destruct Ms' as [Q2 _]. lia. }
  assert (LSP : forall a p, spare_of s a p -> last_spare ds1 a p) by (intros a p Q; exists s; auto).
  assert (SRC : Forall (fun d => exists v, src_ok h1 (tail_of s' (ms_len s)) d v) data).
  { eapply Forall_impl; [|exact HD]. intros d Rd. destruct (inv_src _ _ _ _ I1 Rd) as (v & Q & _). exists v.
    assert (Q' : src_ok h (fun a p => spare_of s a p \/ (List.length h <= a)%nat) d v).
    { unfold src_ok in *. destruct (sk_ct (src_kind d)) as [c t]. destruct Q as (L & H & N). split; [exact L|]. split; [exact H|]. intros a p R [R'|R']; [exact (N _ _ R (LSP _ _ R'))|].
      destruct H as (Lv & [H|(c' & Ec & B & _)]); destruct R as [-> R]; [lia|]. assert (ms_arr (src_at d) < List.length h)%nat by (apply nth_error_Some; congruence). lia. }
    eapply src_ok_mono; [eapply src_ok_kept; [exact Q'|exact C1|auto]|exact TS]. }
  pose proof (write_data_loop_spec s' stride (ms_len s) data h1 v' (Z.of_nat (ms_len s)) Hs' ltac:(lia) SRC) as [CL PL].
  destruct (write_data_loop_m s' stride (Z.of_nat (ms_len s)) data h1) as [h2 r2]. cbn [fst snd] in CL, PL.
  assert (SV : map (src_value h1) data = map (src_value h0) data).
  { rewrite <- (inv_srcs _ _ _ _ I1 HD). apply map_ext_in. intros d Id. rewrite Forall_forall in HD. destruct (inv_src _ _ _ _ I1 (HD _ Id)) as (v & Q & _).
    eapply src_value_kept; [exact Q|]. intros a p x Ex N. apply C; [exact Ex|]. intros Z. exact (N (LSP _ _ Z)). }
  rewrite SV in PL.
  assert (K2 : kept (fun a p => spare_of s a p \/ (List.length h <= a)%nat) h h2).
  { intros a p x Ex N. apply (proj1 CL); [apply C1; assumption|]. intros Q. exact (N (TS _ _ Q)). }
  assert (S2 : sized h h2) by (eapply sized_trans; [exact (proj2 C)|exact (proj2 CL)]).
  destruct (write_data_loop v' stride (Z.of_nat (ms_len s)) (map (src_value h0) data)) as [v2|e|]; cbn [bind].
  - destruct PL as [-> Hv2]. set (b' := set_buf_Data v2 (set_buf_ByteLength (i64 (buf_ByteLength b + size)) b)).
    assert (I2 : inv h2 (set_lastBuffer doc1 b') (set_nth (List.length (doc_Buffers doc1) - 1) s' ds1)).
    { eapply (inv_set_last h h2 doc1 ds1 s s' b'); try eassumption. eapply in_memory_sized; [exact Ms'|exact (proj2 CL)]. }
    split; [exact (i_ext _ _ _ I2)|]. exists (set_nth (List.length (doc_Buffers doc1) - 1) s' ds1).
    split; [|eapply inv_buffers; [exact I2|reflexivity]].
    unfold set_lastBuffer_m. cbn [fst snd]. change (set_buf_ByteLength (i64 (buf_ByteLength (strip_buf b) + size)) (strip_buf b)) with (strip_buf b'). rewrite strip_set_last.
    assert (LN : List.length (doc_Buffers (strip doc1)) = List.length (doc_Buffers doc1)) by (unfold strip; cbn [set_doc_Buffers doc_Buffers]; apply map_length).
    rewrite LN. set (doc2 := set_lastBuffer doc1 b').
    assert (ZN : zlen (doc_Buffers (strip doc2)) = zlen (doc_Buffers doc2)) by (unfold zlen, strip; cbn [set_doc_Buffers doc_Buffers]; rewrite map_length; reflexivity).
    rewrite ZN. reflexivity.
  - rewrite PL. split; [|reflexivity]. apply XP; assumption.
  - rewrite PL. split; [|reflexivity]. apply XP; assumption.
Qed.
Lemma WriteBufferView_sim h doc ds target d : inv h doc ds -> src_ready h0 P0 d ->
  goal (WriteBufferView_m spare (strip doc, ds) target d h) (WriteBufferView doc target (src_value h0 d)).
Proof.
  intros I HD. unfold WriteBufferView_m, WriteBufferView. eapply goal_bind; [apply (writeBufferViews_sim h doc ds target [d] I); constructor; [exact HD|constructor]|].
  intros doc1 r ds1 h1 I1. destruct r; [apply goal_ret; exact I1|apply goal_ret; exact I1|eapply goal_panic; exact I1].
Qed.
(** Continuations after ensurePadding, which returns a document only. *)
Lemma padding_bind {B} h doc ds (f : Document * list mslice -> mem ((Document * list mslice) * B)) g : inv h doc ds ->
  (forall doc1 ds1 h1, inv h1 doc1 ds1 -> goal (f (strip doc1, ds1) h1) (g doc1)) ->
  goal (bindm (ensurePadding_m spare (strip doc, ds)) f h) (bind (ensurePadding doc) g).
Proof.
  intros I H. pose proof (ensurePadding_sim h doc ds I) as [C P]. unfold bindm in *. destruct (ensurePadding_m spare (strip doc, ds) h) as [h1 r]. unfold ret in C, P.
  destruct (ensurePadding doc) as [doc1|e|]; cbn [bind] in *; destruct r as [d|e'|]; cbn [fst snd] in *.
  - destruct P as (ds1 & E & I1). injection E as ->. apply H. exact I1.
  - destruct P as (ds1 & E & _). discriminate.
  - destruct P as (ds1 & E & _). discriminate.
  - discriminate.
  - injection P as ->. split; [exact C|reflexivity].
  - discriminate.
  - discriminate.
  - discriminate.
  - split; [exact C|reflexivity].
Qed.
Lemma WriteAccessor_sim h doc ds target d : inv h doc ds -> src_ready h0 P0 d ->
  goal (WriteAccessor_m spare (strip doc, ds) target d h) (WriteAccessor doc target (src_value h0 d)).
Proof.
  intros I HD. unfold WriteAccessor_m, WriteAccessor. apply padding_bind; [exact I|]. intros doc1 ds1 h1 I1. eapply goal_bind; [apply WriteBufferView_sim; eassumption|].
  intros doc2 i ds2 h2 I2. destruct (inv_src _ _ _ _ I2 HD) as (v & _ & ->). eapply goal_pure; [exact I2|]. intros [[c t] n] _. cbn [fst snd].
  apply (goal_ret h2 (add_accessor doc2 (new_accessor i 0 c t n)) ds2). eapply inv_buffers; [exact I2|reflexivity].
Qed.
Lemma accessors_loop_strip data : forall doc bv off, accessors_loop (strip doc) bv off data = ('(doc', l) <- accessors_loop doc bv off data ;; Ok (strip doc', l)).
Proof.
  induction data as [|d data IH]; intros doc bv off; cbn [accessors_loop]; [reflexivity|]. destruct (TypeOf d) as [[[c t] n]|e|]; cbn [bind]; try reflexivity.
  change (add_accessor (strip doc) (new_accessor bv off c t n)) with (strip (add_accessor doc (new_accessor bv off c t n))). rewrite IH.
  destruct (accessors_loop _ bv _ data) as [[doc' l]|e|]; reflexivity.
Qed.
Lemma accessors_loop_buffers data : forall doc bv off doc' l, accessors_loop doc bv off data = Ok (doc', l) -> doc_Buffers doc' = doc_Buffers doc.
Proof.
  induction data as [|d data IH]; intros doc bv off doc' l E; cbn [accessors_loop] in E; [congruence|]. apply bind_Ok in E. destruct E as ([[c t] n] & _ & E). apply bind_Ok in E. destruct E as ([doc1 l1] & E1 & E). injection E as <- <-.
  rewrite (IH _ _ _ _ _ E1). reflexivity.
Qed.
Lemma WriteAccessorsInterleaved_sim h doc ds data : inv h doc ds -> Forall (src_ready h0 P0) data ->
  goal (WriteAccessorsInterleaved_m spare (strip doc, ds) data h) (WriteAccessorsInterleaved doc (map (src_value h0) data)).
Proof.
  intros I HD. unfold WriteAccessorsInterleaved_m, WriteAccessorsInterleaved. apply padding_bind; [exact I|]. intros doc1 ds1 h1 I1. eapply goal_bind; [apply writeBufferViews_sim; eassumption|].
  intros doc2 r ds2 h2 I2. destruct r as [i|e|]; [|apply goal_ret; exact I2|eapply goal_panic; exact I2].
  rewrite (inv_srcs _ _ _ _ I2 HD). cbn [fst snd]. rewrite accessors_loop_strip. unfold bindm, ret. destruct (accessors_loop doc2 i 0 _) as [[doc3 l]|e|] eqn:E; cbn [bind]; try (split; [exact (i_ext _ _ _ I2)|reflexivity]).
  apply (goal_ret h2 doc3 ds2). eapply inv_buffers; [exact I2|eapply accessors_loop_buffers; exact E].
Qed.
Lemma update_strip doc i f : update_accessor (strip doc) i f = (d <- update_accessor doc i f ;; Ok (strip d)).
Proof.
  unfold update_accessor. change (doc_Accessors (strip doc)) with (doc_Accessors doc). destruct (index _ i) as [a|e|]; cbn [bind]; try reflexivity. destruct (deref a) as [a'|e|]; cbn [bind]; try reflexivity.
  destruct (set_index _ _ _) as [l|e|]; reflexivity.
Qed.
Lemma update_buffers doc i f doc' : update_accessor doc i f = Ok doc' -> doc_Buffers doc' = doc_Buffers doc.
Proof. unfold update_accessor. intros E. apply bind_Ok in E. destruct E as (a & _ & E). apply bind_Ok in E. destruct E as (a' & _ & E). apply bind_Ok in E. destruct E as (l & _ & E). injection E as <-. reflexivity. Qed.
Lemma update_bind {B} h doc ds i fa (f : Document * list mslice -> mem ((Document * list mslice) * B)) g : inv h doc ds ->
  (forall doc1, inv h doc1 ds -> goal (f (strip doc1, ds) h) (g doc1)) ->
  goal (bindm (update_accessor_m (strip doc, ds) i fa) f h) (bind (update_accessor doc i fa) g).
Proof.
  intros I H. unfold update_accessor_m. cbn [fst snd]. rewrite update_strip. unfold bindm, ret. destruct (update_accessor doc i fa) as [doc1|e|] eqn:E; cbn [bind]; try (split; [exact (i_ext _ _ _ I)|reflexivity]).
  apply H. eapply inv_buffers; [exact I|eapply update_buffers; exact E].
Qed.
Lemma write_normalized_sim check h doc ds d : inv h doc ds -> src_ready h0 P0 d ->
  goal (write_normalized_m spare check (strip doc, ds) d h) (write_normalized check doc (src_value h0 d)).
Proof.
  intros I HD. unfold write_normalized_m, write_normalized. destruct (inv_src _ _ _ _ I HD) as (v & _ & ->). eapply goal_pure; [exact I|]. intros nz _.
  eapply goal_bind; [apply WriteAccessor_sim; eassumption|]. intros doc1 i ds1 h1 I1. apply update_bind; [exact I1|]. intros doc2 I2. apply goal_ret. exact I2.
Qed.
Lemma WriteJoints_sim h doc ds d : inv h doc ds -> src_ready h0 P0 d -> goal (WriteJoints_m spare (strip doc, ds) d h) (WriteJoints doc (src_value h0 d)).
Proof.
  intros I HD. unfold WriteJoints_m, WriteJoints. destruct (inv_src _ _ _ _ I HD) as (v & _ & ->). eapply goal_pure; [exact I|]. intros nz _. apply WriteAccessor_sim; assumption.
Qed.
Lemma WriteIndices_sim h doc ds d : inv h doc ds -> src_ready h0 P0 d -> goal (WriteIndices_m spare (strip doc, ds) d h) (WriteIndices doc (src_value h0 d)).
Proof.
  intros I HD. unfold WriteIndices_m, WriteIndices. assert (E : sk (src_value h0 d) = src_kind d) by (unfold src_value; destruct (sk_ct (src_kind d)); reflexivity). rewrite E.
  destruct (src_kind d) as [c t| | | |]; try (eapply goal_panic; exact I). destruct c; try (eapply goal_panic; exact I); destruct t; try (eapply goal_panic; exact I); apply WriteAccessor_sim; assumption.
Qed.
Lemma src_value_eta k n s : src_value h0 (mkSrc k n s) = mkSlice k (els (src_value h0 (mkSrc k n s))).
Proof. unfold src_value. cbn [src_kind]. destruct (sk_ct k). reflexivity. Qed.
Lemma WritePosition_sim h doc ds n s : inv h doc ds -> src_ready h0 P0 (mkSrc (SK CFloat AVec3) n s) ->
  goal (WritePosition_m spare (strip doc, ds) n s h) (WritePosition doc (els (src_value h0 (mkSrc (SK CFloat AVec3) n s)))).
Proof.
  intros I HD. unfold WritePosition_m, WritePosition. rewrite <- src_value_eta. eapply goal_bind; [apply WriteAccessor_sim; eassumption|]. intros doc1 i ds1 h1 I1.
  destruct (inv_src _ _ _ _ I1 HD) as (v & _ & ->). destruct (minMaxFloat32 _) as [mn mx]. apply update_bind; [exact I1|]. intros doc2 I2. apply update_bind; [exact I2|]. intros doc3 I3. apply goal_ret. exact I3.
Qed.
Lemma b2z_le_val b : le_val [b] = b2z b.
Proof. cbn [le_val]. lia. Qed.
Lemma ubyte_elems v n : n = List.length v -> mem_elems CUbyte AScalar v n = map (fun b => [b2z b]) v.
Proof.
  intros ->. apply nth_error_ext. intros i. unfold mem_elems. rewrite !nth_error_map. destruct (nth_error v i) as [x|] eqn:E.
  - assert (Li : (i < List.length v)%nat) by (apply nth_error_Some; congruence).
    rewrite (nth_error_nth' _ 0%nat) by (rewrite seq_length; exact Li). rewrite seq_nth by exact Li. cbn [option_map]. f_equal.
    unfold mem_elem. change (Z.to_nat (Components AScalar)) with 1%nat. cbn [seq map]. change (Z.to_nat (ByteSize CUbyte * Components AScalar)) with 1%nat. change (Z.to_nat (ByteSize CUbyte)) with 1%nat. cbn [Nat.add].
    replace (sub v _ 1) with [x]; [rewrite b2z_le_val; reflexivity|]. apply nth_error_ext. intros j. rewrite nth_error_sub. destruct j as [|j]; cbn [nth_error Nat.ltb Nat.leb]; [rewrite <- E; f_equal; lia|]. destruct j; reflexivity.
  - apply nth_error_None in E. rewrite (proj2 (nth_error_None _ _)); [reflexivity|rewrite seq_length; exact E].
Qed.
Lemma WriteImage_sim h doc ds name mime r : inv h doc ds -> match r with Ok s => src_ready h0 P0 (mkSrc (SK CUbyte AScalar) (ms_len s) s) | _ => True end ->
  goal (WriteImage_m spare (strip doc, ds) name mime r h) (WriteImage doc name mime (match r with Ok s => Ok (peek h0 s) | Err e => Err e | Panic => Panic end)).
Proof.
  intros I HD. unfold WriteImage_m, WriteImage. destruct r as [s|e|]; [|apply goal_ret; exact I|eapply goal_panic; exact I].
  assert (E : mkSlice (SK CUbyte AScalar) (map (fun b => [b2z b]) (peek h0 s)) = src_value h0 (mkSrc (SK CUbyte AScalar) (ms_len s) s)).
  { unfold src_value. cbn [src_kind sk_ct src_at src_count]. rewrite ubyte_elems; [reflexivity|]. destruct HD as (_ & (v & Hv) & _). cbn [src_at] in Hv. rewrite (peek_holds _ _ _ Hv). symmetry. exact (proj1 Hv). }
  rewrite E. eapply goal_bind; [apply WriteBufferView_sim; eassumption|]. intros doc1 i ds1 h1 I1. cbn [fst snd].
  set (doc2 := set_doc_Images (doc_Images doc1 ++ [Some (set_img_Name name (set_img_MimeType mime (set_img_BufferView (Some i) zero_Image)))]) doc1).
  apply (goal_ret h1 doc2 ds1). eapply inv_buffers; [exact I1|reflexivity].
Qed.
Lemma set_props_strip indices : forall doc props attrs, set_props_loop (strip doc) indices props attrs = ('(doc', l) <- set_props_loop doc indices props attrs ;; Ok (strip doc', l)).
Proof.
  induction indices as [|i indices IH]; intros doc props attrs; cbn [set_props_loop]; [reflexivity|]. destruct props as [|[nm nz] props]; [reflexivity|]. rewrite update_strip.
  destruct (update_accessor doc i _) as [doc1|e|]; cbn [bind]; try reflexivity. apply IH.
Qed.
Lemma set_props_buffers indices : forall doc props attrs doc' l, set_props_loop doc indices props attrs = Ok (doc', l) -> doc_Buffers doc' = doc_Buffers doc.
Proof.
  induction indices as [|i indices IH]; intros doc props attrs doc' l E; cbn [set_props_loop] in E; [congruence|]. destruct props as [|[nm nz] props]; [discriminate|]. apply bind_Ok in E. destruct E as (doc1 & E1 & E).
  rewrite (IH _ _ _ _ _ E). eapply update_buffers. exact E1.
Qed.
Lemma attrs_loop_data attr : forall data props mm data' props' mm', attrs_loop (map (attr_value h0) attr) data props mm = Ok (data', props', mm') -> data' = data ++ map (src_value h0) (attr_data attr).
Proof.
  induction attr as [|a attr IH]; intros data props mm data' props' mm' E; cbn [map attrs_loop attr_data] in E |- *; [injection E as <- _ _; symmetry; apply app_nil_r|].
  apply bind_Ok in E. destruct E as (n & En & E). unfold attr_value at 1 in E. unfold attr_value in En. cbn [attr_Data] in E, En. destruct (ma_data a) as [s|]; cbn [option_map] in E, En; [|exact (IH _ _ _ _ _ _ E)].
  assert (Hn : n = Z.of_nat (src_count s)).
  { unfold sliceLength in En. unfold src_value in En. destruct (sk_ct (src_kind s)) as [c t]. cbn [sk els] in En. destruct (src_kind s); try discriminate; injection En as <-; unfold zlen; rewrite mem_elems_length; reflexivity. }
  destruct (src_count s =? 0)%nat eqn:E0.
  - apply Nat.eqb_eq in E0. replace (n =? 0) with true in E by lia. exact (IH _ _ _ _ _ _ E).
  - apply Nat.eqb_neq in E0. replace (n =? 0) with false in E by lia. apply bind_Ok in E. destruct E as ([nz mm1] & _ & E). rewrite (IH _ _ _ _ _ _ E). cbn [map]. rewrite <- app_assoc. reflexivity.
Qed.
Lemma attr_data_ready attr : Forall (src_ready h0 P0) (List.concat (map (fun x => match ma_data x with Some s => [s] | None => [] end) attr)) -> Forall (src_ready h0 P0) (attr_data attr).
Proof.
  induction attr as [|a attr IH]; cbn; [auto|]. intros H. apply Forall_app in H. destruct H as [H1 H2]. destruct (ma_data a) as [s|]; [|auto]. destruct (_ =? _)%nat; [auto|]. constructor; [inversion H1; assumption|auto].
Qed.
Lemma WritePrimitiveAttributes_sim h doc ds attr : inv h doc ds -> Forall (src_ready h0 P0) (List.concat (map (fun x => match ma_data x with Some s => [s] | None => [] end) attr)) ->
  goal (WritePrimitiveAttributes_m spare (strip doc, ds) attr h) (WritePrimitiveAttributes doc (map (attr_value h0) attr)).
Proof.
  intros I HD. unfold WritePrimitiveAttributes_m, WritePrimitiveAttributes.
  assert (EA : map (attr_value h) attr = map (attr_value h0) attr).
  { clear -I HD. induction attr as [|a attr IH]; [reflexivity|]. cbn [map List.concat] in *. apply Forall_app in HD. destruct HD as [H1 H2]. rewrite (IH H2). f_equal. unfold attr_value. f_equal. destruct (ma_data a) as [s|]; [|reflexivity]. cbn [option_map]. f_equal.
    inversion H1 as [|? ? Q _]. subst. destruct (inv_src _ _ _ _ I Q) as (v & _ & E). exact E. }
  rewrite EA. destruct (attrs_loop (map (attr_value h0) attr) [] [] _) as [[[data props] [mn mx]]|e|] eqn:EL; [|apply goal_ret; exact I|eapply goal_panic; exact I].
  rewrite (attrs_loop_data _ _ _ _ _ _ _ EL). cbn [app]. eapply goal_bind; [apply WriteAccessorsInterleaved_sim; [exact I|apply attr_data_ready; exact HD]|].
  intros doc1 r ds1 h1 I1. destruct r as [indices|e|]; [|apply goal_ret; exact I1|eapply goal_panic; exact I1]. cbn [fst snd]. rewrite set_props_strip. unfold bindm at 1, ret at 1.
  destruct (set_props_loop doc1 indices props []) as [[doc2 attrs]|e|] eqn:ES; cbn [bind]; try (split; [exact (i_ext _ _ _ I1)|reflexivity]).
  assert (I2 : inv h1 doc2 ds1) by (eapply inv_buffers; [exact I1|eapply set_props_buffers; exact ES]).
  destruct (map_get "POSITION" attrs) as [pos|]; [|apply goal_ret; exact I2]. apply update_bind; [exact I2|]. intros doc3 I3. apply update_bind; [exact I3|]. intros doc4 I4. apply goal_ret. exact I4.
Qed.

(** ** Calls *)
Definition goal1 (out : list bytes * res (Document * list mslice)) (v : res Document) : Prop :=
  chg P0 h0 (fst out) /\
  match v with
  | Ok doc' => exists ds', snd out = Ok (strip doc', ds') /\ inv (fst out) doc' ds'
  | Err e => snd out = Err e
  | Panic => snd out = Panic
  end.
Lemma goal_fst {A} (m : mem ((Document * list mslice) * A)) h v : goal (m h) v -> goal1 (fst_m m h) (fst_res v).
Proof.
  intros [C P]. unfold fst_m, fst_res, bindm, ret. destruct (m h) as [h1 r]. cbn [fst snd] in *. destruct v as [[doc a]|e|]; cbn [bind].
  - destruct P as (ds & -> & I). split; [exact C|]. exists ds. split; [reflexivity|exact I].
  - rewrite P. split; [exact C|reflexivity].
  - rewrite P. split; [exact C|reflexivity].
Qed.
Lemma run_op_sim h doc ds op : inv h doc ds -> Forall (src_ready h0 P0) (op_sources op) -> goal1 (run_op_m spare (strip doc, ds) op h) (run_op doc (op_value h0 op)).
Proof.
  intros I HS. destruct op; cbn [op_sources] in HS; cbn [run_op_m run_op op_value];
    try (assert (HD := Forall_inv HS)); apply goal_fst.
  - apply WriteIndices_sim; assumption.
  - unfold WriteNormal_m, WriteNormal. rewrite <- src_value_eta. apply WriteAccessor_sim; assumption.
  - unfold WriteTangent_m, WriteTangent. rewrite <- src_value_eta. apply WriteAccessor_sim; assumption.
  - apply write_normalized_sim; assumption.
  - apply write_normalized_sim; assumption.
  - apply WriteJoints_sim; assumption.
  - unfold WriteInverseBindMatrices_m, WriteInverseBindMatrices. rewrite <- src_value_eta. apply WriteAccessor_sim; assumption.
  - apply WritePosition_sim; assumption.
  - apply write_normalized_sim; assumption.
  - apply WriteImage_sim; [assumption|]. destruct r; [inversion HS; assumption|exact Logic.I|exact Logic.I].
  - apply WriteAccessor_sim; assumption.
  - apply WriteAccessorsInterleaved_sim; assumption.
  - apply WritePrimitiveAttributes_sim; assumption.
  - apply WriteBufferView_sim; assumption.
  - apply writeBufferViews_sim; assumption.
Qed.
Lemma run_ops_sim ops : forall h doc ds, inv h doc ds -> Forall (fun op => Forall (src_ready h0 P0) (op_sources op)) ops ->
  goal1 (run_ops_m spare (strip doc, ds) ops h) (run_ops doc (map (op_value h0) ops)).
Proof.
  induction ops as [|op ops IH]; intros h doc ds I HS; cbn [run_ops_m run_ops map].
  - split; [exact (i_ext _ _ _ I)|]. exists ds. split; [reflexivity|exact I].
  - apply Forall_cons_iff in HS. destruct HS as [H1 H2]. pose proof (run_op_sim h doc ds op I H1) as [C P]. unfold bindm. destruct (run_op_m spare (strip doc, ds) op h) as [h1 r]. cbn [fst snd] in *.
    destruct (run_op doc (op_value h0 op)) as [doc1|e|]; cbn [bind].
    + destruct P as (ds1 & -> & I1). apply IH; assumption.
    + rewrite P. split; [exact C|reflexivity].
    + rewrite P. split; [exact C|reflexivity].
Qed.
End Doc.
