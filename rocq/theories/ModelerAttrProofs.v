(** Proofs about modeler/write.go: POSITION bounds, primitive attributes,
    failing writes. *)
From Verif Require Import BaseFacts Types Binary SpecLayout BinaryProofs SliceProofs Doc F64 F64Facts SpecDoc
  ModelerWrite ModelerRead ModelerWriteProofs ModelerReadProofs ModelerLayoutProofs ModelerShapeProofs.

(** ** minMaxFloat32 *)
Lemma minmax_step_nth f acc v j :
  List.length acc = 3%nat -> List.length v = 3%nat -> (j < 3)%nat ->
  nth j (minmax_step f acc v) 0 = f (nth j acc 0) (f64_of_f32 (nth j v 0)).
Proof.
  intros Ha Hv Hj. destruct acc as [|a [|b [|c [|]]]]; try discriminate.
  destruct v as [|x [|y [|z [|]]]]; try discriminate.
  destruct j as [|[|[|]]]; [reflexivity|reflexivity|reflexivity|lia].
Qed.

Lemma minmax_step_length f acc v :
  List.length acc = 3%nat -> List.length v = 3%nat -> List.length (minmax_step f acc v) = 3%nat.
Proof. intros Ha Hv. unfold minmax_step. rewrite map_length, combine_length. lia. Qed.

Lemma fold_minmax_nth f data : forall acc j,
  List.length acc = 3%nat -> Forall (fun v => List.length v = 3%nat) data -> (j < 3)%nat ->
  List.length (fold_left (minmax_step f) data acc) = 3%nat /\
  nth j (fold_left (minmax_step f) data acc) 0 =
  fold_left f (map (fun v => f64_of_f32 (nth j v 0)) data) (nth j acc 0).
Proof.
  induction data as [|v data IH]; intros acc j Ha HF Hj; cbn [fold_left map]; [auto|].
  inversion HF as [|? ? Hv HF']; subst.
  destruct (IH (minmax_step f acc v) j (minmax_step_length f _ _ Ha Hv) HF' Hj) as [L N].
  split; auto. rewrite N, minmax_step_nth by auto. reflexivity.
Qed.

Theorem minMax_spec data mn mx :
  data <> [] -> Forall (wf_elem CFloat AVec3) data ->
  Forall (Forall (fun x => f32_finite x = true)) data ->
  minMaxFloat32 data = (mn, mx) ->
  List.length mn = 3%nat /\ List.length mx = 3%nat /\
  forall j, (j < 3)%nat ->
    (exists v, In v data /\ nth j mn 0 = f64_of_f32 (nth j v 0)) /\
    (exists v, In v data /\ nth j mx 0 = f64_of_f32 (nth j v 0)) /\
    (forall v, In v data -> f64_le (nth j mn 0) (f64_of_f32 (nth j v 0)) = true /\
                            f64_le (f64_of_f32 (nth j v 0)) (nth j mx 0) = true).
Proof.
  intros Hne HW HF H. unfold minMaxFloat32 in H.
  assert (mn = fold_left (minmax_step f64_min) data (repeat f64_max 3)) as -> by congruence.
  assert (mx = fold_left (minmax_step f64_max2) data (repeat f64_nmax 3)) as -> by congruence. clear H.
  assert (HL : Forall (fun v : list Z => List.length v = 3%nat) data).
  { eapply Forall_impl; [|exact HW]. intros v [Hv _]. exact Hv. }
  destruct (fold_minmax_nth f64_min data (repeat f64_max 3) 0 eq_refl HL ltac:(lia)) as [L1 _].
  destruct (fold_minmax_nth f64_max2 data (repeat f64_nmax 3) 0 eq_refl HL ltac:(lia)) as [L2 _].
  split; auto. split; auto. intros j Hj.
  destruct (fold_minmax_nth f64_min data (repeat f64_max 3) j eq_refl HL Hj) as [_ ->].
  destruct (fold_minmax_nth f64_max2 data (repeat f64_nmax 3) j eq_refl HL Hj) as [_ ->].
  replace (nth j (repeat f64_max 3) 0) with f64_max by (destruct j as [|[|[|]]]; [reflexivity..|lia]).
  replace (nth j (repeat f64_nmax 3) 0) with f64_nmax by (destruct j as [|[|[|]]]; [reflexivity..|lia]).
  set (g := fun v => f64_of_f32 (nth j v 0)).
  assert (HG : forall v, In v data -> f64_finite (g v) = true).
  { intros v Hv. rewrite Forall_forall in HW, HF. destruct (HW v Hv) as [Hl Hr]. specialize (HF v Hv).
    assert (Hin : In (nth j v 0) v) by (apply nth_In; rewrite Hl; cbn; lia).
    rewrite Forall_forall in Hr, HF. apply f64_of_f32_finite; auto. }
  destruct data as [|v0 data]; [congruence|]. cbn [map fold_left]. fold g.
  pose proof (HG v0 (or_introl eq_refl)) as Hg0.
  rewrite f64_min_top, f64_max_bottom by auto.
  assert (HGs : Forall (fun x => f64_finite x = true) (map g data)).
  { apply Forall_forall. intros x Hx. apply in_map_iff in Hx as (v & <- & Hv). apply HG. right. exact Hv. }
  destruct (fold_min_spec (map g data) (g v0) Hg0 HGs) as [M1 M2].
  destruct (fold_max_spec (map g data) (g v0) Hg0 HGs) as [X1 X2].
  change (g v0 :: map g data) with (map g (v0 :: data)) in *.
  set (mn := fold_left f64_min (map g data) (g v0)) in *.
  set (mx := fold_left f64_max2 (map g data) (g v0)) in *.
  apply in_map_iff in M1 as (vm & Em & Hm). apply in_map_iff in X1 as (vx & Ex & Hx).
  split; [exists vm; split; [exact Hm|symmetry; exact Em]|].
  split; [exists vx; split; [exact Hx|symmetry; exact Ex]|].
  intros v Hv. fold (g v). unfold f64_le.
  rewrite <- Em, <- Ex. rewrite !f64_finite_not_nan by auto. cbn [negb andb].
  rewrite Em, Ex. specialize (M2 (g v) (in_map g _ _ Hv)). specialize (X2 (g v) (in_map g _ _ Hv)). lia.
Qed.

(** ** attrs_loop *)
Definition data_of (a : PrimitiveAttribute) : list slice :=
  match attr_Data a with Some s => [s] | None => [] end.

Definition kept (attr : list PrimitiveAttribute) : list PrimitiveAttribute :=
  filter (fun a => attr_nonempty (attr_Data a)) attr.

(** The flag given to an attribute. *)
Definition flagged (name : string) (s : slice) : bool :=
  (String.eqb name "TEXCOORD_0" || String.eqb name "TEXCOORD_1" ||
   String.eqb name "WEIGHTS_0" || String.eqb name "COLOR_0") && integer_kind (sk s).

Lemma flagged_spec name s : flagged name s = normalized_name name && integer_kind (sk s).
Proof. unfold flagged, normalized_name. cbn [existsb]. rewrite orb_false_r, <- !orb_assoc. reflexivity. Qed.

Definition prop_of (a : PrimitiveAttribute) : string * bool :=
  (attr_Name a, match attr_Data a with Some s => flagged (attr_Name a) s | None => false end).

Lemma attrs_loop_spec attr : forall data props mm data' props' mm',
  attrs_loop attr data props mm = Ok (data', props', mm') ->
  data' = data ++ flat_map data_of (kept attr) /\
  props' = props ++ map prop_of (kept attr) /\
  (NoDup (map attr_Name (kept attr)) ->
   mm' = match find (fun a => String.eqb (attr_Name a) "POSITION") (kept attr) with
         | Some a => match attr_Data a with Some s => minMaxFloat32 (els s) | None => mm end
         | None => mm
         end) /\
  Forall (fun a => attr_Name a = "POSITION"%string -> exists s, attr_Data a = Some s /\ sk s = SK CFloat AVec3) (kept attr).
Proof.
  induction attr as [|a attr IH]; intros data props mm data' props' mm' H; cbn [attrs_loop] in H.
  - injection H as <- <- <-. cbn. rewrite !app_nil_r. auto.
  - inv_ok H. unfold kept. cbn [filter]. fold (kept attr). unfold attr_nonempty.
    destruct (attr_Data a) as [s|] eqn:Ea; [|cbn in Hx; injection Hx as <-; apply IH; exact H].
    assert (x = zlen (els s)) as ->.
    { cbn in Hx. destruct (sk s); congruence. }
    unfold zlen in H. destruct (Z.of_nat (List.length (els s)) =? 0) eqn:E0.
    { destruct (Nat.eqb (List.length (els s)) 0) eqn:E1; [|lia]. cbn [negb]. apply IH. exact H. }
    destruct (Nat.eqb (List.length (els s)) 0) eqn:E1; [lia|]. cbn [negb].
    inv_ok H. destruct x as [normalized mm1].
    apply IH in H as (-> & -> & HM & HP). cbn [flat_map map].
    assert (Hflag : prop_of a = (attr_Name a, normalized) /\
      (attr_Name a <> "POSITION"%string -> mm1 = mm) /\
      (attr_Name a = "POSITION"%string -> mm1 = minMaxFloat32 (els s) /\ sk s = SK CFloat AVec3)).
    { unfold prop_of, flagged. rewrite Ea. clear - Hx0.
      destruct (String.eqb (attr_Name a) "POSITION") eqn:E1.
      { apply String.eqb_eq in E1. rewrite E1. cbn.
        destruct (sk s) as [[] []| | | |]; try discriminate. injection Hx0 as <- <-. split; [auto|split; [intros; congruence|auto]]. }
      assert (Hn : attr_Name a <> "POSITION"%string) by (apply String.eqb_neq; exact E1).
      destruct (String.eqb (attr_Name a) "TEXCOORD_0" || String.eqb (attr_Name a) "TEXCOORD_1") eqn:E2.
      { cbn [orb andb]. inv_ok Hx0. injection Hx0 as <- <-. split; [|split; [auto|intros; contradiction]]. f_equal.
        unfold checkTextureCoord in Hx. unfold integer_kind.
        destruct (sk s) as [[] []| | | |]; try discriminate; injection Hx as <-; reflexivity. }
      destruct (String.eqb (attr_Name a) "WEIGHTS_0") eqn:E3.
      { cbn [orb andb]. inv_ok Hx0. injection Hx0 as <- <-. split; [|split; [auto|intros; contradiction]]. f_equal.
        unfold checkWeights in Hx. unfold integer_kind.
        destruct (sk s) as [[] []| | | |]; try discriminate; injection Hx as <-; reflexivity. }
      destruct (String.eqb (attr_Name a) "JOINTS_0") eqn:E4.
      { apply String.eqb_eq in E4. rewrite E4. cbn [orb andb String.eqb Ascii.eqb Bool.eqb].
        inv_ok Hx0. injection Hx0 as <- <-. rewrite E4 in Hn. split; [reflexivity|split; [auto|intros; contradiction]]. }
      destruct (String.eqb (attr_Name a) "COLOR_0") eqn:E5.
      { cbn [orb andb]. inv_ok Hx0. injection Hx0 as <- <-. split; [|split; [auto|intros; contradiction]]. f_equal.
        unfold checkColor in Hx. unfold integer_kind.
        destruct (sk s) as [[] []| | | |]; try discriminate; injection Hx as <-; reflexivity. }
      cbn [orb andb]. injection Hx0 as <- <-. split; [reflexivity|split; [auto|intros; contradiction]]. }
    destruct Hflag as (F1 & F2 & F3).
    split; [|split; [|split]].
    + unfold data_of at 2. rewrite Ea. rewrite <- app_assoc. reflexivity.
    + rewrite F1, <- app_assoc. reflexivity.
    + intros ND. inversion ND as [|? ? Hni ND']; subst. rewrite (HM ND'). cbn [find].
      destruct (String.eqb (attr_Name a) "POSITION") eqn:E2.
      * apply String.eqb_eq in E2. rewrite Ea. destruct (F3 E2) as [-> _].
        destruct (find _ (kept attr)) as [b|] eqn:EF; [|reflexivity].
        exfalso. apply find_some in EF as [Hin Hb]. apply String.eqb_eq in Hb. apply Hni.
        rewrite E2, <- Hb. apply in_map. exact Hin.
      * rewrite F2; [reflexivity|]. apply String.eqb_neq. exact E2.
    + constructor; auto. intros E. destruct (F3 E) as [_ Hk]. eauto.
Qed.

(** ** set_props_loop *)
Lemma set_props_spec dd old props : forall m j accs attrs d' attrs',
  set_props_loop (with_accs dd old accs)
    (map (fun k => zlen old + Z.of_nat k) (seq j m)) props attrs = Ok (d', attrs') ->
  exists accs', d' = with_accs dd old accs' /\ List.length accs' = List.length accs /\
    (forall k, nth_error accs' k =
       if (j <=? k)%nat && (k <? j + m)%nat then
         match nth_error props (k - j), nth_error accs k with
         | Some (_, nm), Some a => Some (set_acr_Normalized nm a)
         | _, _ => None
         end
       else nth_error accs k) /\
    attrs' = fold_left (fun at_ '(k, (name, _)) => map_set name (zlen old + Z.of_nat k) at_)
               (combine (seq j m) props) attrs.
Proof.
  induction props as [|[name nm] props IH]; intros m j accs attrs d' attrs' H.
  - destruct m as [|m]; cbn [seq map set_props_loop] in H; [|discriminate].
    injection H as <- <-. exists accs. split; auto. split; auto. split; [|reflexivity].
    intros k. destruct ((j <=? k)%nat && (k <? j + 0)%nat) eqn:E; [lia|reflexivity].
  - destruct m as [|m]; cbn [seq map set_props_loop] in H.
    + injection H as <- <-. exists accs. split; auto. split; auto. split; [|reflexivity].
      intros k. destruct ((j <=? k)%nat && (k <? j + 0)%nat) eqn:E; [lia|reflexivity].
    + inv_ok H. apply update_tail in Hx as (n & a & En & Ha & ->); [|lia].
      assert (n = j) as -> by lia.
      apply IH in H as (accs' & -> & Hl & Hn & ->).
      rewrite set_nth_length in Hl.
      exists accs'. split; auto. split; auto. split; [|reflexivity].
      intros k. rewrite Hn, nth_error_set_nth.
      assert (Hj : (j < List.length accs)%nat) by (apply nth_error_Some; congruence).
      destruct ((S j <=? k)%nat && (k <? S j + m)%nat) eqn:E1.
      * destruct ((j <=? k)%nat && (k <? j + S m)%nat) eqn:E2; [|lia].
        destruct (k =? j)%nat eqn:E3; [lia|].
        replace (k - j)%nat with (S (k - S j)) by lia. reflexivity.
      * destruct (k =? j)%nat eqn:E3.
        -- apply Nat.eqb_eq in E3. subst k. destruct (j <? List.length accs)%nat eqn:E4; [|lia].
           destruct ((j <=? j)%nat && (j <? j + S m)%nat) eqn:E2; [|lia].
           rewrite Nat.sub_diag. cbn [nth_error]. rewrite Ha. reflexivity.
        -- destruct ((j <=? k)%nat && (k <? j + S m)%nat) eqn:E2; [lia|reflexivity].
Qed.

(** The map built from distinct names. *)
Lemma fold_map_set_get old props : forall j m attrs name,
  (List.length props = m)%nat -> NoDup (map fst props) ->
  map_get name (fold_left (fun at_ '(k, (name, _)) => map_set name (zlen old + Z.of_nat k) at_)
               (combine (seq j m) props) attrs : list (string * Z)) =
  match find (fun p => String.eqb (fst (snd p)) name) (combine (seq j m) (props : list (string * bool))) with
  | Some (k, _) => Some (@zlen (option Accessor) old + Z.of_nat k)
  | None => map_get name attrs
  end.
Proof.
  induction props as [|[nm b] props IH]; intros j m attrs name Hm ND; cbn in Hm; subst m; [reflexivity|].
  cbn [seq combine fold_left find fst snd]. inversion ND as [|? ? Hni ND']; subst.
  rewrite IH by auto. rewrite map_get_map_set.
  destruct (String.eqb nm name) eqn:E.
  - apply String.eqb_eq in E. subst nm. rewrite String.eqb_refl.
    destruct (find _ _) as [[k [n' b']]|] eqn:EF; [|reflexivity].
    exfalso. apply find_some in EF as [Hin Hb]. cbn in Hb. apply String.eqb_eq in Hb. subst n'.
    apply Hni. apply in_combine_r in Hin. apply (in_map fst) in Hin. exact Hin.
  - rewrite String.eqb_sym, E. reflexivity.
Qed.

Lemma find_combine_seq {A} (f : A -> bool) (l : list A) j :
  match find (fun p => f (snd p)) (combine (seq j (List.length l)) l) with
  | Some (k, x) => (j <= k)%nat /\ nth_error l (k - j) = Some x /\ f x = true
  | None => forall x, In x l -> f x = false
  end.
Proof.
  revert j. induction l as [|y l IH]; intros j; cbn [List.length seq combine find snd]; [intros x []|].
  destruct (f y) eqn:E.
  - rewrite Nat.sub_diag. auto.
  - specialize (IH (S j)). destruct (find _ _) as [[k x]|].
    + destruct IH as (H1 & H2 & H3). split; [lia|]. split; auto.
      replace (k - j)%nat with (S (k - S j)) by lia. exact H2.
    + intros x [<-|Hx]; auto.
Qed.

Lemma NoDup_nth_name {A} (l : list A) (g : A -> string) i j x y :
  NoDup (map g l) -> nth_error l i = Some x -> nth_error l j = Some y -> g x = g y -> i = j.
Proof.
  intros ND Hi Hj E. rewrite NoDup_nth_error in ND. apply ND.
  - rewrite map_length. apply nth_error_Some. congruence.
  - rewrite !nth_error_map, Hi, Hj. cbn. congruence.
Qed.

Lemma flat_map_kept attr :
  List.length (flat_map data_of (kept attr)) = List.length (kept attr) /\
  forall k a, nth_error (kept attr) k = Some a ->
    exists s, attr_Data a = Some s /\ els s <> [] /\ nth_error (flat_map data_of (kept attr)) k = Some s.
Proof.
  unfold kept. induction attr as [|a attr [IHl IHn]]; cbn [filter]; [split; [reflexivity|intros [] ? [=]]|].
  destruct (attr_Data a) as [s|] eqn:Ea; cbn [attr_nonempty]; [|split; auto].
  destruct (Nat.eqb (List.length (els s)) 0) eqn:E; cbn [negb]; [split; auto|].
  cbn [flat_map]. unfold data_of at 1 3. rewrite Ea. cbn [app List.length]. split; [congruence|].
  intros [|k] b Hb; cbn [nth_error] in *.
  - injection Hb as <-. exists s. split; auto. split; auto. intros H. rewrite H in E. discriminate.
  - apply IHn. exact Hb.
Qed.

Theorem WritePrimitiveAttributes_spec d attr d' m :
  WritePrimitiveAttributes d attr = Ok (d', Ok m) ->
  NoDup (map attr_Name (kept attr)) ->
  (forall name i, map_get name m = Some i <->
     exists k a, nth_error (kept attr) k = Some a /\ attr_Name a = name /\
                 i = zlen (doc_Accessors d) + Z.of_nat k) /\
  forall k a, nth_error (kept attr) k = Some a ->
    exists s acc, attr_Data a = Some s /\ els s <> [] /\
      nth_error (doc_Accessors d') (List.length (doc_Accessors d) + k) = Some (Some acc) /\
      acr_Normalized acc = flagged (attr_Name a) s /\
      acr_ByteOffset acc = Z.of_nat (sum_sizes (firstn k (flat_map data_of (kept attr)))) /\
      (attr_Name a = "POSITION"%string -> (acr_Min acc, acr_Max acc) = minMaxFloat32 (els s)) /\
      (Forall wf_slice (flat_map data_of (kept attr)) ->
       (2 <= List.length (kept attr) -> Forall (fun s => ~ byte_scalar (sk s)) (flat_map data_of (kept attr)))%nat ->
       forall c t buffer p, kind_ct (sk s) = Some (c, t) -> (buffer = [] \/ ~ (c = CUint /\ t = AMat3)) ->
         ReadAccessor d' acc buffer p = Ok (mkSlice (read_kind (sk s)) (els s))).
Proof.
  intros H ND. unfold WritePrimitiveAttributes in H.
  destruct (attrs_loop attr [] [] (repeat 0 3, repeat 0 3)) as [[[data props] [mn mx]]|e|] eqn:EA; try discriminate.
  apply attrs_loop_spec in EA as (-> & -> & HM & HPos). cbn [app] in *. specialize (HM ND).
  destruct (flat_map_kept attr) as [HFl HFn].
  set (data := flat_map data_of (kept attr)) in *.
  inv_ok H. destruct x as [d1 r1]. pose proof Hx as HWI.
  apply WriteAccessorsInterleaved_shape in Hx as [(e & -> & HP & _)|Hx]; [discriminate|].
  destruct Hx as (d0 & d2 & vi & accs & HP & HV & -> & HF & -> & HN).
  inv_ok H. destruct x as [d3 attrs].
  apply set_props_spec in Hx as (accs1 & -> & Hl1 & Hn1 & Hattrs).
  assert (Hlen : List.length (map prop_of (kept attr)) = List.length data) by (rewrite map_length; lia).
  assert (HNDp : NoDup (map fst (map prop_of (kept attr)))) by (rewrite map_map; exact ND).
  assert (HG : forall name, map_get name attrs =
     match find (fun p => String.eqb (fst (snd p)) name) (combine (seq 0 (List.length data)) (map prop_of (kept attr))) with
     | Some (k, _) => Some (zlen (doc_Accessors d) + Z.of_nat k) | None => None end).
  { intros name. subst attrs. rewrite fold_map_set_get by auto. reflexivity. }
  assert (HGet : forall name i, map_get name attrs = Some i <->
     exists k a, nth_error (kept attr) k = Some a /\ attr_Name a = name /\ i = zlen (doc_Accessors d) + Z.of_nat k).
  { intros name i. rewrite HG. rewrite <- Hlen.
    pose proof (find_combine_seq (fun p => String.eqb (fst p) name) (map prop_of (kept attr)) 0) as Q.
    match goal with |- context [find ?f ?l] => set (fd := find f l) in * end. change (match fd with Some (k, x) => (0 <= k)%nat /\ nth_error (map prop_of (kept attr)) (k - 0) = Some x /\ String.eqb (fst x) name = true | None => forall x, In x (map prop_of (kept attr)) -> String.eqb (fst x) name = false end) in Q. destruct fd as [[k [nm b]]|].
    - destruct Q as (_ & Hk & Hb). cbn in Hb. apply String.eqb_eq in Hb. subst nm. rewrite Nat.sub_0_r in Hk.
      rewrite nth_error_map in Hk. destruct (nth_error (kept attr) k) as [a|] eqn:Ek; [|discriminate].
      cbn in Hk. injection Hk as Hna _. split.
      + intros [= <-]. exists k, a. auto.
      + intros (k' & a' & Hk' & Hn' & ->). do 2 f_equal. f_equal.
        eapply NoDup_nth_name; [exact ND|exact Ek|exact Hk'|congruence].
    - split; [discriminate|]. intros (k & a & Hk & Hna & _). exfalso.
      assert (Hin : In (prop_of a) (map prop_of (kept attr))) by (apply in_map; eapply nth_error_In; exact Hk).
      specialize (Q _ Hin). cbn in Q. rewrite Hna, String.eqb_refl in Q. discriminate. }
  (* accessors before the POSITION bounds are set *)
  assert (HA1 : forall k a, nth_error (kept attr) k = Some a ->
    exists s c t, attr_Data a = Some s /\ els s <> [] /\ nth_error data k = Some s /\ kind_ct (sk s) = Some (c, t) /\
      nth_error accs1 k = Some (set_acr_Normalized (flagged (attr_Name a) s)
         (new_accessor vi (Z.of_nat (sum_sizes (firstn k data))) c t (zlen (els s))))).
  { intros k a Hk. destruct (HFn k a Hk) as (s & Ha & Hne & Hs). destruct (HN k s Hs) as (c & t & Hkc & Hacc).
    exists s, c, t. repeat split; auto. rewrite Hn1.
    assert (k < List.length data)%nat by (apply nth_error_Some; congruence).
    destruct ((0 <=? k)%nat && (k <? 0 + List.length data)%nat) eqn:E; [|lia].
    rewrite Nat.sub_0_r, nth_error_map, Hk, Hacc. cbn. unfold prop_of. rewrite Ha. reflexivity. }
  assert (HRead : forall accs' k a s c t acc,
    nth_error (kept attr) k = Some a -> nth_error data k = Some s -> kind_ct (sk s) = Some (c, t) ->
    nth_error accs' k = Some acc ->
    same_core acc (new_accessor vi (Z.of_nat (sum_sizes (firstn k data))) c t (zlen (els s))) ->
    (Forall wf_slice data ->
       (2 <= List.length (kept attr) -> Forall (fun s => ~ byte_scalar (sk s)) data)%nat ->
       forall c t buffer p, kind_ct (sk s) = Some (c, t) -> (buffer = [] \/ ~ (c = CUint /\ t = AMat3)) ->
         ReadAccessor (with_accs d2 (doc_Accessors d) accs') acc buffer p = Ok (mkSlice (read_kind (sk s)) (els s)))).
  { intros accs' k a s c t acc Hk Hs Hkc Hacc Hcore HW HB c' t' buffer p Hkc' Hbuf.
    rewrite Hkc in Hkc'. injection Hkc' as <- <-.
    rewrite (same_core_read _ _ _ _ _ Hcore). unfold ReadAccessor.
    cbn [acr_ComponentType acr_Type acr_BufferView acr_ByteOffset acr_Count acr_Sparse new_accessor
       set_acr_BufferView set_acr_ByteOffset set_acr_ComponentType set_acr_Type set_acr_Count].
    rewrite <- HFl in HB.
    pose proof (writeBufferViews_read _ _ _ _ _ HV HW HB k s c t buffer Hs Hkc Hbuf) as E.
    assert (HAd : doc_Accessors d2 = doc_Accessors d).
    { rewrite (writeBufferViews_accessors _ _ _ _ _ HV). eapply ensurePadding_accessors; eauto. }
    erewrite (read_dense_mono d2); [| |exact E]; [|apply with_accs_extends; exact HAd].
    cbn. rewrite (read_kind_ct _ _ _ Hkc). reflexivity. }
  assert (HNth : forall accs' k, nth_error (doc_Accessors (with_accs d2 (doc_Accessors d) accs'))
      (List.length (doc_Accessors d) + k) = option_map Some (nth_error accs' k)).
  { intros accs' k. unfold with_accs. cbn [doc_Accessors set_doc_Accessors].
    rewrite nth_error_app2 by lia. replace (_ + k - _)%nat with k by lia. apply nth_error_map. }
  destruct (map_get "POSITION" attrs) as [pos|] eqn:EP.
  - inv_ok H. inv_ok H. injection H as <- <-. split; [exact HGet|].
    apply HGet in EP as (kp & ap & Hkp & Hnp & ->).
    apply update_tail in Hx as (n1 & a1 & En1 & Ha1 & ->); [|lia]. assert (n1 = kp) as -> by lia.
    apply update_tail in Hx0 as (n2 & a2 & En2 & Ha2 & ->); [|lia]. assert (n2 = kp) as -> by lia.
    rewrite nth_error_set_nth, Nat.eqb_refl in Ha2.
    assert (HLp : (kp < List.length accs1)%nat) by (apply nth_error_Some; congruence).
    destruct (kp <? List.length accs1)%nat eqn:E; [|lia]. injection Ha2 as <-.
    assert (HFind : find (fun a => String.eqb (attr_Name a) "POSITION") (kept attr) = Some ap).
    { destruct (find _ _) as [b|] eqn:EF.
      - apply find_some in EF as [Hin Hb]. apply String.eqb_eq in Hb. apply In_nth_error in Hin as [kb Hkb].
        assert (kb = kp) by (eapply NoDup_nth_name; [exact ND|exact Hkb|exact Hkp|congruence]). congruence.
      - apply nth_error_In in Hkp. eapply find_none in EF; [|exact Hkp]. rewrite Hnp in EF. discriminate. }
    rewrite HFind in HM.
    intros k a Hk. destruct (HA1 k a Hk) as (s & c & t & Ha & Hne & Hs & Hkc & Hacc).
    destruct (Nat.eq_dec k kp) as [->|Hkne].
    + rewrite Hkp in Hk. injection Hk as <-. rewrite Ha1 in Hacc. injection Hacc as ->.
      rewrite Ha in HM. exists s. eexists. split; auto. split; auto. split.
      { rewrite HNth, nth_error_set_nth, Nat.eqb_refl, set_nth_length, E. reflexivity. }
      split; [reflexivity|]. split; [reflexivity|]. split; [intros _; exact HM|].
      eapply HRead; [exact Hkp|exact Hs|exact Hkc| |repeat split].
      rewrite nth_error_set_nth, Nat.eqb_refl, set_nth_length, E. reflexivity.
    + exists s. eexists. split; auto. split; auto. split.
      { rewrite HNth, !nth_error_set_nth. destruct (k =? kp)%nat eqn:E2; [lia|]. rewrite Hacc. reflexivity. }
      split; [reflexivity|]. split; [reflexivity|]. split.
      { intros Hpn. exfalso. apply Hkne. eapply NoDup_nth_name; [exact ND|exact Hk|exact Hkp|congruence]. }
      eapply HRead; [exact Hk|exact Hs|exact Hkc| |repeat split].
      rewrite !nth_error_set_nth. destruct (k =? kp)%nat eqn:E2; [lia|]. exact Hacc.
  - injection H as <- <-. split; [exact HGet|].
    intros k a Hk. destruct (HA1 k a Hk) as (s & c & t & Ha & Hne & Hs & Hkc & Hacc).
    exists s. eexists. split; auto. split; auto. split; [rewrite HNth, Hacc; reflexivity|].
    split; [reflexivity|]. split; [reflexivity|]. split.
    { intros Hpn. exfalso. assert (E : map_get "POSITION" attrs = Some (zlen (doc_Accessors d) + Z.of_nat k)).
      { apply HGet. eauto. }
      congruence. }
    eapply HRead; [exact Hk|exact Hs|exact Hkc|exact Hacc|repeat split].
Qed.

(** ** Progress *)
Lemma room_last d n : room d n -> exists pre b, last_buffer_is d pre b /\ zlen (buf_Data b) + n <= max_alloc.
Proof.
  unfold room. destruct (rev (doc_Buffers d)) as [|[b|] l] eqn:E; intros H; [| |contradiction].
  - exists [], zero_Buffer. split; [right|cbn; exact H]. split; auto.
    rewrite <- (rev_involutive (doc_Buffers d)), E. reflexivity.
  - exists (rev l), b. split; [left|exact H].
    rewrite <- (rev_involutive (doc_Buffers d)), E. reflexivity.
Qed.

Lemma last_room d pre b n : last_buffer_is d pre b -> zlen (buf_Data b) + n <= max_alloc -> room d n.
Proof.
  unfold room. intros [H|(H & -> & ->)] HR; rewrite H; [|exact HR].
  rewrite rev_app_distr. exact HR.
Qed.

Lemma ensurePadding_progress d n : room d (3 + n) -> 0 <= n -> exists d', ensurePadding d = Ok d' /\ room d' n.
Proof.
  intros H Hn0. apply room_last in H as (pre & b & HL & HM). unfold ensurePadding.
  rewrite (lastBuffer_ok _ _ _ HL). cbn [bind].
  pose proof (getPadding_spec (zlen (buf_Data b)) (zlen_nonneg _)) as [P1 P2].
  unfold grow. destruct ((getPadding (zlen (buf_Data b)) <? 0) || _) eqn:E; [lia|]. cbn [bind].
  eexists. split; [reflexivity|]. rewrite set_lastBuffer_app.
  eapply last_room; [left; reflexivity|]. cbn [buf_Data set_buf_ByteLength set_buf_Data].
  rewrite zlen_app, zlen_zeros by lia. lia.
Qed.

Lemma max_alloc_63 : max_alloc < 2 ^ 63.
Proof. reflexivity. Qed.

Lemma same_length_n data s : In s data -> same_length data ->
  Forall (fun x => List.length (els x) = List.length (els s)) data.
Proof. intros Hs H. apply Forall_forall. intros x Hx. apply H; auto. Qed.

Lemma writeBufferViews_progress d tgt data s :
  hd_error data = Some s -> Forall wf_slice data -> same_length data ->
  (List.length data = 1%nat \/ els s <> [] /\ Forall (fun s => sk s <> SK CUbyte AScalar) data) ->
  room d (Z.of_nat (List.length (els s) * sum_sizes data)) ->
  exists d', writeBufferViews d tgt data = Ok (d', Ok (zlen (doc_BufferViews d))).
Proof.
  intros Hhd HW HSL HG HR. apply room_last in HR as (pre & b & HL & HM).
  assert (Hne : data <> []) by (destruct data; [discriminate|congruence]).
  assert (HS : Forall supported data) by (eapply Forall_impl; [|exact HW]; apply wf_slice_supported).
  assert (EV : exists st, view_loop tgt (List.length data) 0 0 0 0 data =
     Ok (Ok (st, Z.of_nat (List.length (els s) * sum_sizes data)))).
  { destruct data as [|s0 [|s1 data]]; [congruence| |]; injection Hhd as ->.
    - inversion HS as [|? ? [c [t Hs]] _]; subst. cbn [List.length]. rewrite (view_loop_one _ _ _ _ Hs).
      eexists. rewrite (elem_bytes_Z _ _ _ Hs). rewrite Nat2Z.inj_mul. unfold sum_sizes. cbn [map list_sum fold_right].
      rewrite Nat.add_0_r. reflexivity.
    - rewrite view_loop_all by (auto; discriminate).
      rewrite (proj2 (forallb_same_length s (s1 :: data)) HSL). eexists. rewrite Nat2Z.inj_mul. reflexivity. }
  destruct EV as [st EV].
  pose proof (view_loop_sized _ _ _ _ Hne EV) as (st' & e & n & -> & Hsz & Hsize).
  unfold writeBufferViews. rewrite EV. cbn [bind]. rewrite (lastBuffer_ok _ _ _ HL). cbn [bind].
  unfold grow.
  destruct ((Z.of_nat (List.length (els s) * sum_sizes data) <? 0) || _) eqn:E; [lia|]. cbn [bind].
  rewrite Hsize. pose proof Hsz as (HK & Hsum & Hsh).
  pose proof (sized_nth data st' e n 0 s Hsz ltac:(destruct data; [discriminate|exact Hhd])) as (c0 & t0 & Hk0 & Hn & _ & _).
  pose proof max_alloc_63.
  destruct (write_data_loop_spec data (buf_Data b ++ zeros (Z.to_nat (Z.of_nat (n * e)))) st' e n
     (List.length (buf_Data b)) 0) as (buf' & HB & _); auto.
  - apply Forall_forall. intros x Hx Hkx. destruct HG as [H1|[_ HU]].
    + destruct data as [|s0 [|]]; try discriminate. injection Hhd as ->. destruct Hx as [->|[]].
      rewrite Hkx in Hk0. rewrite Forall_forall in HK. destruct (HK x (or_introl eq_refl)) as (c & t & Hk & _ & He & Hst).
      rewrite Hkx in Hk. cbn in Hk. injection Hk as <- <-.
      unfold sum_sizes, elem_bytes in Hsum. cbn [map list_sum fold_right] in Hsum. rewrite Hkx in Hsum. cbn in Hsum.
      unfold eff_stride in He. destruct st' as [|st']; [lia|]. cbn in He. lia.
    + rewrite Forall_forall in HU. exfalso. apply (HU x Hx Hkx).
  - lia.
  - destruct HG as [H1|[Hn0 _]]; [right; lia|left]. rewrite <- Hn. destruct (els s); [congruence|cbn; lia].
  - rewrite app_length. unfold zeros. rewrite repeat_length. lia.
  - rewrite zlen_app, zlen_zeros by lia. lia.
  - replace (Z.of_nat (List.length (buf_Data b) + 0)) with (zlen (buf_Data b)) in HB by (unfold zlen; lia).
    rewrite HB. cbn [bind]. eexists. f_equal. f_equal. f_equal.
    rewrite set_lastBuffer_app. cbn [doc_BufferViews set_doc_BufferViews set_doc_Buffers]. apply zlen_snoc.
Qed.

Theorem WriteAccessor_progress d tgt data :
  wf_slice data -> room d (3 + Z.of_nat (List.length (els data) * elem_bytes data)) ->
  exists d', WriteAccessor d tgt data = Ok (d', zlen (doc_Accessors d)).
Proof.
  intros HW HR. apply ensurePadding_progress in HR as (d1 & HP & HR); [|lia].
  destruct (writeBufferViews_progress d1 tgt [data] data eq_refl) as (d2 & HV); auto.
  { intros x y [<-|[]] [<-|[]]. reflexivity. }
  { unfold sum_sizes. cbn [map list_sum fold_right]. rewrite Nat.add_0_r. exact HR. }
  destruct HW as (c & t & Hk & _).
  unfold WriteAccessor, WriteBufferView. rewrite HP. cbn [bind]. rewrite HV. cbn [bind].
  rewrite (TypeOf_ok _ _ _ Hk). cbn [bind]. eexists. f_equal. f_equal.
  unfold add_accessor. cbn [doc_Accessors set_doc_Accessors]. rewrite zlen_snoc.
  rewrite (writeBufferViews_accessors _ _ _ _ _ HV), (ensurePadding_accessors _ _ HP). reflexivity.
Qed.

Lemma accessors_loop_progress data : forall d bv off,
  Forall supported data -> exists d' l, accessors_loop d bv off data = Ok (d', l).
Proof.
  induction data as [|s data IH]; intros d bv off H; cbn [accessors_loop]; [eauto|].
  inversion H as [|? ? [c [t Hs]] H']; subst. rewrite (TypeOf_ok _ _ _ Hs). cbn [bind].
  edestruct IH as (d' & l & ->); [exact H'|]. cbn [bind]. eauto.
Qed.

Theorem WriteAccessorsInterleaved_progress d data s :
  hd_error data = Some s -> Forall wf_slice data -> same_length data ->
  (List.length data = 1%nat \/ els s <> [] /\ Forall (fun s => sk s <> SK CUbyte AScalar) data) ->
  room d (3 + Z.of_nat (List.length (els s) * sum_sizes data)) ->
  exists d' idx, WriteAccessorsInterleaved d data = Ok (d', Ok idx).
Proof.
  intros H1 HW H3 H4 HR. apply ensurePadding_progress in HR as (d1 & HP & HR); [|lia].
  destruct (writeBufferViews_progress d1 TargetArrayBuffer data s) as (d2 & HV); auto.
  unfold WriteAccessorsInterleaved, WriteBufferViewInterleaved. rewrite HP. cbn [bind]. rewrite HV. cbn [bind].
  destruct (accessors_loop_progress data d2 (zlen (doc_BufferViews d1)) 0) as (d' & l & ->).
  { eapply Forall_impl; [|exact HW]. apply wf_slice_supported. }
  cbn [bind]. eauto.
Qed.

(** ** Failing interleaved writes *)
Lemma view_loop_lengths tgt data :
  Forall supported data ->
  exists r, view_loop tgt (List.length data) 0 0 0 0 data = Ok r /\
    (same_length data -> exists st sz, r = Ok (st, sz)) /\ (~ same_length data -> r = Err errLengths).
Proof.
  intros HS. destruct data as [|s [|s1 data]].
  - eexists. split; [reflexivity|]. split; [eauto|]. intros H. exfalso. apply H. intros x y [].
  - inversion HS as [|? ? [c [t Hs]] _]; subst. cbn [List.length]. rewrite (view_loop_one _ _ _ _ Hs).
    eexists. split; [reflexivity|]. split; [eauto|]. intros H. exfalso. apply H.
    intros x y [<-|[]] [<-|[]]. reflexivity.
  - rewrite view_loop_all by (auto; discriminate). eexists. split; [reflexivity|].
    pose proof (forallb_same_length s (s1 :: data)) as F.
    destruct (forallb _ _).
    + split; [eauto|]. intros H. exfalso. apply H, F. reflexivity.
    + split; [|reflexivity]. intros H. apply F in H. discriminate.
Qed.

Theorem WriteBufferViewInterleaved_fail d data :
  Forall supported data -> ~ same_length data ->
  WriteBufferViewInterleaved d data = Ok (d, Err errLengths).
Proof.
  intros HS HN. destruct (view_loop_lengths TargetArrayBuffer data HS) as (r & E & _ & HF).
  unfold WriteBufferViewInterleaved, writeBufferViews. rewrite E. cbn [bind]. rewrite HF by auto. reflexivity.
Qed.

Theorem WriteBufferViewInterleaved_err d data d' e :
  Forall supported data -> WriteBufferViewInterleaved d data = Ok (d', Err e) ->
  ~ same_length data /\ d' = d.
Proof.
  intros HS H. destruct (view_loop_lengths TargetArrayBuffer data HS) as (r & E & HO & HF).
  apply writeBufferViews_inv in H as [(e' & [= <-] & -> & HV)|(? & ? & ? & ? & ? & ? & [=] & _)].
  split; auto. intros HL. destruct (HO HL) as (st & sz & ->). congruence.
Qed.

Lemma ensurePadding_only d d' : ensurePadding d = Ok d' -> only_buffers d d'.
Proof.
  intros H. split; [apply ensurePadding_extends; auto|].
  apply ensurePadding_inv in H as (? & ? & ? & ? & _ & -> & _). auto.
Qed.

Theorem WriteAccessorsInterleaved_fail d data :
  Forall supported data -> ~ same_length data -> room d 3 ->
  exists d', WriteAccessorsInterleaved d data = Ok (d', Err errLengths) /\ only_buffers d d'.
Proof.
  intros HS HN HR. destruct (ensurePadding_progress d 0 HR ltac:(lia)) as (d1 & HP & _).
  exists d1. split; [|apply ensurePadding_only; auto].
  unfold WriteAccessorsInterleaved. rewrite HP. cbn [bind]. rewrite WriteBufferViewInterleaved_fail by auto. reflexivity.
Qed.

Theorem WriteAccessorsInterleaved_err d data d' e :
  Forall supported data -> WriteAccessorsInterleaved d data = Ok (d', Err e) ->
  ~ same_length data /\ only_buffers d d'.
Proof.
  intros HS H. apply WriteAccessorsInterleaved_shape in H as [(e' & [= <-] & HP & HV)|H].
  - split; [|apply ensurePadding_only; auto].
    destruct (view_loop_lengths TargetArrayBuffer data HS) as (r & E & HO & HF).
    intros HL. destruct (HO HL) as (st & sz & ->). congruence.
  - destruct H as (? & ? & ? & ? & _ & _ & _ & _ & [=] & _).
Qed.


(** ** Which attribute lists are accepted *)
Definition attr_step (name : string) (d : slice) (mm : list Z * list Z) : res (bool * (list Z * list Z)) :=
  if String.eqb name "POSITION" then
    match sk d with
    | SK CFloat AVec3 => Ok (false, minMaxFloat32 (els d))
    | _ => Err (ErrMsg "invalid type")
    end
  else if String.eqb name "TEXCOORD_0" || String.eqb name "TEXCOORD_1" then
    b <- checkTextureCoord d ;; Ok (b, mm)
  else if String.eqb name "WEIGHTS_0" then
    b <- checkWeights d ;; Ok (b, mm)
  else if String.eqb name "JOINTS_0" then
    _ <- checkJoints d ;; Ok (false, mm)
  else if String.eqb name "COLOR_0" then
    b <- checkColor d ;; Ok (b, mm)
  else Ok (false, mm).

Ltac permitted_tac :=
  match goal with
  | |- attr_permitted _ _ =>
      split; [|split; [|split; [|split]]]; intros; subst;
      repeat match goal with H : _ \/ _ |- _ => destruct H end; try discriminate; auto 10
  | |- ~ attr_permitted _ _ =>
      intros (P1 & P2 & P3 & P4 & P5);
      first [ specialize (P1 eq_refl) | specialize (P2 (or_introl eq_refl)) | specialize (P2 (or_intror eq_refl))
            | specialize (P3 eq_refl) | specialize (P4 eq_refl) | specialize (P5 eq_refl) ];
      repeat match goal with H : _ \/ _ |- _ => destruct H end; discriminate
  end.

Lemma attr_step_permitted name s mm :
  match attr_step name s mm with
  | Ok _ => attr_permitted name (sk s)
  | Err _ => ~ attr_permitted name (sk s)
  | Panic => False
  end.
Proof.
  unfold attr_step.
  destruct (String.eqb_spec name "POSITION") as [->|N1].
  { destruct (sk s) as [[] []| | | |]; permitted_tac. }
  destruct (String.eqb_spec name "TEXCOORD_0") as [->|N2]; cbn [orb].
  { unfold checkTextureCoord. destruct (sk s) as [[] []| | | |]; cbn [bind]; permitted_tac. }
  destruct (String.eqb_spec name "TEXCOORD_1") as [->|N3].
  { unfold checkTextureCoord. destruct (sk s) as [[] []| | | |]; cbn [bind]; permitted_tac. }
  destruct (String.eqb_spec name "WEIGHTS_0") as [->|N4].
  { unfold checkWeights. destruct (sk s) as [[] []| | | |]; cbn [bind]; permitted_tac. }
  destruct (String.eqb_spec name "JOINTS_0") as [->|N5].
  { unfold checkJoints. destruct (sk s) as [[] []| | | |]; cbn [bind]; permitted_tac. }
  destruct (String.eqb_spec name "COLOR_0") as [->|N6].
  { unfold checkColor. destruct (sk s) as [[] []| | | |]; cbn [bind]; permitted_tac. }
  repeat split; intros; repeat match goal with H : _ \/ _ |- _ => destruct H end; contradiction.
Qed.

Lemma attrs_loop_permitted attr : forall data props mm,
  Forall (fun a => forall s, attr_Data a = Some s -> supported s) attr ->
  match attrs_loop attr data props mm with
  | Ok _ => Forall (fun a => forall s, attr_Data a = Some s -> attr_permitted (attr_Name a) (sk s)) (kept attr)
  | Err _ => Exists (fun a => exists s, attr_Data a = Some s /\ ~ attr_permitted (attr_Name a) (sk s)) (kept attr)
  | Panic => False
  end.
Proof.
  induction attr as [|a attr IH]; intros data props mm HS; cbn [attrs_loop]; [constructor|].
  pose proof (Forall_inv HS) as HS1. apply Forall_inv_tail in HS.
  unfold kept. cbn [filter]. fold (kept attr). unfold attr_nonempty.
  destruct (attr_Data a) as [s|] eqn:Ea; cbn [sliceLength bind].
  2:{ apply IH. exact HS. }
  assert (EL : match sk s with SNotSlice => Panic | _ => Ok (zlen (els s)) end = Ok (zlen (els s))).
  { destruct (HS1 s Ea) as (c & t & Hk). destruct (sk s); try reflexivity. discriminate. }
  rewrite EL. cbn [bind]. unfold zlen.
  destruct (Z.of_nat (List.length (els s)) =? 0) eqn:E0.
  { destruct (Nat.eqb (List.length (els s)) 0) eqn:E1; [|lia]. cbn [negb]. apply IH. exact HS. }
  destruct (Nat.eqb (List.length (els s)) 0) eqn:E1; [lia|]. cbn [negb].
  match goal with |- context [bind ?m _] => change m with (attr_step (attr_Name a) s mm) end.
  pose proof (attr_step_permitted (attr_Name a) s mm) as Q.
  destruct (attr_step (attr_Name a) s mm) as [[nm mm1]|e|]; cbn [bind].
  - specialize (IH (data ++ [s]) (props ++ [(attr_Name a, nm)]) mm1 HS).
    destruct (attrs_loop _ _ _ _); auto. constructor; auto. congruence.
  - apply Exists_cons_hd. eauto.
  - exact Q.
Qed.

Lemma kept_supported attr :
  Forall (fun a => forall s, attr_Data a = Some s -> supported s) attr ->
  Forall supported (flat_map data_of (kept attr)).
Proof.
  intros H. apply Forall_forall. intros s Hs. apply in_flat_map in Hs as (a & Ha & Hs).
  unfold kept in Ha. apply filter_In in Ha as [Ha _]. rewrite Forall_forall in H.
  unfold data_of in Hs. destruct (attr_Data a) as [s'|] eqn:E; [|contradiction]. destruct Hs as [->|[]].
  eapply H; eauto.
Qed.

Theorem WritePrimitiveAttributes_err d attr d' e :
  Forall (fun a => forall s, attr_Data a = Some s -> supported s) attr ->
  WritePrimitiveAttributes d attr = Ok (d', Err e) ->
  only_buffers d d' /\
  (~ same_length (flat_map data_of (kept attr)) \/
   d' = d /\ exists a s, In a (kept attr) /\ attr_Data a = Some s /\ ~ attr_permitted (attr_Name a) (sk s)).
Proof.
  intros HS H. unfold WritePrimitiveAttributes in H.
  pose proof (attrs_loop_permitted attr [] [] (repeat 0 3, repeat 0 3) HS) as Q.
  destruct (attrs_loop attr [] [] (repeat 0 3, repeat 0 3)) as [[[data props] [mn mx]]|e0|] eqn:EA; try discriminate.
  - apply attrs_loop_spec in EA as (-> & -> & _). inv_ok H. destruct x as [d1 r1].
    destruct r1 as [idx|e1|]; try discriminate.
    + exfalso. inv_ok H. destruct x as [d3 attrs]. destruct (map_get "POSITION" attrs); [|discriminate].
      inv_ok H. inv_ok H. discriminate.
    + injection H as <- <-. apply WriteAccessorsInterleaved_err in Hx as [HL HO]; auto.
      apply kept_supported; auto.
  - injection H as <- <-. split; [split; [apply extends_refl|auto]|]. right. split; auto.
    apply Exists_exists in Q as (a & Ha & s & Hs & Hp). eauto.
Qed.

Theorem WritePrimitiveAttributes_fail d attr :
  Forall (fun a => forall s, attr_Data a = Some s -> supported s) attr ->
  room d 3 ->
  ~ same_length (flat_map data_of (kept attr)) ->
  exists d' e, WritePrimitiveAttributes d attr = Ok (d', Err e) /\ only_buffers d d'.
Proof.
  intros HS HR HN. unfold WritePrimitiveAttributes.
  pose proof (attrs_loop_permitted attr [] [] (repeat 0 3, repeat 0 3) HS) as Q.
  destruct (attrs_loop attr [] [] (repeat 0 3, repeat 0 3)) as [[[data props] [mn mx]]|e0|] eqn:EA; try contradiction.
  - apply attrs_loop_spec in EA as (-> & -> & _). cbn [app].
    destruct (WriteAccessorsInterleaved_fail d (flat_map data_of (kept attr))) as (d' & -> & HO); auto.
    { apply kept_supported; auto. }
    cbn [bind]. eauto.
  - do 2 eexists. split; [reflexivity|]. split; [apply extends_refl|auto].
Qed.

Lemma update_tail_ok dd old accs n a f :
  nth_error accs n = Some a ->
  update_accessor (with_accs dd old accs) (zlen old + Z.of_nat n) f = Ok (with_accs dd old (set_nth n (f a) accs)).
Proof.
  intros H. unfold zlen. rewrite <- Nat2Z.inj_add.
  rewrite (update_accessor_ok _ (List.length old + n) a).
  - unfold with_accs. cbn [doc_Accessors set_doc_Accessors]. rewrite set_nth_app2 by lia.
    replace (_ + n - _)%nat with n by lia. rewrite set_nth_Some. reflexivity.
  - unfold with_accs. cbn [doc_Accessors set_doc_Accessors]. rewrite nth_error_app2 by lia.
    replace (_ + n - _)%nat with n by lia. rewrite nth_error_map, H. reflexivity.
Qed.

Lemma set_props_progress dd old props : forall m j accs attrs,
  (j + m <= List.length accs)%nat -> (m <= List.length props)%nat ->
  exists accs' attrs', set_props_loop (with_accs dd old accs)
    (map (fun k => zlen old + Z.of_nat k) (seq j m)) props attrs = Ok (with_accs dd old accs', attrs') /\
    List.length accs' = List.length accs.
Proof.
  induction props as [|[name nm] props IH]; intros m j accs attrs H1 H2; (destruct m as [|m]; [cbn; eauto|]).
  - cbn in H2. lia.
  - cbn [seq map set_props_loop List.length] in *.
    destruct (nth_error accs j) as [a|] eqn:Ea; [|apply nth_error_None in Ea; lia].
    rewrite (update_tail_ok _ _ _ _ _ _ Ea). cbn [bind].
    destruct (IH m (S j) (set_nth j (set_acr_Normalized nm a) accs) (map_set name (zlen old + Z.of_nat j) attrs))
      as (accs' & attrs' & E & L).
    + rewrite set_nth_length. lia.
    + lia.
    + rewrite set_nth_length in L. eauto.
Qed.

Theorem WritePrimitiveAttributes_progress d attr s :
  hd_error (flat_map data_of (kept attr)) = Some s ->
  Forall (fun a => forall s, attr_Data a = Some s -> wf_slice s) attr ->
  Forall (fun a => forall s, attr_Data a = Some s -> attr_permitted (attr_Name a) (sk s)) (kept attr) ->
  same_length (flat_map data_of (kept attr)) ->
  Forall (fun s => sk s <> SK CUbyte AScalar) (flat_map data_of (kept attr)) ->
  room d (3 + Z.of_nat (List.length (els s) * sum_sizes (flat_map data_of (kept attr)))) ->
  exists d' m, WritePrimitiveAttributes d attr = Ok (d', Ok m).
Proof.
  intros Hhd HW HPm HSL HU HR. unfold WritePrimitiveAttributes.
  assert (HS : Forall (fun a => forall s, attr_Data a = Some s -> supported s) attr).
  { eapply Forall_impl; [|exact HW]. intros a Ha x Hx. apply wf_slice_supported. auto. }
  pose proof (attrs_loop_permitted attr [] [] (repeat 0 3, repeat 0 3) HS) as Q.
  destruct (attrs_loop attr [] [] (repeat 0 3, repeat 0 3)) as [[[data props] [mn mx]]|e0|] eqn:EA; try contradiction.
  2:{ exfalso. apply Exists_exists in Q as (a & Ha & x & Hx & Hp). rewrite Forall_forall in HPm. eapply Hp, HPm; eauto. }
  apply attrs_loop_spec in EA as (-> & -> & _). cbn [app].
  destruct (flat_map_kept attr) as [HFl HFn].
  destruct (WriteAccessorsInterleaved_progress d (flat_map data_of (kept attr)) s) as (d1 & idx & E); auto.
  { apply Forall_forall. intros x Hx. apply in_flat_map in Hx as (a & Ha & Hx).
    unfold kept in Ha. apply filter_In in Ha as [Ha _]. rewrite Forall_forall in HW.
    unfold data_of in Hx. destruct (attr_Data a) as [s'|] eqn:E; [|contradiction]. destruct Hx as [->|[]]. eapply HW; eauto. }
  { right. split; auto. destruct (kept attr) as [|a l] eqn:EK; [discriminate|].
    destruct (HFn 0%nat a eq_refl) as (s' & Hs' & Hne & Hnth).
    destruct (flat_map data_of (a :: l)); [discriminate|]. cbn in Hhd, Hnth. congruence. }
  rewrite E. cbn [bind].
  apply WriteAccessorsInterleaved_shape in E as [(e & [=] & _)|E].
  destruct E as (d0 & d2 & vi & accs & HP & HV & -> & HF & [= ->] & HN).
  destruct (set_props_progress d2 (doc_Accessors d) (map prop_of (kept attr))
     (List.length (flat_map data_of (kept attr))) 0 accs []) as (accs' & attrs' & ES & HL).
  { destruct HF as [-> _]. lia. }
  { rewrite map_length. lia. }
  rewrite ES. cbn [bind].
  destruct (map_get "POSITION" attrs') as [pos|] eqn:EP; [|eauto].
  assert (HPos : exists k, (k < List.length accs')%nat /\ pos = zlen (doc_Accessors d) + Z.of_nat k).
  { refine (set_props_loop_attrs _ _ _ [] _ _ (fun i => exists k, (k < List.length accs')%nat /\ i = zlen (doc_Accessors d) + Z.of_nat k)
      _ _ ES _ _ EP).
    - apply Forall_forall. intros x Hx. apply in_map_iff in Hx as (k & <- & Hk). apply in_seq in Hk.
      exists k. split; auto. rewrite HL. destruct HF as [-> _]. lia.
    - intros k v Hk. discriminate Hk. }
  destruct HPos as (k & Hk & ->).
  destruct (nth_error accs' k) as [a|] eqn:Ea; [|apply nth_error_None in Ea; lia].
  rewrite (update_tail_ok _ _ _ _ _ _ Ea). cbn [bind].
  erewrite update_tail_ok.
  2:{ rewrite nth_error_set_nth, Nat.eqb_refl. destruct (k <? List.length accs')%nat eqn:E; [reflexivity|lia]. }
  cbn [bind]. eauto.
Qed.

(** ** Sequences *)
Lemma disjoint_sym v w : disjoint_views v w -> disjoint_views w v.
Proof. unfold disjoint_views. intros [H|[H|H]]; auto. Qed.

Theorem run_ops_disjoint ops : forall d d',
  consistent d -> run_ops d ops = Ok d' ->
  forall i j v w, (i < j)%nat -> (List.length (doc_BufferViews d) <= j)%nat ->
    nth_error (doc_BufferViews d') i = Some (Some v) ->
    nth_error (doc_BufferViews d') j = Some (Some w) -> disjoint_views v w.
Proof.
  induction ops as [|op ops IH]; intros d d' C H i j v w Hij Hj Hv Hw; cbn [run_ops] in H.
  - injection H as <-. assert (j < List.length (doc_BufferViews d))%nat by (apply nth_error_Some; congruence). lia.
  - inv_ok H. pose proof Hx as HS. apply run_op_shape in HS as [HS _].
    pose proof (shape_consistent _ _ C HS) as C'.
    destruct (shape_views _ _ HS) as [E|(v0 & E & HP)].
    + eapply IH; eauto. rewrite E. exact Hj.
    + destruct (Nat.eq_dec j (List.length (doc_BufferViews d))) as [->|Hne].
      * pose proof (run_ops_extends _ _ _ H) as (_ & [l El] & _).
        rewrite El, E, <- app_assoc in Hv, Hw.
        rewrite nth_error_app2, Nat.sub_diag in Hw by lia. injection Hw as <-.
        rewrite nth_error_app1 in Hv by lia. apply placed_disjoint with d; auto.
        destruct C as (_ & CV & _). unfold all_some in CV. rewrite Forall_forall in CV.
        destruct (CV _ (nth_error_In _ _ Hv)) as (v' & [= <-] & HVv). exact HVv.
      * eapply IH; eauto. rewrite E, app_length. cbn. lia.
Qed.

Theorem run_op_aligned d op d' :
  run_op d op = Ok d' -> pads op = true ->
  forall j w, (List.length (doc_BufferViews d) <= j)%nat ->
    nth_error (doc_BufferViews d') j = Some (Some w) -> bvw_ByteOffset w mod 4 = 0.
Proof.
  intros H HP j w Hj Hw. apply run_op_shape in H as [_ H].
  destruct (H HP) as [->|HS].
  - assert (j < List.length (doc_BufferViews d))%nat by (apply nth_error_Some; congruence). lia.
  - apply shape_aligned_views in HS as [E|(v & E & HM)]; rewrite E in Hw.
    + assert (j < List.length (doc_BufferViews d))%nat by (apply nth_error_Some; congruence). lia.
    + rewrite nth_error_app2 in Hw by lia. destruct (j - _)%nat as [|[|k]]; try discriminate.
      injection Hw as <-. exact HM.
Qed.

(** The calls that append at most one accessor. *)
Definition single (op : wop) : bool :=
  match op with OpInterleaved _ | OpPrimitiveAttributes _ => false | _ => true end.

Definition new_offset_0 (d d' : Document) : Prop :=
  exists l, doc_Accessors d' = doc_Accessors d ++ map Some l /\ Forall (fun a => acr_ByteOffset a = 0) l.

Lemma WriteAccessor_offset d tgt data d' i :
  WriteAccessor d tgt data = Ok (d', i) ->
  exists a, doc_Accessors d' = doc_Accessors d ++ [Some a] /\ acr_ByteOffset a = 0 /\ i = zlen (doc_Accessors d).
Proof.
  intros H. apply WriteAccessor_inv in H as (c & t & d1 & d2 & _ & _ & _ & -> & -> & HA).
  eexists. unfold add_accessor. cbn [doc_Accessors set_doc_Accessors]. rewrite HA. split; [reflexivity|]. auto.
Qed.

Lemma update_offset l i f d d' a :
  doc_Accessors d = l ++ [Some a] -> i = zlen l -> update_accessor d i f = Ok d' ->
  doc_Accessors d' = l ++ [Some (f a)].
Proof.
  intros H -> HU. apply update_accessor_inv in HU as (n & b & Hn & Hb & ->).
  assert (n = List.length l) as -> by (unfold zlen in Hn; lia).
  rewrite H in *. rewrite nth_error_snoc in Hb. injection Hb as <-.
  cbn [doc_Accessors set_doc_Accessors]. apply set_nth_last.
Qed.

Theorem run_op_offset_0 d op d' : single op = true -> run_op d op = Ok d' -> new_offset_0 d d'.
Proof.
  assert (G1 : forall a, doc_Accessors d' = doc_Accessors d ++ [Some a] -> acr_ByteOffset a = 0 -> new_offset_0 d d').
  { intros a H1 H2. exists [a]. split; auto. }
  assert (G0 : doc_Accessors d' = doc_Accessors d -> new_offset_0 d d').
  { intros H. exists []. rewrite app_nil_r. split; auto. }
  assert (GN : forall ck data i, write_normalized ck d data = Ok (d', i) -> new_offset_0 d d').
  { intros ck data i H. unfold write_normalized in H. inv_ok H. inv_ok H. destruct x0 as [d1 k]. inv_ok H.
    injection H as <- <-. apply WriteAccessor_offset in Hx0 as (a & Ha & H0 & ->).
    eapply G1; [eapply update_offset; eauto|exact H0]. }
  intros HS H. destruct op; try discriminate; cbn [run_op] in H; apply fst_res_inv in H as [b H].
  - unfold WriteIndices in H. destruct (sk d0) as [[] []| | | |]; try discriminate;
      apply WriteAccessor_offset in H as (a & Ha & H0 & _); eauto.
  - apply WriteAccessor_offset in H as (a & Ha & H0 & _); eauto.
  - apply WriteAccessor_offset in H as (a & Ha & H0 & _); eauto.
  - eapply GN; exact H.
  - eapply GN; exact H.
  - unfold WriteJoints in H. inv_ok H. apply WriteAccessor_offset in H as (a & Ha & H0 & _); eauto.
  - apply WriteAccessor_offset in H as (a & Ha & H0 & _); eauto.
  - unfold WritePosition in H. inv_ok H. destruct x as [d1 i]. destruct (minMaxFloat32 d0) as [mn mx].
    inv_ok H. inv_ok H. injection H as <- <-. apply WriteAccessor_offset in Hx as (a & Ha & H0 & ->).
    eapply G1; [eapply update_offset; [eapply update_offset; eauto|reflexivity|eauto]|exact H0].
  - eapply GN; exact H.
  - unfold WriteImage in H. destruct r as [data|e|]; try discriminate.
    + inv_ok H. destruct x as [d1 i]. injection H as <- _. apply G0. cbn [doc_Accessors set_doc_Images].
      unfold WriteBufferView in Hx. inv_ok Hx. destruct x as [d2 r]. apply writeBufferViews_accessors in Hx0.
      destruct r; try discriminate; injection Hx as <- <-; exact Hx0.
    + injection H as <- _. auto.
  - apply WriteAccessor_offset in H as (a & Ha & H0 & _); eauto.
  - unfold WriteBufferView in H. inv_ok H. destruct x as [d2 r]. apply writeBufferViews_accessors in Hx.
    destruct r; try discriminate; injection H as <- <-; auto.
  - apply G0. eapply writeBufferViews_accessors. exact H.
Qed.

Lemma sum_sizes_mod4 data : Forall (fun s => (elem_bytes s mod 4 = 0)%nat) data -> (sum_sizes data mod 4 = 0)%nat.
Proof.
  induction 1 as [|s data Hs _ IH]; [reflexivity|]. rewrite sum_sizes_cons.
  rewrite Nat.add_mod, Hs, IH by lia. reflexivity.
Qed.

Lemma Forall_firstn {A} (P : A -> Prop) k l : Forall P l -> Forall P (firstn k l).
Proof. intros H. revert k. induction H; intros [|k]; cbn; auto. Qed.

Theorem interleaved_offsets d data d' idx :
  WriteAccessorsInterleaved d data = Ok (d', Ok idx) ->
  Forall (fun s => (elem_bytes s mod 4 = 0)%nat) data ->
  forall i a, (List.length (doc_Accessors d) <= i)%nat ->
    nth_error (doc_Accessors d') i = Some (Some a) -> acr_ByteOffset a mod 4 = 0.
Proof.
  intros H HM i a Hi Ha. apply WriteAccessorsInterleaved_shape in H as [(e & [=] & _)|H].
  destruct H as (d0 & d2 & vi & accs & HP & HV & -> & HF & _ & HN).
  unfold with_accs in Ha. cbn [doc_Accessors set_doc_Accessors] in Ha.
  rewrite nth_error_app2, nth_error_map in Ha by lia.
  set (k := (i - _)%nat) in *. destruct (nth_error accs k) as [a'|] eqn:E; [|discriminate]. injection Ha as ->.
  destruct (nth_error data k) as [s|] eqn:Es.
  2:{ apply nth_error_None in Es. assert (k < List.length accs)%nat by (apply nth_error_Some; congruence).
      destruct HF as [HFl _]. lia. }
  destruct (HN k s Es) as (c & t & _ & Hacc). rewrite E in Hacc. injection Hacc as ->.
  cbn [acr_ByteOffset new_accessor set_acr_BufferView set_acr_ByteOffset].
  pose proof (sum_sizes_mod4 _ (Forall_firstn _ k _ HM)) as Q.
  rewrite <- (Nat2Z.inj_mod _ 4), Q. reflexivity.
Qed.

Theorem WritePosition_bounds d data d' i :
  WritePosition d data = Ok (d', i) ->
  exists a, nth_error (doc_Accessors d') (List.length (doc_Accessors d)) = Some (Some a) /\
    i = zlen (doc_Accessors d) /\ (acr_Min a, acr_Max a) = minMaxFloat32 data.
Proof.
  unfold WritePosition. intros H. inv_ok H. destruct x as [d1 k]. destruct (minMaxFloat32 data) as [mn mx].
  inv_ok H. inv_ok H. injection H as <- <-. apply WriteAccessor_offset in Hx as (a & Ha & H0 & ->).
  eapply (update_offset _ _ _ _ _ _ Ha eq_refl) in Hx0.
  eapply (update_offset _ _ _ _ _ _ Hx0 eq_refl) in Hx1.
  exists (set_acr_Max mx (set_acr_Min mn a)). rewrite Hx1, nth_error_snoc. auto.
Qed.
