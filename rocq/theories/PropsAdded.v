(** What the writers add: C99. *)
From Verif Require Import BaseFacts Types Binary SpecLayout BinaryProofs Doc SpecDoc ModelerWrite ModelerWriteProofs ModelerLayoutProofs ModelerShapeProofs ModelerAttrProofs ModelerReadProofs NewDoc SpecAppend PropsAppend SpecAdded.

Lemma i64_in a b : i64 (i64 a + b) = i64 (a + b).
Proof. unfold i64. lia. Qed.
Lemma last_is d pre b : last_buffer_is d pre b -> removelast (doc_Buffers d) = pre /\ last_buffer d = b /\ last_bytes d = zlen (buf_Data b).
Proof.
  unfold last_buffer, last_bytes. intros [E|(E & -> & ->)]; rewrite E; [|auto].
  rewrite rev_app_distr, removelast_last. auto.
Qed.
Lemma set_same_buffers d l m : set_doc_Buffers l (set_doc_Buffers m d) = set_doc_Buffers l d.
Proof. reflexivity. Qed.

Lemma rows_of tgt data st sz : view_loop tgt (List.length data) 0 0 0 0 data = Ok (Ok (st, sz)) ->
  agree data /\ sz = total_bytes data /\ st = row_bytes tgt data.
Proof.
  intros H. pose proof (views_fate tgt data) as F. rewrite H in F. destruct F as (A & B & C & D). split; [exact A|]. split; [exact B|].
  destruct data as [|s [|s2 data]].
  - cbn in H. injection H as <- <-. reflexivity.
  - unfold agree in A. destruct A as [A _]. inversion A as [|? ? (c & t & K) _]; subst. cbn [List.length] in H. rewrite (view_loop_one _ _ _ _ K) in H. injection H as <- _.
    unfold single_stride, row_bytes, padded, elem_bytes. rewrite K. destruct (kind_ct_valid _ _ _ K) as [Hc Ht]. rewrite SizeOfElement_nat by auto. rewrite ByteSize_nat, Components_nat.
    change TargetArrayBuffer with 34962.
    destruct (Nat.eqb_spec (comp_bytes c * (rows t * columns t)) (element_size c t)) as [E|E];
      destruct (Z.eqb_spec (Z.of_nat (comp_bytes c) * Z.of_nat (rows t * columns t)) (Z.of_nat (element_size c t))) as [G|G]; try reflexivity; lia.
  - rewrite C by (cbn; lia). reflexivity.
Qed.

(** Appending without padding. *)
Definition with_view (d : Document) (aligned : bool) (tgt : Z) (data : list slice) (new : bytes) : Document :=
  set_doc_BufferViews (doc_BufferViews d ++ [Some (mkBufferView [] VNull (zlen (removelast (doc_Buffers d))) (start aligned d) (total_bytes data) (row_bytes tgt data) tgt "")])
    (set_doc_Buffers (removelast (doc_Buffers d) ++ [Some (longer (last_buffer d) (start aligned d) new)]) d).
Lemma view_added d tgt data d' r : agree data -> writeBufferViews d tgt data = Ok (d', r) ->
  r = Ok (zlen (doc_BufferViews d)) /\ exists new, zlen new = total_bytes data /\ d' = with_view d false tgt data new.
Proof.
  intros A H. apply writeBufferViews_inv in H as [(e & _ & _ & E)|H].
  { pose proof (views_fate tgt data) as F. rewrite E in F. destruct (other_length_not _ F A). }
  destruct H as (pre & b & st & sz & w & b' & -> & V & L & S0 & _ & _ & WL & WP & -> & ->). split; [reflexivity|].
  apply rows_of in V as (_ & -> & ->). destruct (last_is _ _ _ L) as (R1 & R2 & R3).
  exists (skipn (List.length (buf_Data b)) w).
  assert (Z1 : zlen (skipn (List.length (buf_Data b)) w) = total_bytes data) by (unfold zlen in *; rewrite skipn_length; lia).
  split; [exact Z1|]. unfold with_view, start. rewrite R1, R2, R3. unfold longer. rewrite Z1, Z.sub_diag. cbn [Z.to_nat repeat app].
  unfold mk_view. do 5 f_equal. unfold set_buf_Data, set_buf_ByteLength. cbn. f_equal; [f_equal; lia|].
  rewrite <- WP at 1. symmetry. apply firstn_skipn.
Qed.
Lemma padded_view d d0 tgt data d' r : agree data -> ensurePadding d = Ok d0 -> writeBufferViews d0 tgt data = Ok (d', r) ->
  r = Ok (zlen (doc_BufferViews d)) /\ exists new, zlen new = total_bytes data /\ d' = with_view d true tgt data new.
Proof.
  intros A P H. apply view_added in H as (-> & new & HN & ->); [|exact A].
  apply ensurePadding_inv in P as (pre & b & b' & pad & L & -> & HP & -> & M & _). split; [reflexivity|]. exists new. split; [exact HN|].
  destruct (last_is _ _ _ L) as (R1 & R2 & R3).
  set (b' := set_buf_ByteLength (i64 (buf_ByteLength b + pad)) (set_buf_Data (buf_Data b ++ zeros (Z.to_nat pad)) b)) in *.
  set (d0 := set_doc_Buffers (pre ++ [Some b']) d).
  assert (L0 : last_buffer_is d0 pre b') by (left; reflexivity). destruct (last_is _ _ _ L0) as (Q1 & Q2 & Q3).
  unfold with_view, start, last_padded. rewrite R1, R2, R3, Q1, Q2, Q3.
  assert (Z1 : zlen (buf_Data b') = zlen (buf_Data b) + pad) by (cbn [b' buf_Data set_buf_Data set_buf_ByteLength]; rewrite zlen_app, zlen_zeros by lia; reflexivity).
  rewrite Z1 in *. pose proof (zlen_nonneg (buf_Data b)) as N. assert (E : (zlen (buf_Data b) + 3) / 4 * 4 = zlen (buf_Data b) + pad) by lia. rewrite E.
  unfold longer. rewrite Z1. cbn [b' buf_Data buf_ByteLength buf_URI buf_Name buf_Extras buf_Extensions set_buf_Data set_buf_ByteLength].
  rewrite i64_in. unfold set_doc_BufferViews, set_doc_Buffers. cbn. f_equal. f_equal. f_equal. f_equal. f_equal.
  - f_equal. lia.
  - rewrite Z.sub_diag. cbn [Z.to_nat repeat app]. replace (zlen (buf_Data b) + pad - zlen (buf_Data b)) with pad by lia. unfold zeros. rewrite <- app_assoc. reflexivity.
Qed.

Lemma describes_new vi off s c t : kind_ct (sk s) = Some (c, t) -> describes vi off (mkEntry s false false) (new_accessor vi off c t (zlen (els s))).
Proof. intros K. split; [exists c, t; split; [exact K|reflexivity]|]. split; [split; reflexivity|discriminate]. Qed.
Lemma views_of d al tgt data new : doc_BufferViews (with_view d al tgt data new) = doc_BufferViews d ++ [Some (mkBufferView [] VNull (zlen (removelast (doc_Buffers d))) (start al d) (total_bytes data) (row_bytes tgt data) tgt "")].
Proof. reflexivity. Qed.
Lemma added_accs d op new accs : new_images d op = [] ->
  added d op new accs = with_accs (with_view d (op_aligned op) (op_target op) (op_slices op) new) (doc_Accessors d) accs.
Proof. intros E. unfold added. rewrite E, app_nil_r. reflexivity. Qed.

(** One accessor, before its flag or bounds are set. *)
Lemma accessor_added d tgt s d' i : agree [s] -> WriteAccessor d tgt s = Ok (d', i) ->
  i = zlen (doc_Accessors d) /\ exists new c t, zlen new = total_bytes [s] /\ kind_ct (sk s) = Some (c, t) /\
    d' = with_accs (with_view d true tgt [s] new) (doc_Accessors d) [new_accessor (zlen (doc_BufferViews d)) 0 c t (zlen (els s))].
Proof.
  intros A H. apply WriteAccessor_shape in H as (-> & d0 & d1 & vi & accs & P & V & -> & _ & c & t & K & ->). split; [reflexivity|].
  apply (padded_view _ _ _ _ _ _ A P) in V as (E & new & L & ->). injection E as ->. exists new, c, t. auto.
Qed.
Lemma one_describe vi e a : describes vi 0 e a -> describe vi [e] [a].
Proof. intros H. split; [reflexivity|]. intros [|k] x Hk; cbn in Hk; [injection Hk as <-; exists a; split; [reflexivity|exact H]|destruct k; discriminate]. Qed.

Lemma plain_accessor d tgt s d' i : agree [s] -> WriteAccessor d tgt s = Ok (d', i) ->
  exists new accs, zlen new = total_bytes [s] /\ describe (zlen (doc_BufferViews d)) [mkEntry s false false] accs /\
    d' = with_accs (with_view d true tgt [s] new) (doc_Accessors d) accs.
Proof.
  intros A H. apply accessor_added in H as (_ & new & c & t & L & K & ->); [|exact A].
  exists new. eexists. split; [exact L|]. split; [|reflexivity]. apply one_describe, describes_new, K.
Qed.
Lemma normalized_accessor check d s d' i : agree [s] -> (forall b, check s = Ok b -> b = integer_kind (sk s)) -> write_normalized check d s = Ok (d', i) ->
  exists new accs, zlen new = total_bytes [s] /\ describe (zlen (doc_BufferViews d)) [mkEntry s (integer_kind (sk s)) false] accs /\
    d' = with_accs (with_view d true 34962 [s] new) (doc_Accessors d) accs.
Proof.
  intros A C H. unfold write_normalized in H. destruct (check s) as [b|e|] eqn:EC; cbn [check_or_panic bind] in H; try discriminate. specialize (C b eq_refl). subst b.
  inv_ok H. destruct x as [d1 j]. apply accessor_added in Hx as (-> & new & c & t & L & K & ->); [|exact A]. inv_ok H. injection H as <- <-.
  apply update_tail in Hx as (n & a & En & Ha & ->); [|lia]. assert (n = 0%nat) by lia. subst n. cbn in Ha. injection Ha as <-.
  exists new. eexists. split; [exact L|]. split; [|reflexivity]. cbn [set_nth]. apply one_describe.
  split; [exists c, t; split; [exact K|reflexivity]|]. split; [split; reflexivity|discriminate].
Qed.
Lemma position_accessor d data d' i : WritePosition d data = Ok (d', i) ->
  exists new accs, zlen new = total_bytes [mkSlice (SK CFloat AVec3) data] /\ describe (zlen (doc_BufferViews d)) [mkEntry (mkSlice (SK CFloat AVec3) data) false true] accs /\
    d' = with_accs (with_view d true 34962 [mkSlice (SK CFloat AVec3) data] new) (doc_Accessors d) accs.
Proof.
  intros H. unfold WritePosition in H. inv_ok H. destruct x as [d1 j]. apply accessor_added in Hx as (-> & new & c & t & L & K & ->); [|apply agree_one; eexists; eexists; reflexivity].
  destruct (minMaxFloat32 data) as [mn mx] eqn:EM. inv_ok H. inv_ok H. injection H as <- <-.
  apply update_tail in Hx as (n & a & En & Ha & ->); [|lia]. assert (n = 0%nat) by lia. subst n. cbn in Ha. injection Ha as <-.
  apply update_tail in Hx0 as (n & a & En2 & Ha & ->); [|lia]. assert (n = 0%nat) by lia. subst n. cbn in Ha. injection Ha as <-.
  exists new. eexists. split; [exact L|]. split; [|reflexivity]. cbn [set_nth]. apply one_describe.
  split; [exists c, t; split; [exact K|reflexivity]|]. split; [discriminate|]. intros _ NE W F. cbn in K, NE, W, F |- *. exact (minMax_spec _ _ _ NE W F EM).
Qed.
Lemma interleaved_added d data d' r : agree data -> WriteAccessorsInterleaved d data = Ok (d', r) ->
  exists new accs, zlen new = total_bytes data /\ d' = with_accs (with_view d true 34962 data new) (doc_Accessors d) accs /\
    List.length accs = List.length data /\ r = Ok (map (fun k => zlen (doc_Accessors d) + Z.of_nat k) (seq 0 (List.length data))) /\
    forall k s, nth_error data k = Some s -> exists c t, kind_ct (sk s) = Some (c, t) /\
      nth_error accs k = Some (new_accessor (zlen (doc_BufferViews d)) (Z.of_nat (sum_sizes (firstn k data))) c t (zlen (els s))).
Proof.
  intros A H. apply WriteAccessorsInterleaved_shape in H as [(e & _ & _ & E)|H].
  { pose proof (views_fate TargetArrayBuffer data) as F. rewrite E in F. destruct (other_length_not _ F A). }
  destruct H as (d0 & d1 & vi & accs & P & V & -> & (F & _) & -> & N). apply (padded_view _ _ _ _ _ _ A P) in V as (E & new & L & ->). injection E as ->.
  exists new, accs. auto.
Qed.
Lemma plain_entries data k : map e_slice (map (fun s => mkEntry s false false) data) = data /\ nth_error (map (fun s => mkEntry s false false) data) k = option_map (fun s => mkEntry s false false) (nth_error data k).
Proof. split; [rewrite map_map; apply map_id|apply nth_error_map]. Qed.

(** ** Attributes *)
Definition named (p : string * slice) : string * bool := (fst p, flagged (fst p) (snd p)).
Lemma kept_named l : flat_map data_of (kept l) = map snd (flat_map with_data l) /\ map prop_of (kept l) = map named (flat_map with_data l) /\ attr_slices l = map snd (flat_map with_data l).
Proof.
  rewrite kept_slices. induction l as [|a l (IH1 & IH2 & IH3)]; [auto|]. unfold kept, attr_slices in *. cbn [filter flat_map]. unfold attr_nonempty at 1.
  assert (W : with_data a = match attr_Data a with Some s => match els s with [] => [] | _ => [(attr_Name a, s)] end | None => [] end) by reflexivity. rewrite W. clear W.
  destruct (attr_Data a) as [s|] eqn:E; [|auto]. destruct (els s) as [|v vs] eqn:EE; cbn [List.length Nat.eqb negb map app]; [auto|].
  refine (conj _ (conj _ _)); [f_equal; exact IH1| |f_equal; exact IH3]. f_equal; [|exact IH2]. unfold prop_of, named. rewrite E. reflexivity.
Qed.
Fixpoint last_position (l : list (string * slice)) : option slice :=
  match l with [] => None | p :: r => match last_position r with Some s => Some s | None => if is_position p then Some (snd p) else None end end.
Lemma attrs_mm l : forall data props mm data' props' mm', attrs_loop l data props mm = Ok (data', props', mm') ->
  mm' = match last_position (flat_map with_data l) with Some s => minMaxFloat32 (els s) | None => mm end.
Proof.
  induction l as [|a l IH]; intros data props mm data' props' mm' H; cbn [attrs_loop] in H; [injection H as <- <- <-; reflexivity|].
  inv_ok H. cbn [flat_map]. unfold with_data at 1. destruct (attr_Data a) as [s|] eqn:Ea; [|apply IH in H; exact H].
  assert (x = zlen (els s)) as -> by (cbn in Hx; destruct (sk s); congruence).
  destruct (els s) as [|v vs] eqn:EE; [cbn in H; apply IH in H; exact H|].
  replace (zlen (v :: vs) =? 0) with false in H by (unfold zlen; cbn [List.length]; lia). inv_ok H. destruct x as [nm mm1]. apply IH in H. cbn [app last_position snd]. subst mm'.
  destruct (last_position (flat_map with_data l)); [reflexivity|]. unfold is_position. cbn [fst].
  destruct (String.eqb (attr_Name a) "POSITION"); [destruct (sk s) as [[] []| | | |]; try discriminate; injection Hx0 as <- <-; rewrite EE; reflexivity|].
  destruct (_ || _); [inv_ok Hx0; injection Hx0 as <- <-; reflexivity|].
  repeat (match type of Hx0 with (if ?b then _ else _) = _ => destruct b end; [inv_ok Hx0; injection Hx0 as <- <-; reflexivity|]). injection Hx0 as <- <-. reflexivity.
Qed.
Fixpoint last_index (name : string) (j : nat) (l : list string) : option nat :=
  match l with [] => None | n :: r => match last_index name (S j) r with Some k => Some k | None => if String.eqb name n then Some j else None end end.
Lemma last_index_get old props : forall j m attrs name, (List.length props = m)%nat ->
  map_get name (fold_left (fun at_ '(k, (name, _)) => map_set name (zlen old + Z.of_nat k) at_) (combine (seq j m) props) attrs : list (string * Z)) =
  match last_index name j (map fst (props : list (string * bool))) with Some k => Some (@zlen (option Accessor) old + Z.of_nat k) | None => map_get name attrs end.
Proof.
  induction props as [|[nm b] props IH]; intros j m attrs name Hm; cbn in Hm; subst m; [reflexivity|].
  cbn [seq combine fold_left map fst last_index]. rewrite IH by auto. rewrite map_get_map_set. destruct (last_index name (S j) (map fst props)); [reflexivity|].
  destruct (String.eqb name nm); reflexivity.
Qed.
Lemma last_index_spec name l : forall j k, last_index name j l = Some k <-> (j <= k)%nat /\ nth_error l (k - j) = Some name /\ forall i, (k - j < i)%nat -> nth_error l i <> Some name.
Proof.
  induction l as [|n l IH]; intros j k; cbn [last_index].
  { split; [discriminate|]. intros (_ & H & _). destruct (k - j)%nat; discriminate. }
  destruct (last_index name (S j) l) as [m|] eqn:E.
  - pose proof (proj1 (IH (S j) m) E) as (A & B & C). split.
    + intros [= <-]. split; [lia|]. replace (m - j)%nat with (S (m - S j)) by lia. split; [exact B|]. intros [|i] Hi; [lia|]. apply C. lia.
    + intros (A' & B' & C'). f_equal. destruct (Nat.lt_trichotomy m k) as [H|[H|H]]; [|exact H|].
      * exfalso. apply (C (k - S j)%nat); [lia|]. replace (k - j)%nat with (S (k - S j)) in B' by lia. exact B'.
      * exfalso. apply (C' (m - j)%nat); [lia|]. replace (m - j)%nat with (S (m - S j)) by lia. exact B.
  - assert (N : forall i, nth_error l i <> Some name).
    { (* otherwise there is a last one *) intros i Hi. assert (X : exists m, last_index name (S j) l = Some m).
      { clear -Hi. revert j i Hi. induction l as [|x l IHl]; intros j i Hi; [destruct i; discriminate|]. cbn [last_index]. destruct i as [|i]; cbn in Hi.
        - injection Hi as ->. destruct (last_index name (S (S j)) l); [eauto|]. rewrite String.eqb_refl. eauto.
        - destruct (IHl (S j) i Hi) as (m & ->). eauto. }
      destruct X as (m & X). congruence. }
    destruct (String.eqb name n) eqn:EN.
    + apply String.eqb_eq in EN. subst n. split.
      * intros [= <-]. rewrite Nat.sub_diag. split; [lia|]. split; [reflexivity|]. intros [|i] Hi; [lia|]. apply N.
      * intros (A & B & _). destruct (k - j)%nat as [|i] eqn:EK; [f_equal; lia|]. destruct (N i B).
    + split; [discriminate|]. intros (_ & B & _). destruct (k - j)%nat as [|i]; [|destruct (N i B)]. cbn in B. injection B as ->. rewrite String.eqb_refl in EN. discriminate.
Qed.
Lemma entries_slices l : map e_slice (attr_entries l) = map snd l.
Proof. induction l as [|[n s] l IH]; [reflexivity|]. cbn. f_equal. exact IH. Qed.
Lemma entries_nth l : forall k e, nth_error (attr_entries l) k = Some e -> exists name, nth_error l k = Some (name, e_slice e) /\ e_normalized e = flagged name (e_slice e) /\
  (e_bounds e = true -> last_position l = Some (e_slice e)) /\ (forall j, e_bounds e = true <-> last_index "POSITION" j (map fst l) = Some (j + k)%nat).
Proof.
  assert (NP : forall r, existsb is_position r = false <-> last_position r = None).
  { induction r as [|p r IHr]; [tauto|]. cbn. rewrite orb_false_iff, IHr. destruct (last_position r), (is_position p); clear; (split; [intros [X Y]; congruence|intros X; split; congruence]). }
  assert (NI : forall r j, existsb is_position r = false <-> last_index "POSITION" j (map fst r) = None).
  { induction r as [|p r IHr]; [intros; cbn; tauto|]. intros j. cbn [existsb map last_index]. rewrite orb_false_iff, (IHr (S j)). unfold is_position. rewrite (String.eqb_sym (fst p)).
    destruct (last_index "POSITION" (S j) (map fst r)), (String.eqb "POSITION" (fst p)); clear; (split; [intros [X Y]; congruence|intros X; split; congruence]). }
  induction l as [|[n s] l IH]; intros k e H; [destruct k; discriminate|]. destruct k as [|k]; cbn [attr_entries nth_error] in H.
  - injection H as <-. exists n. cbn [e_slice e_normalized e_bounds nth_error]. split; [reflexivity|]. split; [symmetry; apply flagged_spec|].
    split.
    + intros B. apply andb_prop in B as [B1 B2]. apply negb_true_iff in B2. apply NP in B2. cbn [last_position snd]. rewrite B2, B1. reflexivity.
    + intros j. cbn [map fst last_index]. rewrite Nat.add_0_r. split.
      * intros B. apply andb_prop in B as [B1 B2]. apply negb_true_iff in B2. apply (NI _ (S j)) in B2. rewrite B2. unfold is_position in B1. cbn in B1. rewrite String.eqb_sym, B1. reflexivity.
      * destruct (last_index "POSITION" (S j) (map fst l)) as [m|] eqn:E.
        { intros [= ->]. apply last_index_spec in E as (E & _). lia. }
        intros B. apply (NI _ (S j)) in E. rewrite E. unfold is_position. cbn [fst negb]. rewrite String.eqb_sym. destruct (String.eqb "POSITION" n); [reflexivity|discriminate].
  - destruct (IH k e H) as (name & A & B & C & D). exists name. split; [exact A|]. split; [exact B|]. split.
    + intros X. cbn. rewrite (C X). reflexivity.
    + intros j. rewrite (D (S j)). cbn [map last_index]. replace (S j + k)%nat with (j + S k)%nat by lia. destruct (last_index "POSITION" (S j) (map fst l)) as [m|]; [reflexivity|].
      split; [discriminate|]. destruct (String.eqb "POSITION" (fst (n, s))); [intros [= E]; lia|discriminate].
Qed.
Lemma entries_length l : List.length (attr_entries l) = List.length l.
Proof. rewrite <- (map_length e_slice), entries_slices, map_length. reflexivity. Qed.

Lemma attributes_added d l d' r : Forall fine l -> agree (attr_slices l) -> WritePrimitiveAttributes d l = Ok (d', r) ->
  exists new accs m, zlen new = total_bytes (attr_slices l) /\ describe (zlen (doc_BufferViews d)) (attr_entries (flat_map with_data l)) accs /\
    d' = with_accs (with_view d true 34962 (attr_slices l) new) (doc_Accessors d) accs /\ r = Ok m /\
    forall name, map_get name m = option_map (fun k => zlen (doc_Accessors d) + Z.of_nat k) (last_index name 0 (map fst (flat_map with_data l))).
Proof.
  intros FN A H. unfold WritePrimitiveAttributes in H.
  destruct (attrs_loop l [] [] (repeat 0 3, repeat 0 3)) as [[[data props] [mn mx]]|e|] eqn:EA; try discriminate.
  2:{ pose proof (attrs_fate l [] [] (repeat 0 3, repeat 0 3)) as F. rewrite EA in F. destruct (first_not_all _ _ refused_not F FN). }
  pose proof (attrs_mm _ _ _ _ _ _ _ EA) as HM. apply attrs_loop_spec in EA as (-> & -> & _ & _). cbn [app] in H.
  destruct (kept_named l) as (K1 & K2 & K3). rewrite K1, K2 in H. rewrite K3 in *. set (es := flat_map with_data l) in *. clearbody es. clear K1 K2 K3 FN l.
  inv_ok H. destruct x as [d1 r1]. apply interleaved_added in Hx as (new & accs & L & -> & HL & -> & HN); [|exact A].
  inv_ok H. destruct x as [d3 attrs]. apply set_props_spec in Hx as (accs1 & -> & Hl1 & Hn1 & Hattrs).
  set (vi := zlen (doc_BufferViews d)) in *. set (dd := with_view d true 34962 (map snd es) new) in *. set (old := doc_Accessors d) in *.
  assert (HG : forall name, map_get name attrs = option_map (fun k => zlen old + Z.of_nat k) (last_index name 0 (map fst es))).
  { intros name. subst attrs. rewrite last_index_get by (rewrite !map_length; reflexivity). rewrite map_map. cbn [named fst]. destruct (last_index _ _ _); reflexivity. }
  (* the accessors before the bounds are set *)
  assert (HA : forall k e, nth_error (attr_entries es) k = Some e -> exists c t, kind_ct (sk (e_slice e)) = Some (c, t) /\
     nth_error accs1 k = Some (set_acr_Normalized (e_normalized e) (new_accessor vi (Z.of_nat (sum_sizes (firstn k (map e_slice (attr_entries es))))) c t (zlen (els (e_slice e)))))).
  { intros k e Hk. destruct (entries_nth es k e Hk) as (name & A1 & A2 & _). rewrite entries_slices.
    assert (A3 : nth_error (map snd es) k = Some (e_slice e)) by (rewrite nth_error_map, A1; reflexivity).
    destruct (HN k _ A3) as (c & t & K & Ha). exists c, t. split; [exact K|]. rewrite Hn1, Ha.
    assert (k < List.length (map snd es))%nat by (apply nth_error_Some; congruence).
    destruct ((0 <=? k)%nat && (k <? 0 + List.length (map snd es))%nat) eqn:E; [|lia].
    rewrite Nat.sub_0_r, nth_error_map, A1, A2. reflexivity. }
  assert (HL1 : List.length accs1 = List.length (attr_entries es)) by (rewrite entries_length, Hl1, HL, map_length; reflexivity).
  assert (PL : forall off e c t, e_bounds e = false -> kind_ct (sk (e_slice e)) = Some (c, t) -> describes vi off e (set_acr_Normalized (e_normalized e) (new_accessor vi off c t (zlen (els (e_slice e)))))).
  { intros off e c t B K. split; [exists c, t; split; [exact K|reflexivity]|]. split; [split; reflexivity|congruence]. }
  destruct (map_get "POSITION" attrs) as [pos|] eqn:EP.
  - inv_ok H. inv_ok H. injection H as <- <-. rewrite HG in EP. destruct (last_index "POSITION" 0 (map fst es)) as [kp|] eqn:EI; [|discriminate]. cbn in EP. injection EP as <-.
    apply update_tail in Hx as (n1 & a1 & En1 & Ha1 & ->); [|lia]. assert (n1 = kp) as -> by lia.
    apply update_tail in Hx0 as (n2 & a2 & En2 & Ha2 & ->); [|lia]. assert (n2 = kp) as -> by lia.
    rewrite nth_error_set_nth, Nat.eqb_refl in Ha2.
    assert (HLp : (kp < List.length accs1)%nat) by (apply nth_error_Some; congruence).
    replace (kp <? List.length accs1)%nat with true in Ha2 by lia. injection Ha2 as <-.
    exists new. eexists. exists attrs. split; [exact L|]. split; [|split; [reflexivity|split; [reflexivity|exact HG]]].
    split; [rewrite !set_nth_length; exact HL1|]. intros k e Hk. destruct (HA k e Hk) as (c & t & K & Ha). destruct (entries_nth es k e Hk) as (name & _ & _ & A3 & A4).
    rewrite !nth_error_set_nth, set_nth_length. destruct (Nat.eqb_spec k kp) as [->|NE].
    + replace (kp <? List.length accs1)%nat with true by lia. rewrite Ha in Ha1. injection Ha1 as <-. eexists. split; [reflexivity|].
      assert (B : e_bounds e = true) by (apply (A4 0%nat); exact EI). rewrite (A3 B) in HM.
      split; [exists c, t; split; [exact K|reflexivity]|]. split; [congruence|]. intros _ N0 W F. cbn [acr_Min acr_Max set_acr_Max set_acr_Min]. exact (minMax_spec _ _ _ N0 W F (eq_sym HM)).
    + eexists. split; [exact Ha|]. apply PL; [|exact K]. destruct (e_bounds e) eqn:B; [|reflexivity]. exfalso. apply NE. assert (X : last_index "POSITION" 0 (map fst es) = Some (0 + k)%nat) by (apply A4; reflexivity). rewrite EI in X. injection X as ->. reflexivity.
  - injection H as <- <-. exists new, accs1, attrs. split; [exact L|]. split; [|auto].
    split; [exact HL1|]. intros k e Hk. destruct (HA k e Hk) as (c & t & K & Ha). destruct (entries_nth es k e Hk) as (name & _ & _ & A3 & A4).
    eexists. split; [exact Ha|]. apply PL; [|exact K]. destruct (e_bounds e) eqn:B; [|reflexivity]. exfalso. assert (X : last_index "POSITION" 0 (map fst es) = Some (0 + k)%nat) by (apply A4; reflexivity). rewrite HG, X in EP. discriminate.
Qed.

(** ** C99 *)
Lemma written_agree d tgt data d' i : writeBufferViews d tgt data = Ok (d', Ok i) -> agree data.
Proof.
  intros H. apply writeBufferViews_inv in H as [(e & E & _)|H]; [discriminate|].
  destruct H as (pre & b & st & sz & w & b' & _ & V & _). exact (proj1 (rows_of _ _ _ _ V)).
Qed.
Lemma success_accepted d l d' m : WritePrimitiveAttributes d l = Ok (d', Ok m) -> Forall fine l /\ agree (attr_slices l).
Proof.
  unfold WritePrimitiveAttributes. intros H. pose proof (attrs_fate l [] [] (repeat 0 3, repeat 0 3)) as F.
  destruct (attrs_loop l [] [] (repeat 0 3, repeat 0 3)) as [[[data props] [mn mx]]|e|] eqn:EA; try discriminate. split; [exact F|].
  apply attrs_loop_spec in EA as (-> & _). cbn [app] in H. rewrite kept_slices in H. inv_ok H. destruct x as [d1 r1].
  apply WriteAccessorsInterleaved_shape in Hx as [(e & -> & _)|(d0 & d2 & vi & accs & _ & V & _)]; [discriminate|]. exact (written_agree _ _ _ _ _ V).
Qed.

Theorem C99_added d op d' : accepted op -> run_op d op = Ok d' ->
  exists new accs, zlen new = total_bytes (op_slices op) /\ describe (zlen (doc_BufferViews d)) (op_entries op) accs /\ d' = added d op new accs.
Proof.
  intros A H.
  assert (FIN : forall d', new_images d op = [] -> (exists new accs, zlen new = total_bytes (op_slices op) /\ describe (zlen (doc_BufferViews d)) (op_entries op) accs /\
      d' = with_accs (with_view d (op_aligned op) (op_target op) (op_slices op) new) (doc_Accessors d) accs) ->
    exists new accs, zlen new = total_bytes (op_slices op) /\ describe (zlen (doc_BufferViews d)) (op_entries op) accs /\ d' = added d op new accs).
  { intros x E (new & accs & H1 & H2 & ->). exists new, accs. split; [exact H1|]. split; [exact H2|]. symmetry. apply added_accs. exact E. }
  assert (NOACC : forall new d1, with_accs (with_view d (op_aligned op) (op_target op) (op_slices op) new) (doc_Accessors d) [] = d1 -> with_view d (op_aligned op) (op_target op) (op_slices op) new = d1).
  { intros new d1 <-. unfold with_accs. rewrite app_nil_r. destruct d; reflexivity. }
  assert (NONE : describe (zlen (doc_BufferViews d)) [] []) by (split; [reflexivity|intros [|k] e E; discriminate]).
  destruct op; cbn [run_op accepted] in *;
    match type of H with fst_res ?r = _ => destruct r as [[d1 i]|e|] eqn:E; cbn in H; try discriminate; injection H as -> end;
    try (apply FIN; [reflexivity|]); cbn [op_slices op_entries op_aligned op_target map] in *.
  - unfold WriteIndices in E. destruct (sk d0) as [[] []| | | |]; try discriminate; exact (plain_accessor _ _ _ _ _ A E).
  - exact (plain_accessor _ _ _ _ _ A E).
  - exact (plain_accessor _ _ _ _ _ A E).
  - refine (normalized_accessor _ _ _ _ _ A _ E). unfold checkTextureCoord, integer_kind. destruct (sk d0) as [[] []| | | |]; intros b; try discriminate; intros [= <-]; reflexivity.
  - refine (normalized_accessor _ _ _ _ _ A _ E). unfold checkWeights, integer_kind. destruct (sk d0) as [[] []| | | |]; intros b; try discriminate; intros [= <-]; reflexivity.
  - unfold WriteJoints in E. destruct (checkJoints d0); cbn [check_or_panic bind] in E; try discriminate. exact (plain_accessor _ _ _ _ _ A E).
  - exact (plain_accessor _ _ _ _ _ A E).
  - exact (position_accessor _ _ _ _ E).
  - refine (normalized_accessor _ _ _ _ _ A _ E). unfold checkColor, integer_kind. destruct (sk d0) as [[] []| | | |]; intros b; try discriminate; intros [= <-]; reflexivity.
  - destruct r as [data|e|]; try contradiction. unfold WriteImage, WriteBufferView in E. cbn [op_slices].
    set (s := mkSlice (SK CUbyte AScalar) (map (fun b => [b2z b]) data)) in *. inv_ok E. destruct x as [d2 j]. inv_ok Hx. destruct x as [d3 r3].
    apply view_added in Hx0 as (-> & new & L & ->); [|apply agree_one; eexists; eexists; reflexivity]. injection Hx as <- <-. injection E as <- <-.
    exists new, []. split; [exact L|]. split; [exact NONE|]. unfold added, op_aligned, op_target, new_view, new_images. cbn [op_slices]. fold s. rewrite app_nil_r. reflexivity.
  - exact (plain_accessor _ _ _ _ _ A E).
  - apply interleaved_added in E as (new & accs & L & -> & HL & _ & HN); [|exact A]. exists new, accs. split; [exact L|]. split; [|reflexivity].
    split; [rewrite map_length; exact HL|]. intros k e Hk. destruct (plain_entries d0 k) as [P1 P2]. rewrite P2 in Hk. rewrite P1. destruct (nth_error d0 k) as [s|] eqn:Es; [|discriminate]. cbn in Hk. injection Hk as <-.
    destruct (HN k s Es) as (c & t & K & Ha). eexists. split; [exact Ha|]. apply describes_new. exact K.
  - destruct A as [FN A]. apply attributes_added in E as (new & accs & m & L & D & -> & _); [|exact FN|exact A]. exists new, accs. auto.
  - unfold WriteBufferView in E. inv_ok E. destruct x as [d3 r3]. apply view_added in Hx as (-> & new & L & ->); [|exact A]. injection E as <- <-.
    exists new, []. split; [exact L|]. split; [exact NONE|]. symmetry. unfold with_accs. cbn [map]. rewrite app_nil_r. destruct d; reflexivity.
  - apply view_added in E as (-> & new & L & ->); [|exact A].
    exists new, []. split; [exact L|]. split; [exact NONE|]. symmetry. unfold with_accs. cbn [map]. rewrite app_nil_r. destruct d; reflexivity.
Qed.
Print Assumptions C99_added.

(** The names of the written attributes: the last of equal names is kept. *)
Theorem C99_names d l d' m name i : WritePrimitiveAttributes d l = Ok (d', Ok m) ->
  (map_get name m = Some i <-> exists k, i = zlen (doc_Accessors d) + Z.of_nat k /\ nth_error (map fst (flat_map with_data l)) k = Some name /\
     forall j, (k < j)%nat -> nth_error (map fst (flat_map with_data l)) j <> Some name).
Proof.
  intros H. destruct (success_accepted _ _ _ _ H) as [F A]. destruct (attributes_added _ _ _ _ F A H) as (new & accs & m' & _ & _ & _ & E & G). injection E as ->. rewrite G. clear -G. split.
  - destruct (last_index name 0 (map fst (flat_map with_data l))) as [k|] eqn:E; [|discriminate]. cbn. intros [= <-]. apply last_index_spec in E as (_ & B & C). rewrite Nat.sub_0_r in *. exists k. auto.
  - intros (k & -> & B & C). rewrite (proj2 (last_index_spec name (map fst (flat_map with_data l)) 0 k)); [reflexivity|]. rewrite Nat.sub_0_r. split; [lia|]. auto.
Qed.
Print Assumptions C99_names.

(** Whatever is called, and whether or not it succeeds, the rest of the document
    stays as it was. *)
Definition elsewhere_same (d d' : Document) : Prop :=
  d' = mkDocument (doc_Extensions d) (doc_Extras d) (doc_ExtensionsUsed d) (doc_ExtensionsRequired d)
    (doc_Accessors d') (doc_Animations d) (doc_Asset d) (doc_Buffers d') (doc_BufferViews d') (doc_Cameras d) (doc_Images d') (doc_Materials d) (doc_Meshes d) (doc_Nodes d) (doc_Samplers d)
    (doc_Scene d) (doc_Scenes d) (doc_Skins d) (doc_Textures d).
Lemma same_refl d : elsewhere_same d d. Proof. destruct d. reflexivity. Qed.
Lemma same_trans a b c : elsewhere_same a b -> elsewhere_same b c -> elsewhere_same a c.
Proof. unfold elsewhere_same. intros H G. rewrite G. rewrite H. reflexivity. Qed.
Lemma padding_same d d' : ensurePadding d = Ok d' -> elsewhere_same d d'.
Proof. intros H. apply ensurePadding_inv in H as (? & ? & ? & ? & _ & -> & _). reflexivity. Qed.
Lemma views_same d tgt data d' r : writeBufferViews d tgt data = Ok (d', r) -> elsewhere_same d d'.
Proof. intros H. apply writeBufferViews_inv in H as [(e & _ & -> & _)|(? & ? & ? & ? & ? & ? & _ & _ & _ & _ & _ & _ & _ & _ & _ & ->)]; [apply same_refl|reflexivity]. Qed.
Theorem C99_elsewhere ops : forall d d', run_ops d ops = Ok d' -> elsewhere_same d d'.
Proof.
  induction ops as [|op ops IH]; intros d d' H; cbn [run_ops] in H; [injection H as <-; apply same_refl|].
  inv_ok H. apply IH in H. refine (same_trans _ _ _ _ H). apply run_op_shape in Hx as [Hx _]. destruct Hx as [->|tgt data r V|data d1 vi im V _ ->|d0 P ->|d0 tgt data d1 vi accs P V -> _].
  - apply same_refl.
  - exact (views_same _ _ _ _ _ V).
  - refine (same_trans _ _ _ (views_same _ _ _ _ _ V) _). reflexivity.
  - exact (padding_same _ _ P).
  - refine (same_trans _ _ _ (padding_same _ _ P) (same_trans _ _ _ (views_same _ _ _ _ _ V) _)). reflexivity.
Qed.
Print Assumptions C99_elsewhere.

(** A new document has one scene, which is the default one, and nothing else;
    this stays so whatever is written to it. *)
Theorem C99_new ops d : run_ops NewDocument ops = Ok d ->
  d = mkDocument [] VNull [] [] (doc_Accessors d) [] (doc_Asset d) (doc_Buffers d) (doc_BufferViews d) [] (doc_Images d) [] [] [] [] (Some 0) [Some (mkScene [] VNull "Root Scene" [])] [] [] /\
  ast_Version (doc_Asset d) = "2.0"%string /\ ast_MinVersion (doc_Asset d) = ""%string /\
  ast_Generator (doc_Asset d) = "qmuntal/gltf"%string /\ ast_Copyright (doc_Asset d) = ""%string /\
  (ops = [] -> doc_Accessors d = [] /\ doc_Buffers d = [] /\ doc_BufferViews d = [] /\ doc_Images d = []).
Proof.
  intros H. pose proof (C99_elsewhere _ _ _ H) as E. unfold elsewhere_same in E. split; [rewrite E; reflexivity|].
  do 4 (split; [rewrite E; reflexivity|]). intros ->. cbn in H. injection H as <-. repeat split.
Qed.
Print Assumptions C99_new.

(** Two calls after each other; a second attribute of the same name. *)
Definition tex : slice := mkSlice (SK CUbyte AVec2) [[1; 2]; [3; 4]].
Definition pos1 : list elem := [[0x3f800000; 0; 0]; [0xbf800000; 0x40000000; 0]].
Example C99_example :
  accepted (OpTextureCoord tex) /\ accepted (OpPosition pos1) /\
  (exists d1 d2 a1 a2, run_op NewDocument (OpTextureCoord tex) = Ok d1 /\ run_op d1 (OpPosition pos1) = Ok d2 /\
     doc_Accessors d2 = [Some a1; Some a2] /\ acr_Normalized a1 = true /\ acr_Normalized a2 = false /\ acr_Min a1 = [] /\ List.length (acr_Min a2) = 3%nat /\
     map (option_map (fun v => (bvw_ByteOffset v, bvw_ByteLength v, bvw_ByteStride v))) (doc_BufferViews d2) = [Some (0, 8, 4); Some (8, 24, 0)] /\
     map (option_map buf_ByteLength) (doc_Buffers d2) = [Some 32]) /\
  (exists d' m, WritePrimitiveAttributes NewDocument [mkAttr "TEXCOORD_0" (Some tex); mkAttr "_A" None; mkAttr "TEXCOORD_0" (Some tex)] = Ok (d', Ok m) /\ map_get "TEXCOORD_0" m = Some 1).
Proof.
  refine (conj _ (conj _ (conj _ _))).
  - apply agree_one. eexists; eexists; reflexivity.
  - apply agree_one. eexists; eexists; reflexivity.
  - do 4 eexists. split; [vm_compute; reflexivity|]. split; [vm_compute; reflexivity|]. repeat split.
  - do 2 eexists. split; vm_compute; reflexivity.
Qed.
