(** Proofs about modeler/write.go: the shape of what each writer appends, and
    the structural validity of the resulting document. *)
From Verif Require Import BaseFacts Types Binary SpecLayout BinaryProofs SliceProofs Doc F64 SpecDoc
  ModelerWrite ModelerRead ModelerWriteProofs ModelerReadProofs ModelerLayoutProofs.

(** ** Accessors up to normalized, min and max *)
Definition same_core (a b : Accessor) : Prop :=
  acr_BufferView a = acr_BufferView b /\ acr_ByteOffset a = acr_ByteOffset b /\
  acr_ComponentType a = acr_ComponentType b /\ acr_Type a = acr_Type b /\
  acr_Count a = acr_Count b /\ acr_Sparse a = acr_Sparse b.

Lemma same_core_refl a : same_core a a.
Proof. repeat split. Qed.

Lemma same_core_trans a b c : same_core a b -> same_core b c -> same_core a c.
Proof. intros (?&?&?&?&?&?) (?&?&?&?&?&?). repeat split; congruence. Qed.

Lemma same_core_read d a b buf p : same_core a b -> ReadAccessor d a buf p = ReadAccessor d b buf p.
Proof.
  intros (H1 & H2 & H3 & H4 & H5 & H6). unfold ReadAccessor. rewrite H1, H2, H3, H4, H5, H6. reflexivity.
Qed.

Lemma same_core_valid d a b : same_core a b -> valid_accessor d b -> valid_accessor d a.
Proof.
  intros (H1 & H2 & H3 & H4 & H5 & H6). unfold valid_accessor. rewrite H1, H2, H3, H4, H5, H6. auto.
Qed.

Lemma same_core_Normalized b a : same_core (set_acr_Normalized b a) a.
Proof. repeat split. Qed.
Lemma same_core_Min b a : same_core (set_acr_Min b a) a.
Proof. repeat split. Qed.
Lemma same_core_Max b a : same_core (set_acr_Max b a) a.
Proof. repeat split. Qed.

Lemma Forall2_same_refl l : Forall2 same_core l l.
Proof. induction l; constructor; auto. apply same_core_refl. Qed.

Lemma Forall2_same_trans l m n : Forall2 same_core l m -> Forall2 same_core m n -> Forall2 same_core l n.
Proof.
  intros H. revert n. induction H; intros n G; inversion G; subst; constructor; auto.
  eapply same_core_trans; eauto.
Qed.

Definition with_accs (dd : Document) (old : list (option Accessor)) (accs : list Accessor) : Document :=
  set_doc_Accessors (old ++ map Some accs) dd.

Lemma set_nth_Some n a (accs : list Accessor) :
  set_nth n (Some a) (map Some accs) = map Some (set_nth n a accs).
Proof. revert n; induction accs; intros [|n]; cbn; auto. rewrite IHaccs. reflexivity. Qed.

Lemma set_nth_core n a accs f :
  (forall x, same_core (f x) x) -> nth_error accs n = Some a ->
  Forall2 same_core (set_nth n (f a) accs) accs.
Proof.
  intros Hf. revert n; induction accs as [|x accs IH]; intros [|n] H; cbn in *; try discriminate.
  - injection H as ->. constructor; [apply Hf|apply Forall2_same_refl].
  - constructor; [apply same_core_refl|auto].
Qed.

Lemma update_tail dd old accs i f d' :
  update_accessor (with_accs dd old accs) i f = Ok d' -> zlen old <= i ->
  exists n a, i = zlen old + Z.of_nat n /\ nth_error accs n = Some a /\
    d' = with_accs dd old (set_nth n (f a) accs).
Proof.
  intros H Hi. apply update_accessor_inv in H as (m & a & -> & H & ->).
  unfold with_accs in *. cbn [doc_Accessors set_doc_Accessors] in *. unfold zlen in *.
  rewrite nth_error_app2 in H by lia. rewrite nth_error_map in H.
  destruct (nth_error accs (m - List.length old)) as [x|] eqn:E; [|discriminate]. injection H as ->.
  exists (m - List.length old)%nat, a. split; [lia|]. split; auto.
  rewrite set_nth_app2, set_nth_Some by lia. reflexivity.
Qed.

Lemma update_tail_core dd old accs i f d' :
  update_accessor (with_accs dd old accs) i f = Ok d' -> zlen old <= i ->
  (forall a, same_core (f a) a) ->
  exists accs', d' = with_accs dd old accs' /\ Forall2 same_core accs' accs.
Proof.
  intros H Hi Hf. apply update_tail in H as (n & a & _ & Hn & ->); auto.
  eexists. split; [reflexivity|]. apply set_nth_core; auto.
Qed.

(** ** What an accessor writer appends *)
Definition fresh_accs (vi : Z) (data : list slice) (accs : list Accessor) : Prop :=
  List.length accs = List.length data /\
  forall k s, nth_error data k = Some s -> exists c t a, kind_ct (sk s) = Some (c, t) /\
    nth_error accs k = Some a /\
    same_core a (new_accessor vi (Z.of_nat (sum_sizes (firstn k data))) c t (zlen (els s))).

Lemma Forall2_len {A B} (R : A -> B -> Prop) l m : Forall2 R l m -> List.length l = List.length m.
Proof. induction 1; cbn; congruence. Qed.

Lemma fresh_accs_core vi data accs accs' :
  fresh_accs vi data accs -> Forall2 same_core accs' accs -> fresh_accs vi data accs'.
Proof.
  intros [Hl H] HF. split; [rewrite (Forall2_len _ _ _ HF); auto|].
  intros k s Hk. apply H in Hk as (c & t & a & Hc & Ha & Hs).
  assert (G : forall k a, nth_error accs k = Some a -> exists a', nth_error accs' k = Some a' /\ same_core a' a).
  { clear - HF. induction HF; intros [|k] a H1; cbn in *; try discriminate; eauto.
    injection H1 as ->. eauto. }
  apply G in Ha as (a' & Ha' & Hs'). exists c, t, a'. repeat split; auto; try apply Hs'.
  all: eapply same_core_trans in Hs; [|exact Hs']; apply Hs.
Qed.

(** What a call does to the document: nothing; append a view; append a view
    and an image; pad, append a view and append its accessors. *)
Inductive shape (d d' : Document) : Prop :=
| ShNone : d' = d -> shape d d'
| ShView tgt data r : writeBufferViews d tgt data = Ok (d', r) -> shape d d'
| ShImage data d1 vi im :
    writeBufferViews d TargetNone [data] = Ok (d1, Ok vi) ->
    img_BufferView im = Some vi ->
    d' = set_doc_Images (doc_Images d1 ++ [Some im]) d1 -> shape d d'
| ShFail d0 : ensurePadding d = Ok d0 -> d' = d0 -> shape d d'
| ShAccs d0 tgt data d1 vi accs :
    ensurePadding d = Ok d0 -> writeBufferViews d0 tgt data = Ok (d1, Ok vi) ->
    d' = with_accs d1 (doc_Accessors d) accs -> fresh_accs vi data accs -> shape d d'.

Definition shape_aligned (d d' : Document) : Prop :=
  (exists d0, ensurePadding d = Ok d0 /\ d' = d0) \/
  (exists d0 tgt data d1 vi accs,
    ensurePadding d = Ok d0 /\ writeBufferViews d0 tgt data = Ok (d1, Ok vi) /\
    d' = with_accs d1 (doc_Accessors d) accs /\ fresh_accs vi data accs).

Lemma shape_aligned_shape d d' : shape_aligned d d' -> shape d d'.
Proof.
  intros [(d0 & H & ->)|(d0 & tgt & data & d1 & vi & accs & H1 & H2 & H3 & H4)].
  - eapply ShFail; eauto.
  - eapply ShAccs; eauto.
Qed.

Lemma WriteAccessor_shape d tgt data d' i :
  WriteAccessor d tgt data = Ok (d', i) ->
  i = zlen (doc_Accessors d) /\
  exists d0 d1 vi accs, ensurePadding d = Ok d0 /\ writeBufferViews d0 tgt [data] = Ok (d1, Ok vi) /\
    d' = with_accs d1 (doc_Accessors d) accs /\ fresh_accs vi [data] accs /\
    exists c t, kind_ct (sk data) = Some (c, t) /\ accs = [new_accessor vi 0 c t (zlen (els data))].
Proof.
  intros H. apply WriteAccessor_inv in H as (c & t & d0 & d1 & Hk & HP & HV & -> & -> & HA).
  split; auto. exists d0, d1. eexists. exists [new_accessor (zlen (doc_BufferViews d0)) 0 c t (zlen (els data))].
  split; [exact HP|]. split; [exact HV|]. split.
  { unfold with_accs, add_accessor. rewrite HA. reflexivity. }
  split; [|exists c, t; split; [exact Hk|reflexivity]].
  split; [reflexivity|]. intros [|[|k]] s Hs; try discriminate. injection Hs as <-.
  exists c, t. eexists. split; [exact Hk|]. split; [reflexivity|]. apply same_core_refl.
Qed.

Lemma WriteAccessorsInterleaved_shape d data d' r :
  WriteAccessorsInterleaved d data = Ok (d', r) ->
  (exists e, r = Err e /\ ensurePadding d = Ok d' /\
     view_loop TargetArrayBuffer (List.length data) 0 0 0 0 data = Ok (Err e)) \/
  (exists d0 d1 vi accs, ensurePadding d = Ok d0 /\
    writeBufferViews d0 TargetArrayBuffer data = Ok (d1, Ok vi) /\
    d' = with_accs d1 (doc_Accessors d) accs /\ fresh_accs vi data accs /\
    r = Ok (map (fun k => zlen (doc_Accessors d) + Z.of_nat k) (seq 0 (List.length data))) /\
    forall k s, nth_error data k = Some s -> exists c t, kind_ct (sk s) = Some (c, t) /\
       nth_error accs k = Some (new_accessor vi (Z.of_nat (sum_sizes (firstn k data))) c t (zlen (els s)))).
Proof.
  intros H. pose proof (WriteAccessorsInterleaved_extends _ _ _ _ H) as [_ HI].
  unfold WriteAccessorsInterleaved, WriteBufferViewInterleaved in H. inv_ok H. inv_ok H.
  destruct x0 as [d2 [vi|e|]]; try discriminate.
  - inv_ok H. destruct x0 as [d3 l]. injection H as <- <-.
    right. pose proof (writeBufferViews_accessors _ _ _ _ _ Hx0) as HA.
    pose proof (ensurePadding_accessors _ _ Hx) as HA'.
    apply (accessors_loop_spec data d2 vi 0%nat) in Hx1 as (accs & -> & Hl & HN).
    exists x, d2, vi, accs. split; auto. split; auto. split.
    { unfold with_accs. rewrite HA, HA'. reflexivity. }
    split.
    { split; auto. intros k s Hk. destruct (HN k s Hk) as (c & t & Hc & Hn).
      exists c, t. eexists. split; auto. split; [exact Hn|]. apply same_core_refl. }
    split; [f_equal; apply HI; reflexivity|exact HN].
  - injection H as <- <-. left. exists e. split; auto.
    apply writeBufferViews_inv in Hx0 as [(e' & [= ->] & -> & HV)|Hr]; [auto|].
    destruct Hr as (? & ? & ? & ? & ? & ? & [=] & _).
Qed.

Lemma set_props_tail dd old accs idx props attrs d' attrs' :
  Forall (fun i => zlen old <= i) idx ->
  set_props_loop (with_accs dd old accs) idx props attrs = Ok (d', attrs') ->
  exists accs', d' = with_accs dd old accs' /\ Forall2 same_core accs' accs.
Proof.
  revert accs props attrs. induction idx as [|i idx IH]; cbn [set_props_loop]; intros accs props attrs F H.
  - injection H as <- <-. exists accs. split; auto. apply Forall2_same_refl.
  - destruct props as [|[name nm] props]; [discriminate|]. inv_ok H.
    apply Forall_inv in F as F1. apply Forall_inv_tail in F.
    apply update_tail_core in Hx as (accs1 & -> & HF); auto; [|intros; apply same_core_Normalized].
    apply IH in H as (accs' & -> & HF'); auto. exists accs'. split; auto.
    eapply Forall2_same_trans; eauto.
Qed.

Lemma WritePrimitiveAttributes_shape d attr d' r :
  WritePrimitiveAttributes d attr = Ok (d', r) -> d' = d \/ shape_aligned d d'.
Proof.
  unfold WritePrimitiveAttributes. intros H.
  destruct (attrs_loop attr [] [] (repeat 0 3, repeat 0 3)) as [[[data props] [mn mx]]|e|]; try discriminate.
  2:{ injection H as <- <-. auto. }
  inv_ok H. destruct x as [d1 r1]. right.
  apply WriteAccessorsInterleaved_shape in Hx as [(e & -> & HP & _)|Hx].
  - injection H as <- <-. left. eauto.
  - destruct Hx as (d0 & d2 & vi & accs & HP & HV & -> & HF & -> & _).
    assert (F : Forall (fun i => zlen (doc_Accessors d) <= i)
                  (map (fun k => zlen (doc_Accessors d) + Z.of_nat k) (seq 0 (List.length data)))).
    { apply Forall_forall. intros x Hx. apply in_map_iff in Hx as (k & <- & _). lia. }
    inv_ok H. destruct x as [d3 attrs].
    pose proof (set_props_loop_attrs _ _ _ [] _ _ (fun i => zlen (doc_Accessors d) <= i) F
      ltac:(intros k v Hk; discriminate Hk) Hx) as HP2. cbv beta in HP2.
    apply set_props_tail in Hx as (accs1 & -> & HF1); auto.
    right. exists d0, TargetArrayBuffer, data, d2, vi.
    destruct (map_get "POSITION" attrs) as [pos|] eqn:EP.
    + apply HP2 in EP. inv_ok H. inv_ok H. injection H as <- <-.
      apply update_tail_core in Hx as (accs2 & -> & HF2); auto; [|intros; apply same_core_Min].
      apply update_tail_core in Hx0 as (accs3 & -> & HF3); auto; [|intros; apply same_core_Max].
      exists accs3. repeat split; auto; try apply HF. all: eapply fresh_accs_core; [exact HF|].
      all: repeat (eapply Forall2_same_trans; eauto).
    + injection H as <- <-. exists accs1. repeat split; auto; try apply HF.
      all: eapply fresh_accs_core; eauto.
Qed.

Lemma write_normalized_shape ck d data d' i :
  write_normalized ck d data = Ok (d', i) -> shape_aligned d d'.
Proof.
  unfold write_normalized. intros H. inv_ok H. inv_ok H. destruct x0 as [d1 j]. inv_ok H. injection H as <- <-.
  apply WriteAccessor_shape in Hx0 as (-> & d0 & d2 & vi & accs & HP & HV & -> & HF & _).
  apply update_tail_core in Hx1 as (accs' & -> & HF'); [|lia|intros; apply same_core_Normalized].
  right. do 6 eexists. repeat split; eauto; try apply HF. all: eapply fresh_accs_core; eauto.
Qed.

Lemma WritePosition_shape d data d' i : WritePosition d data = Ok (d', i) -> shape_aligned d d'.
Proof.
  unfold WritePosition. intros H. inv_ok H. destruct x as [d1 j].
  destruct (minMaxFloat32 data) as [mn mx]. inv_ok H. inv_ok H. injection H as <- <-.
  apply WriteAccessor_shape in Hx as (-> & d0 & d2 & vi & accs & HP & HV & -> & HF & _).
  apply update_tail_core in Hx0 as (accs1 & -> & HF1); [|lia|intros; apply same_core_Min].
  apply update_tail_core in Hx1 as (accs2 & -> & HF2); [|lia|intros; apply same_core_Max].
  right. do 6 eexists. repeat split; eauto; try apply HF. all: eapply fresh_accs_core; [exact HF|].
  all: eapply Forall2_same_trans; eauto.
Qed.

Lemma WriteAccessor_aligned d tgt data d' i : WriteAccessor d tgt data = Ok (d', i) -> shape_aligned d d'.
Proof.
  intros H. apply WriteAccessor_shape in H as (_ & d0 & d2 & vi & accs & HP & HV & -> & HF & _).
  right. do 6 eexists. repeat split; eauto; apply HF.
Qed.

(** The writers that pad the buffer before they write. *)
Definition pads (op : wop) : bool :=
  match op with
  | OpImage _ _ _ | OpBufferView _ _ | OpBufferViewInterleaved _ => false
  | _ => true
  end.

Theorem run_op_shape d op d' :
  run_op d op = Ok d' -> shape d d' /\ (pads op = true -> d' = d \/ shape_aligned d d').
Proof.
  assert (G : shape_aligned d d' -> shape d d' /\ (pads op = true -> d' = d \/ shape_aligned d d'))
    by (intros HS; split; [apply shape_aligned_shape; exact HS|auto]).
  destruct op; cbn [run_op]; intros H; apply fst_res_inv in H as [b H].
  - apply G. unfold WriteIndices in H. destruct (sk d0) as [[] []| | | |]; try discriminate;
      eapply WriteAccessor_aligned; exact H.
  - apply G. eapply WriteAccessor_aligned; exact H.
  - apply G. eapply WriteAccessor_aligned; exact H.
  - apply G. eapply write_normalized_shape; exact H.
  - apply G. eapply write_normalized_shape; exact H.
  - apply G. unfold WriteJoints in H. inv_ok H. eapply WriteAccessor_aligned; exact H.
  - apply G. eapply WriteAccessor_aligned; exact H.
  - apply G. eapply WritePosition_shape; exact H.
  - apply G. eapply write_normalized_shape; exact H.
  - split; [|discriminate]. unfold WriteImage in H. destruct r as [data|e|]; try discriminate.
    2:{ injection H as <- <-. apply ShNone. reflexivity. }
    inv_ok H. destruct x as [d1 j]. injection H as <- _.
    unfold WriteBufferView in Hx. inv_ok Hx. destruct x as [d2 r].
    pose proof Hx0 as HV. apply writeBufferViews_inv in HV as [(e & -> & -> & HV)|Hr].
    + exfalso. rewrite view_loop_one with (c := CUbyte) (t := AScalar) in HV; [discriminate|reflexivity].
    + destruct Hr as (? & ? & ? & ? & ? & ? & -> & _). injection Hx as <- <-.
      eapply ShImage; [exact Hx0| |reflexivity]. reflexivity.
  - apply G. eapply WriteAccessor_aligned; exact H.
  - apply G. apply WriteAccessorsInterleaved_shape in H as [(e & -> & HP & _)|H].
    + left. eauto.
    + destruct H as (d2 & d1 & vi & accs & ? & ? & ? & ? & _). right. do 6 eexists. eauto.
  - apply WritePrimitiveAttributes_shape in H as [->|H]; [|auto].
    split; [apply ShNone; reflexivity|auto].
  - split; [|discriminate]. unfold WriteBufferView in H. inv_ok H. destruct x as [d1 r].
    eapply ShView. assert (d1 = d') as -> by (destruct r; congruence). exact Hx.
  - split; [|discriminate]. eapply ShView. exact H.
Qed.

(** ** Structural validity *)
Lemma all_some_app {A} (P : A -> Prop) l m : all_some P (l ++ m) <-> all_some P l /\ all_some P m.
Proof. apply Forall_app. Qed.

Lemma all_some_impl {A} (P Q : A -> Prop) l : (forall a, P a -> Q a) -> all_some P l -> all_some Q l.
Proof. intros H. apply Forall_impl. intros o (a & -> & Ha). eauto. Qed.

Lemma valid_view_mono d d' v : extends d d' -> valid_view d v -> valid_view d' v.
Proof.
  intros (_ & _ & _ & HB & _) (k & b & H1 & H2 & H3).
  apply HB in H2 as ([b'|] & H2 & R); cbn in R; [|contradiction].
  destruct R as ([more R] & _). exists k, b'. split; auto. split; auto.
  rewrite R, zlen_app. pose proof (zlen_nonneg more). lia.
Qed.

Lemma valid_accessor_mono d d' a : extends d d' -> valid_accessor d a -> valid_accessor d' a.
Proof.
  intros (_ & [l HV] & _) (H1 & H2 & H3 & k & v & n & H4 & H5 & H6).
  split; auto. split; auto. split; auto. exists k, v, n. split; auto. split; auto.
  rewrite HV, nth_error_app1; auto. apply nth_error_Some. congruence.
Qed.

Lemma valid_image_mono d d' im : extends d d' -> valid_image d im -> valid_image d' im.
Proof.
  intros (_ & [l HV] & _). unfold valid_image. destruct (img_BufferView im); auto.
  rewrite HV, zlen_app. pose proof (zlen_nonneg l). lia.
Qed.

Lemma consistent_extend d d' la lv li :
  consistent d -> extends d d' ->
  all_some valid_buffer (doc_Buffers d') ->
  doc_BufferViews d' = doc_BufferViews d ++ lv -> all_some (valid_view d') lv ->
  doc_Accessors d' = doc_Accessors d ++ la -> all_some (valid_accessor d') la ->
  doc_Images d' = doc_Images d ++ li -> all_some (valid_image d') li ->
  consistent d'.
Proof.
  intros (C1 & C2 & C3 & C4) E HB HV PV HA PA HI PI. split; auto. split; [|split].
  - rewrite HV. apply all_some_app. split; auto. eapply all_some_impl; [|exact C2].
    intros; eapply valid_view_mono; eauto.
  - rewrite HA. apply all_some_app. split; auto. eapply all_some_impl; [|exact C3].
    intros; eapply valid_accessor_mono; eauto.
  - rewrite HI. apply all_some_app. split; auto. eapply all_some_impl; [|exact C4].
    intros; eapply valid_image_mono; eauto.
Qed.

Lemma valid_buffers_last d pre b b' :
  all_some valid_buffer (doc_Buffers d) -> last_buffer_is d pre b ->
  (valid_buffer b -> valid_buffer b') -> all_some valid_buffer (pre ++ [Some b']).
Proof.
  intros H [HL|(HL & -> & ->)] Hb; rewrite HL in H.
  - apply all_some_app in H as [H1 H2]. apply all_some_app. split; auto.
    apply Forall_inv in H2 as (x & [= <-] & Hx). repeat constructor. eauto.
  - repeat constructor. eexists. split; [reflexivity|]. apply Hb. reflexivity.
Qed.

Lemma ensurePadding_consistent d d' : consistent d -> ensurePadding d = Ok d' -> consistent d'.
Proof.
  intros C H. pose proof (ensurePadding_extends _ _ H) as E.
  apply ensurePadding_inv in H as (pre & b & b' & pad & HL & -> & Hp & Hb & _ & HM).
  apply (consistent_extend d _ [] [] [] C E); try (rewrite app_nil_r; reflexivity); try constructor.
  cbn [doc_Buffers set_doc_Buffers]. eapply valid_buffers_last; [apply C|exact HL|].
  intros Hv. unfold valid_buffer in *. subst b'. cbn [buf_ByteLength buf_Data set_buf_ByteLength set_buf_Data] in *.
  rewrite zlen_app, zlen_zeros in * by lia. pose proof (zlen_nonneg (buf_Data b)).
  assert (max_alloc < 2 ^ 63) by (vm_compute; reflexivity).
  rewrite i64_id by (unfold in_i64; lia). lia.
Qed.

Lemma sized_nil st sz tgt : view_loop tgt (@List.length slice []) 0 0 0 0 [] = Ok (Ok (st, sz)) -> st = 0 /\ sz = 0.
Proof. cbn. intros [= <- <-]. auto. Qed.

(** The view appended by a successful writeBufferViews. *)
Lemma writeBufferViews_view d tgt data d' vi :
  writeBufferViews d tgt data = Ok (d', Ok vi) ->
  exists pre b v, last_buffer_is d pre b /\ vi = zlen (doc_BufferViews d) /\
    doc_BufferViews d' = doc_BufferViews d ++ [Some v] /\
    bvw_Buffer v = zlen pre /\ bvw_ByteOffset v = zlen (buf_Data b) /\ valid_view d' v /\
    (consistent d -> consistent d') /\
    (forall k s c t, nth_error data k = Some s -> kind_ct (sk s) = Some (c, t) ->
       valid_accessor d' (new_accessor vi (Z.of_nat (sum_sizes (firstn k data))) c t (zlen (els s)))).
Proof.
  intros H. pose proof (writeBufferViews_extends _ _ _ _ _ H) as E.
  apply writeBufferViews_inv in H as [(e & [=] & _)|H].
  destruct H as (pre & b & stride & size & written & b' & [= ->] & HV & HL & Hs0 & HM & HD & HLw & HF & Hb' & Hd').
  assert (Hst0 : 0 <= stride).
  { destruct data as [|s data].
    - apply sized_nil in HV. lia.
    - apply view_loop_sized in HV as (st & e & n & -> & _); [lia|discriminate]. }
  set (v := mk_view (zlen pre) (zlen (buf_Data b)) size stride tgt) in *.
  assert (Hnb : nth_error (doc_Buffers d') (List.length pre) = Some (Some b')).
  { subst d'. cbn [doc_Buffers set_doc_BufferViews set_doc_Buffers]. apply nth_error_snoc. }
  assert (HVV : valid_view d' v).
  { exists (List.length pre), b'. split; [reflexivity|]. split; auto.
    cbn [bvw_ByteOffset bvw_ByteLength bvw_ByteStride v mk_view].
    pose proof (zlen_nonneg (buf_Data b)). subst b'. cbn [buf_Data set_buf_Data]. lia. }
  exists pre, b, v. split; auto. split; auto. split; [subst d'; reflexivity|].
  split; [reflexivity|]. split; [reflexivity|]. split; auto. split.
  - intros C. apply (consistent_extend d _ [] [Some v] [] C E); try (subst d'; cbn; try rewrite app_nil_r; reflexivity);
      try constructor; try constructor; [|eauto].
    subst d'. cbn [doc_Buffers set_doc_BufferViews set_doc_Buffers].
    eapply valid_buffers_last; [apply C|exact HL|].
    intros Hv. unfold valid_buffer in *. subst b'. cbn [buf_ByteLength buf_Data set_buf_ByteLength set_buf_Data].
    rewrite HLw, Hv. pose proof (zlen_nonneg (buf_Data b)).
    assert (max_alloc < 2 ^ 63) by (vm_compute; reflexivity).
    rewrite i64_id by (unfold in_i64; lia). lia.
  - intros k s c t Hk Hs. destruct (kind_ct_valid _ _ _ Hs) as [Hc Ht].
    assert (Hne : data <> []) by (intros ->; destruct k; discriminate).
    destruct (view_loop_sized _ _ _ _ Hne HV) as (st & e & n & -> & Hsz & ->).
    pose proof (sized_nth _ _ _ _ _ _ Hsz Hk) as (c' & t' & Hs' & Hn & He & Hst).
    rewrite Hs in Hs'. injection Hs' as <- <-.
    pose proof (sum_sizes_split _ _ _ Hk) as Hspl. rewrite (elem_bytes_kind _ _ _ Hs) in Hspl.
    destruct Hsz as (HFz & Hsum & Hone).
    split; [exact Hc|]. split; [exact Ht|]. split; [reflexivity|].
    exists (List.length (doc_BufferViews d)), v, n.
    cbn [acr_BufferView acr_ComponentType acr_Type acr_Count acr_ByteOffset new_accessor set_acr_BufferView
         set_acr_ByteOffset set_acr_ComponentType set_acr_Type set_acr_Count].
    split; [reflexivity|]. split; [subst d'; cbn; apply nth_error_snoc|].
    split; [unfold zlen; lia|]. split; [lia|]. cbn [bvw_ByteStride bvw_ByteLength v mk_view].
    split; [lia|]. rewrite Nat2Z.id, He.
    destruct n as [|m]; [|cbn [needed]; nia].
    destruct data as [|s0 [|s1 data]]; [congruence| |].
    + destruct k as [|[|k]]; [cbn; lia|discriminate|discriminate].
    + exfalso. cbn [Nat.mul Z.of_nat Z.to_nat] in HD. unfold zeros in HD. cbn [repeat] in HD.
      rewrite app_nil_r in HD. eapply write_data_loop_empty; [exact HD|].
      apply Forall_inv in HFz as (? & ? & _ & Hn0 & _). destruct (els s0); [reflexivity|discriminate].
Qed.

Lemma with_accs_extends d1 old accs : doc_Accessors d1 = old -> extends d1 (with_accs d1 old accs).
Proof. intros <-. apply extends_accessors. apply extends_refl. Qed.

Lemma shape_consistent d d' : consistent d -> shape d d' -> consistent d'.
Proof.
  intros C [->|tgt data r H|data d1 vi im H Him ->|d0 HP ->|d0 tgt data d1 vi accs HP H -> HF]; auto.
  - destruct r as [vi|e|].
    + apply writeBufferViews_view in H as (? & ? & ? & _ & _ & _ & _ & _ & _ & HC & _). auto.
    + apply writeBufferViews_inv in H as [(e' & _ & -> & _)|(? & ? & ? & ? & ? & ? & [=] & _)]. auto.
    + apply writeBufferViews_inv in H as [(e' & [=] & -> & _)|(? & ? & ? & ? & ? & ? & [=] & _)].
  - apply writeBufferViews_view in H as (pre & b & v & HL & -> & HV & _ & _ & VV & HC & _). specialize (HC C).
    assert (E : extends d1 (set_doc_Images (doc_Images d1 ++ [Some im]) d1)) by (apply extends_images; apply extends_refl).
    apply (consistent_extend d1 _ [] [] [Some im] HC E); try (cbn; rewrite ?app_nil_r; reflexivity); try constructor;
      try constructor; [apply HC|].
    exists im. split; auto. unfold valid_image. rewrite Him. cbn. rewrite HV, zlen_app.
    pose proof (zlen_nonneg (doc_BufferViews d)). cbn. lia.
  - eapply ensurePadding_consistent; eauto.
  - pose proof (ensurePadding_consistent _ _ C HP) as C0.
    assert (HA : doc_Accessors d1 = doc_Accessors d).
    { rewrite (writeBufferViews_accessors _ _ _ _ _ H). eapply ensurePadding_accessors; eauto. }
    apply writeBufferViews_view in H as (pre & b & v & HL & -> & HV & _ & _ & VV & HC & HAcc). specialize (HC C0).
    pose proof (with_accs_extends d1 _ accs HA) as E.
    apply (consistent_extend d1 _ (map Some accs) [] [] HC E); try (cbn; rewrite ?app_nil_r; reflexivity); try constructor.
    + apply HC.
    + unfold with_accs. rewrite HA. reflexivity.
    + apply Forall_forall. intros o Ho. apply in_map_iff in Ho as (a & <- & Ha). exists a. split; auto.
      apply In_nth_error in Ha as [k Hk]. destruct HF as [HFl HFk].
      destruct (nth_error data k) as [s|] eqn:Es.
      * destruct (HFk _ _ Es) as (c & t & a' & Hc & Ha' & Hcore). rewrite Hk in Ha'. injection Ha' as <-.
        eapply valid_accessor_mono; [exact E|]. eapply same_core_valid; [exact Hcore|].
        eapply HAcc; eauto.
      * apply nth_error_None in Es. assert (k < List.length accs)%nat by (apply nth_error_Some; congruence). lia.
Qed.

Theorem run_ops_consistent ops d d' : consistent d -> run_ops d ops = Ok d' -> consistent d'.
Proof.
  revert d. induction ops as [|op ops IH]; cbn [run_ops]; intros d C H.
  - injection H as <-. exact C.
  - inv_ok H. apply run_op_shape in Hx as [HS _]. eapply IH; [|exact H]. eapply shape_consistent; eauto.
Qed.

(** ** Disjointness and alignment *)
Definition placed (d : Document) (v : BufferView) : Prop :=
  exists pre b, last_buffer_is d pre b /\ bvw_Buffer v = zlen pre /\ zlen (buf_Data b) <= bvw_ByteOffset v.

Lemma placed_disjoint d v w : valid_view d w -> placed d v -> disjoint_views w v.
Proof.
  intros (k & b' & Hk & Hn & Ho & Hl & _ & Hr) (pre & b & HL & Hb & Hoff).
  unfold disjoint_views. destruct (Z.eq_dec (bvw_Buffer w) (bvw_Buffer v)) as [E|]; [|auto].
  right. left. destruct HL as [HL|(HL & -> & ->)].
  - rewrite Hk, Hb in E. unfold zlen in E. apply Nat2Z.inj in E. subst k.
    rewrite HL, nth_error_snoc in Hn. injection Hn as <-. lia.
  - rewrite HL in Hn. destruct k; discriminate.
Qed.

Lemma ensurePadding_placed d d0 v : ensurePadding d = Ok d0 -> placed d0 v -> placed d v.
Proof.
  intros H (pre & b & HL & Hb & Ho). apply ensurePadding_inv in H as (pre0 & b0 & b0' & pad & HL0 & -> & Hp & Hb0 & _).
  destruct HL as [HL|(HL & _ & _)]; cbn [doc_Buffers set_doc_Buffers] in HL.
  - apply app_inj_tail in HL as [-> [= ->]]. exists pre, b0. split; auto. split; auto.
    subst b. cbn [buf_Data set_buf_ByteLength set_buf_Data] in Ho. rewrite zlen_app in Ho.
    pose proof (zlen_nonneg (zeros (Z.to_nat pad))). lia.
  - destruct pre0; discriminate.
Qed.

Lemma shape_views d d' :
  shape d d' -> doc_BufferViews d' = doc_BufferViews d \/
  exists v, doc_BufferViews d' = doc_BufferViews d ++ [Some v] /\ placed d v.
Proof.
  assert (G : forall d tgt data d' vi, writeBufferViews d tgt data = Ok (d', Ok vi) ->
     exists v, doc_BufferViews d' = doc_BufferViews d ++ [Some v] /\ placed d v).
  { intros x tgt data x' vi H.
    apply writeBufferViews_view in H as (pre & b & v & HL & -> & HV & Hb & Ho & _).
    exists v. split; auto. exists pre, b. rewrite Ho. split; auto. split; auto. lia. }
  intros [->|tgt data r H|data d1 vi im H Him ->|d0 HP ->|d0 tgt data d1 vi accs HP H -> HF]; auto.
  - destruct r as [vi|e|].
    + right. eauto.
    + apply writeBufferViews_inv in H as [(e' & _ & -> & _)|(? & ? & ? & ? & ? & ? & [=] & _)]. auto.
    + apply writeBufferViews_inv in H as [(e' & [=] & -> & _)|(? & ? & ? & ? & ? & ? & [=] & _)].
  - right. apply G in H as (v & HV & HP). exists v. auto.
  - left. apply ensurePadding_inv in HP as (? & ? & ? & ? & _ & -> & _). reflexivity.
  - right. apply G in H as (v & HV & HPl). exists v. split; [|eapply ensurePadding_placed; eauto].
    cbn [doc_BufferViews with_accs set_doc_Accessors]. unfold with_accs. cbn. rewrite HV.
    apply ensurePadding_inv in HP as (? & ? & ? & ? & _ & -> & _). reflexivity.
Qed.

Lemma shape_aligned_views d d' :
  shape_aligned d d' -> doc_BufferViews d' = doc_BufferViews d \/
  exists v, doc_BufferViews d' = doc_BufferViews d ++ [Some v] /\ bvw_ByteOffset v mod 4 = 0.
Proof.
  intros [(d0 & HP & ->)|(d0 & tgt & data & d1 & vi & accs & HP & H & -> & HF)].
  - left. apply ensurePadding_inv in HP as (? & ? & ? & ? & _ & -> & _). reflexivity.
  - right. apply writeBufferViews_view in H as (pre & b & v & HL & -> & HV & Hb & Ho & _).
    apply ensurePadding_inv in HP as (pre0 & b0 & b0' & pad & HL0 & -> & Hp & Hb0 & Hm & _).
    exists v. split; [exact HV|]. rewrite Ho.
    destruct HL as [HL|(HL & _ & _)]; cbn [doc_Buffers set_doc_Buffers] in HL.
    + apply app_inj_tail in HL as [-> [= ->]]. exact Hm.
    + destruct pre0; discriminate.
Qed.
