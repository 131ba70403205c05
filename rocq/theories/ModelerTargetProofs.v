(** Proofs about modeler/write.go: targets of the buffer views. *)
From Verif Require Import BaseFacts Types Binary SpecLayout BinaryProofs SliceProofs Doc F64 F64Facts SpecDoc SpecTarget
  ModelerWrite ModelerRead ModelerWriteProofs ModelerReadProofs ModelerLayoutProofs ModelerShapeProofs ModelerAttrProofs ModelerReadSpecProofs.

Lemma view_loop_stride tgt n : (n <= 1)%nat -> tgt <> TargetArrayBuffer -> forall data i r st sz st' sz',
  view_loop tgt n i r st sz data = Ok (Ok (st', sz')) -> st' = st.
Proof.
  intros Hn Ht. induction data as [|s data IH]; cbn [view_loop]; intros i r st sz st' sz' H; [congruence|].
  inv_ok H. destruct x as [[c a] l]. destruct (negb (i =? 0)%nat && negb (r =? l)); [discriminate|].
  apply IH in H. destruct (1 <? n)%nat eqn:L; [lia|].
  destruct (tgt =? TargetArrayBuffer) eqn:T; [lia|]. cbn [andb] in H. exact H.
Qed.

(** A view is appended or nothing changes. *)
Lemma writeBufferViews_adds d tgt data d' r :
  (List.length data <= 1)%nat \/ tgt = TargetArrayBuffer ->
  writeBufferViews d tgt data = Ok (d', r) ->
  adds_view tgt d d' /\ doc_Accessors d' = doc_Accessors d /\
  (forall vi, r = Ok vi -> vi = zlen (doc_BufferViews d) /\
     exists v, doc_BufferViews d' = doc_BufferViews d ++ [Some v] /\ bvw_Target v = tgt /\ (tgt <> 34962 -> bvw_ByteStride v = 0)).
Proof.
  intros HD H. apply writeBufferViews_inv in H as [(e & -> & -> & _)|H].
  - split; [exists [], []; cbn [map]; rewrite !app_nil_r; repeat (split; [reflexivity|]); split; [cbn; lia|]; split; constructor|]. split; [reflexivity|]. discriminate.
  - destruct H as (pre & b & stride & size & written & b' & -> & HV & _ & _ & _ & _ & _ & _ & _ & ->).
    assert (HS : tgt <> 34962 -> stride = 0).
    { intros HT. destruct HD as [HD|HD]; [|contradiction]. exact (view_loop_stride tgt _ HD HT data 0%nat 0 0 0 stride size HV). }
    split; [|split; [reflexivity|]].
    + eexists [_], []. cbn [map]. rewrite app_nil_r. split; [reflexivity|]. split; [reflexivity|]. split; [cbn; lia|]. split; [|constructor].
      constructor; [split; [reflexivity|exact HS]|constructor].
    + intros vi [= <-]. split; [reflexivity|]. eexists. split; [reflexivity|]. split; [reflexivity|exact HS].
Qed.

Lemma adds_none tgt d d' : doc_BufferViews d' = doc_BufferViews d -> doc_Accessors d' = doc_Accessors d -> adds_view tgt d d'.
Proof. intros H1 H2. exists [], []. cbn [map]. rewrite !app_nil_r. split; [exact H1|]. split; [exact H2|]. split; [cbn; lia|]. split; constructor. Qed.

Lemma ensurePadding_views d d' : ensurePadding d = Ok d' -> doc_BufferViews d' = doc_BufferViews d.
Proof. intros H. apply ensurePadding_inv in H as (pre & b & b' & pad & _ & -> & _). reflexivity. Qed.

Lemma accs_adds tgt d d0 data d1 vi accs :
  (List.length data <= 1)%nat \/ tgt = TargetArrayBuffer ->
  ensurePadding d = Ok d0 -> writeBufferViews d0 tgt data = Ok (d1, Ok vi) -> fresh_accs vi data accs ->
  adds_view tgt d (with_accs d1 (doc_Accessors d) accs).
Proof.
  intros HD HP HV [HL HF]. pose proof (ensurePadding_views _ _ HP) as EV.
  destruct (writeBufferViews_adds _ _ _ _ _ HD HV) as (_ & _ & G). destruct (G vi eq_refl) as (-> & v & E1 & E2 & E3).
  exists [v], accs. split; [cbn [doc_BufferViews with_accs set_doc_Accessors map]; rewrite E1, EV; reflexivity|]. split; [reflexivity|].
  split; [cbn; lia|]. split; [constructor; [split; assumption|constructor]|].
  apply Forall_forall. intros a Ha. apply In_nth_error in Ha as [k Hk].
  destruct (nth_error data k) as [s|] eqn:Es.
  - destruct (HF k s Es) as (c & t & a' & _ & Ha' & HC). rewrite Hk in Ha'. injection Ha' as <-. destruct HC as (-> & _).
    split; [|reflexivity]. rewrite <- EV. reflexivity.
  - apply nth_error_None in Es. assert (k < List.length accs)%nat by (apply nth_error_Some; congruence). lia.
Qed.

Lemma WriteAccessor_adds d tgt data d' i : WriteAccessor d tgt data = Ok (d', i) -> adds_view tgt d d'.
Proof.
  intros H. apply WriteAccessor_shape in H as (_ & d0 & d2 & vi & accs & HP & HV & -> & HF & _).
  apply (accs_adds tgt d d0 [data] d2 vi accs); [left; apply le_n|exact HP|exact HV|exact HF].
Qed.
Lemma write_normalized_adds ck d data d' i : write_normalized ck d data = Ok (d', i) -> adds_view TargetArrayBuffer d d'.
Proof.
  unfold write_normalized. intros H. inv_ok H. inv_ok H. destruct x0 as [d1 j]. inv_ok H. injection H as <- <-.
  apply WriteAccessor_shape in Hx0 as (-> & d0 & d2 & vi & accs & HP & HV & -> & HF & _).
  apply update_tail_core in Hx1 as (accs' & -> & HF'); [|lia|intros; apply same_core_Normalized].
  eapply accs_adds; eauto. eapply fresh_accs_core; eauto.
Qed.
Lemma WritePosition_adds d data d' i : WritePosition d data = Ok (d', i) -> adds_view TargetArrayBuffer d d'.
Proof.
  unfold WritePosition. intros H. inv_ok H. destruct x as [d1 j].
  destruct (minMaxFloat32 data) as [mn mx]. inv_ok H. inv_ok H. injection H as <- <-.
  apply WriteAccessor_shape in Hx as (-> & d0 & d2 & vi & accs & HP & HV & -> & HF & _).
  apply update_tail_core in Hx0 as (accs1 & -> & HF1); [|lia|intros; apply same_core_Min].
  apply update_tail_core in Hx1 as (accs2 & -> & HF2); [|lia|intros; apply same_core_Max].
  eapply accs_adds; eauto. eapply fresh_accs_core; [exact HF|]. eapply Forall2_same_trans; eauto.
Qed.
Lemma WriteAccessorsInterleaved_adds d data d' r : WriteAccessorsInterleaved d data = Ok (d', r) -> adds_view TargetArrayBuffer d d'.
Proof.
  intros H. apply WriteAccessorsInterleaved_shape in H as [(e & -> & HP & _)|H].
  - apply adds_none; [exact (ensurePadding_views _ _ HP)|exact (ensurePadding_accessors _ _ HP)].
  - destruct H as (d0 & d1 & vi & accs & HP & HV & -> & HF & _). eapply accs_adds; eauto.
Qed.
(** The attribute writer, from its interleaved write. *)
Lemma WritePrimitiveAttributes_adds d attr d' r : WritePrimitiveAttributes d attr = Ok (d', r) -> adds_view TargetArrayBuffer d d'.
Proof.
  intros H. unfold WritePrimitiveAttributes in H.
  destruct (attrs_loop attr [] [] (repeat 0 3, repeat 0 3)) as [[[data props] [mn mx]]|e|]; try discriminate.
  2:{ injection H as <- <-. apply adds_none; reflexivity. }
  inv_ok H. destruct x as [d1 r1].
  apply WriteAccessorsInterleaved_shape in Hx as [(e & -> & HP & _)|Hx].
  - injection H as <- <-. apply adds_none; [exact (ensurePadding_views _ _ HP)|exact (ensurePadding_accessors _ _ HP)].
  - destruct Hx as (d0 & d2 & vi & accs & HP & HV & -> & HF & -> & _).
    assert (F : Forall (fun i => zlen (doc_Accessors d) <= i)
                  (map (fun k => zlen (doc_Accessors d) + Z.of_nat k) (seq 0 (List.length data)))).
    { apply Forall_forall. intros x Hx. apply in_map_iff in Hx as (k & <- & _). lia. }
    inv_ok H. destruct x as [d3 attrs].
    pose proof (set_props_loop_attrs _ _ _ [] _ _ (fun i => zlen (doc_Accessors d) <= i) F
      ltac:(intros k v Hk; discriminate Hk) Hx) as HP2. cbv beta in HP2.
    apply set_props_tail in Hx as (accs1 & -> & HF1); auto.
    destruct (map_get "POSITION" attrs) as [pos|] eqn:EP.
    + apply HP2 in EP. inv_ok H. inv_ok H. injection H as <- <-.
      apply update_tail_core in Hx as (accs2 & -> & HF2); auto; [|intros; apply same_core_Min].
      apply update_tail_core in Hx0 as (accs3 & -> & HF3); auto; [|intros; apply same_core_Max].
      eapply accs_adds; eauto. eapply fresh_accs_core; [exact HF|]. repeat (eapply Forall2_same_trans; eauto).
    + injection H as <- <-. eapply accs_adds; eauto. eapply fresh_accs_core; eauto.
Qed.
Lemma WriteBufferView_adds d tgt data d' i : WriteBufferView d tgt data = Ok (d', i) -> adds_view tgt d d' /\ doc_Accessors d' = doc_Accessors d.
Proof.
  unfold WriteBufferView. intros H. inv_ok H. destruct x as [d1 r]. assert (d1 = d') as -> by (destruct r; congruence).
  destruct (writeBufferViews_adds d tgt [data] d' r ltac:(left; cbn; lia) Hx) as (H1 & H2 & _). split; assumption.
Qed.

(** The role of each writer's data; the two general writers take the target
    as an argument. *)
Definition op_target (op : wop) : Z :=
  match op with
  | OpIndices _ => role_target RoleIndices
  | OpImage _ _ _ => role_target RoleOther
  | OpAccessor t _ | OpBufferView t _ => t
  | OpNormal _ | OpTangent _ | OpTextureCoord _ | OpWeights _ | OpJoints _ | OpInverseBindMatrices _ | OpPosition _ | OpColor _
  | OpInterleaved _ | OpPrimitiveAttributes _ | OpBufferViewInterleaved _ => role_target RoleVertices
  end.

Theorem run_op_adds d op d' : run_op d op = Ok d' -> adds_view (op_target op) d d'.
Proof.
  destruct op; cbn [run_op op_target role_target]; intros H; apply fst_res_inv in H as [b H].
  - unfold WriteIndices in H. destruct (sk d0) as [[] []| | | |]; try discriminate; eapply WriteAccessor_adds; exact H.
  - eapply WriteAccessor_adds; exact H.
  - eapply WriteAccessor_adds; exact H.
  - eapply write_normalized_adds; exact H.
  - eapply write_normalized_adds; exact H.
  - unfold WriteJoints in H. inv_ok H. eapply WriteAccessor_adds; exact H.
  - eapply WriteAccessor_adds; exact H.
  - eapply WritePosition_adds; exact H.
  - eapply write_normalized_adds; exact H.
  - unfold WriteImage in H. destruct r as [data|e|]; try discriminate.
    2:{ injection H as <- <-. apply adds_none; reflexivity. }
    inv_ok H. destruct x as [d1 j]. injection H as <- _. apply WriteBufferView_adds in Hx as [(vs & accs & H) _].
    exists vs, accs. exact H.
  - eapply WriteAccessor_adds; exact H.
  - eapply WriteAccessorsInterleaved_adds; exact H.
  - eapply WritePrimitiveAttributes_adds; exact H.
  - eapply WriteBufferView_adds; exact H.
  - eapply writeBufferViews_adds; [right; reflexivity|exact H].
Qed.

(** ** Reading back what a typed writer wrote *)
(** The accessor that a typed writer appended, as long as the document lasts. *)
Definition holds (d : Document) (i : Z) (data : slice) : Prop :=
  exists k a c t, i = Z.of_nat k /\ nth_error (doc_Accessors d) k = Some (Some a) /\
    kind_ct (sk data) = Some (c, t) /\ acr_ComponentType a = c /\ acr_Type a = t /\ acr_Count a = zlen (els data) /\
    forall buffer p, buffer = [] \/ ~ (c = CUint /\ t = AMat3) ->
      ReadAccessor d a buffer p = Ok (mkSlice (read_kind (sk data)) (els data)).

Lemma holds_later d i data ops d' : holds d i data -> run_ops d ops = Ok d' -> holds d' i data.
Proof.
  intros (k & a & c & t & H1 & H2 & H3 & H4 & H5 & H6 & H7) HO. apply run_ops_extends in HO. exists k, a, c, t.
  split; [exact H1|]. split; [|split; [exact H3|split; [exact H4|split; [exact H5|split; [exact H6|]]]]].
  - destruct HO as ([l ->] & _). rewrite nth_error_app1; [exact H2|]. apply nth_error_Some. congruence.
  - intros buffer p Hb. eapply ReadAccessor_mono; [exact HO|]. apply H7. exact Hb.
Qed.
Lemma WriteAccessor_holds d tgt data d' i : WriteAccessor d tgt data = Ok (d', i) -> wf_slice data -> holds d' i data.
Proof.
  intros H W. destruct (WriteAccessor_read _ _ _ _ _ H W) as (c & t & a & H1 & H2 & H3 & H4 & H5).
  exists (List.length (doc_Accessors d)), a, c, t. rewrite H4. split; [exact H2|]. split; [rewrite <- H4; exact H3|]. split; [exact H1|].
  do 3 (split; [reflexivity|]). rewrite <- H4. exact H5.
Qed.
Lemma update_holds d i j f data d' :
  (forall a, same_core (f a) a) -> holds d i data -> update_accessor d j f = Ok d' -> holds d' i data.
Proof.
  intros HF (k & a & c & t & H1 & H2 & H3 & H4 & H5 & H6 & H7) HU.
  apply update_accessor_inv in HU as (n & b & -> & Hb & ->).
  assert (HR : forall a' buf p, ReadAccessor (set_doc_Accessors (set_nth n (Some (f b)) (doc_Accessors d)) d) a' buf p = ReadAccessor d a' buf p) by reflexivity.
  assert (HN : exists a', nth_error (set_nth n (Some (f b)) (doc_Accessors d)) k = Some (Some a') /\ same_core a' a).
  { rewrite nth_error_set_nth. destruct (Nat.eqb_spec k n) as [->|NE].
    - assert (n < List.length (doc_Accessors d))%nat by (apply nth_error_Some; congruence). destruct (n <? List.length (doc_Accessors d))%nat eqn:L; [|lia].
      exists (f b). split; [reflexivity|]. rewrite Hb in H2. injection H2 as ->. apply HF.
    - exists a. split; [exact H2|apply same_core_refl]. }
  destruct HN as (a' & Ha' & HC). exists k, a', c, t. split; [exact H1|]. split; [exact Ha'|]. split; [exact H3|].
  pose proof HC as (_ & _ & C1 & C2 & C3 & _). rewrite C1, C2, C3. split; [exact H4|]. split; [exact H5|]. split; [exact H6|].
  intros buffer p Hbuf. rewrite HR, (same_core_read _ _ _ _ _ HC). apply H7. exact Hbuf.
Qed.
Lemma write_normalized_holds ck d data d' i : write_normalized ck d data = Ok (d', i) -> wf_slice data -> holds d' i data.
Proof.
  unfold write_normalized. intros H W. inv_ok H. inv_ok H. destruct x0 as [d1 j]. inv_ok H. injection H as <- <-.
  eapply update_holds; [intros; apply same_core_Normalized| |exact Hx1]. eapply WriteAccessor_holds; eauto.
Qed.
Lemma WritePosition_holds d data d' i : WritePosition d data = Ok (d', i) -> wf_slice (mkSlice (SK CFloat AVec3) data) -> holds d' i (mkSlice (SK CFloat AVec3) data).
Proof.
  unfold WritePosition. intros H W. inv_ok H. destruct x as [d1 j]. destruct (minMaxFloat32 data) as [mn mx]. inv_ok H. inv_ok H. injection H as <- <-.
  eapply update_holds; [intros; apply same_core_Max| |exact Hx1]. eapply update_holds; [intros; apply same_core_Min| |exact Hx0]. eapply WriteAccessor_holds; eauto.
Qed.

(** A typed reader on such an accessor. *)
Lemma holds_typed {A} (read : Document -> Accessor -> list A -> bytes -> pools -> res (list A)) fmt f d i data c t :
  typed_by read fmt -> holds d i data -> kind_ct (sk data) = Some (c, t) -> fmt c t = Some f -> ~ (c = CUint /\ t = AMat3) ->
  exists k a, i = Z.of_nat k /\ nth_error (doc_Accessors d) k = Some (Some a) /\
    forall buffer pool p, els data <> [] \/ buffer = [] -> read d a buffer pool p = Ok (map f (els data)).
Proof.
  intros HT (k & a & c' & t' & H1 & H2 & H3 & H4 & H5 & H6 & H7) HK HF NM. rewrite HK in H3. injection H3 as <- <-.
  exists k, a. split; [exact H1|]. split; [exact H2|]. intros buffer pool p Hb. specialize (HT d a). rewrite H4, H5, HF in HT.
  specialize (HT buffer pool p). rewrite H7 in HT by (right; exact NM). destruct HT as (r & E & _ & Q). rewrite E, Q; [reflexivity|].
  destruct Hb as [Hb|Hb]; [left|right; exact Hb]. rewrite H6. unfold zlen. destruct (els data); [contradiction|cbn [List.length]; lia].
Qed.
