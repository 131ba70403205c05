(** Proofs for WriteImage: ReadAll reads everything however the reader cuts it,
    and the bytes arrive in the buffer. *)
From Verif Require Import Base BaseFacts Types Binary SpecLayout Doc SpecDoc ModelerWrite Stream Image SpecImage.
From Verif Require Import ModelerWriteProofs ModelerAttrProofs ModelerReadProofs ModelerRead.

Lemma rd_read_spec k r d e r' : 1 <= k -> rd_read k r = (d, e, r') ->
  d ++ List.concat (rd_pieces r') = List.concat (rd_pieces r) /\ rd_err r' = rd_err r /\ zlen d <= k /\
  match e with
  | Some e => e = rd_err r /\ rd_pieces r' = []
  | None => (List.length (rd_pieces r') + List.length (List.concat (rd_pieces r')) <
             List.length (rd_pieces r) + List.length (List.concat (rd_pieces r)))%nat
  end.
Proof.
  intros Hk H. unfold rd_read in H. destruct (rd_pieces r) as [|p ps] eqn:E.
  - injection H as <- <- <-. rewrite E. cbn. unfold zlen. cbn. repeat split; lia.
  - destruct (zlen p <=? k) eqn:EL.
    + injection H as <- <- <-. cbn [rd_pieces rd_err List.concat]. split; [reflexivity|]. split; [reflexivity|]. split; [lia|].
      destruct ps as [|p' ps].
      * destruct (rd_with r); [split; reflexivity|]. cbn. lia.
      * cbn [List.length List.concat]. rewrite !app_length. lia.
    + injection H as <- <- <-. cbn [rd_pieces rd_err List.concat]. rewrite app_assoc, firstn_skipn. split; [reflexivity|]. split; [reflexivity|].
      unfold zlen in *. rewrite firstn_length. split; [lia|]. cbn [List.length]. rewrite !app_length, skipn_length. lia.
Qed.

Lemma read_all_spec spare fuel : forall b cap r, zlen b < cap ->
  (List.length (rd_pieces r) + List.length (List.concat (rd_pieces r)) < fuel)%nat ->
  exists b' r', read_all spare fuel b cap r =
    (b', match rd_err r with ErrEOF => None | e => Some e end, r') /\
    b' = b ++ List.concat (rd_pieces r) /\ rd_pieces r' = [] /\ rd_err r' = rd_err r.
Proof.
  induction fuel as [|fuel IH]; intros b cap r Hb Hf; [lia|]. cbn [read_all].
  destruct (rd_read (cap - zlen b) r) as [[d e] r'] eqn:E.
  apply rd_read_spec in E as (E1 & E2 & E3 & E4); [|lia]. destruct e as [e|].
  - destruct E4 as [-> E4]. rewrite E4 in E1. cbn in E1. rewrite app_nil_r in E1.
    exists (b ++ d), r'. split; [destruct (rd_err r); reflexivity|]. rewrite E1. auto.
  - destruct (IH (b ++ d) (if zlen (b ++ d) =? cap then cap + 1 + Z.max 0 (spare cap) else cap) r') as (b' & r2 & H1 & H2 & H3 & H4).
    { rewrite zlen_app. destruct (zlen b + zlen d =? cap) eqn:C; lia. }
    { lia. }
    exists b', r2. rewrite H1, E2. split; [reflexivity|]. rewrite H2, <- app_assoc, E1. rewrite H4, E2. auto.
Qed.

Lemma image_data_spec spare s :
  fst (image_data spare s) = match source_bytes s with Some r => r | None => Panic end /\
  match s, snd (image_data spare s) with
  | SrcReader r, SrcReader r' => rd_pieces r' = [] /\ rd_err r' = rd_err r
  | SrcReader _, _ => False
  | _, s' => s' = s
  end.
Proof.
  destruct s as [|[b|]|r]; cbn [image_data source_bytes fst snd]; auto.
  unfold ReadAll. destruct (read_all_spec spare (S (List.length (rd_pieces r) + List.length (List.concat (rd_pieces r)))) [] 512 r)
    as (b' & r' & E & E1 & E2 & E3); [reflexivity|lia|].
  rewrite E. cbn [fst snd]. rewrite E1. cbn [app]. split; [destruct (rd_err r); reflexivity|auto].
Qed.

Definition byte_slice (data : bytes) : slice := mkSlice (SK CUbyte AScalar) (map (fun b => [b2z b]) data).

Lemma map_byte (data : bytes) : map (fun v => z2b (hd 0 v)) (map (fun b => [b2z b]) data) = data.
Proof. rewrite map_map. cbn [hd]. rewrite <- (map_id data) at 2. apply map_ext. intros a. apply z2b_b2z. Qed.

Lemma WriteBufferView_bytes d data d' i :
  WriteBufferView d TargetNone (byte_slice data) = Ok (d', i) ->
  exists pre b, last_buffer_is d pre b /\ zlen (buf_Data b) + zlen data <= max_alloc /\ i = zlen (doc_BufferViews d) /\
  d' = set_doc_BufferViews (doc_BufferViews d ++ [Some (mk_view (zlen pre) (zlen (buf_Data b)) (zlen data) 0 0)])
         (set_doc_Buffers (pre ++ [Some (set_buf_Data (buf_Data b ++ data) (set_buf_ByteLength (i64 (buf_ByteLength b + zlen data)) b))]) d).
Proof.
  unfold WriteBufferView. intros H. inv_ok H. destruct x as [d1 r]. apply writeBufferViews_inv in Hx.
  assert (EV : view_loop TargetNone (List.length [byte_slice data]) 0 0 0 0 [byte_slice data] = Ok (Ok (0, zlen data))).
  { cbn. unfold zlen. rewrite map_length. rewrite Z.mul_1_r. reflexivity. }
  destruct Hx as [(e & _ & _ & EV')|(pre & b & st & sz & wr & b' & -> & EV' & HL & _ & HM & HW & _ & _ & -> & ->)]; [congruence|].
  rewrite EV in EV'. injection EV' as <- <-.
  injection H as <- <-. exists pre, b. split; [exact HL|]. split; [exact HM|]. split; [reflexivity|].
  assert (wr = buf_Data b ++ data) as ->; [|reflexivity].
  cbn [write_data_loop] in HW. inv_ok HW. apply slice_from_inv in Hx as (_ & ->).
  replace (Z.to_nat (zlen (buf_Data b))) with (List.length (buf_Data b)) in HW by (unfold zlen; lia).
  rewrite skipn_app, skipn_all, Nat.sub_diag in HW. cbn [skipn app] in HW.
  replace (Z.to_nat (zlen data)) with (List.length data) in HW by (unfold zlen; lia).
  assert (W : Write (zeros (List.length data)) 0 (byte_slice data) = Ok data).
  { assert (HD : zlen data <= max_alloc) by (pose proof (zlen_nonneg (buf_Data b)); lia).
    assert (HZ : zlen (map (fun b => [b2z b]) data) = zlen data) by (unfold zlen; rewrite map_length; reflexivity).
    unfold Write. cbn [byte_slice TypeOf sk els ct_valid at_valid andb bind]. rewrite HZ.
    destruct (zlen data =? 0) eqn:E0.
    - destruct data; [reflexivity|unfold zlen in E0; cbn [List.length] in E0; lia].
    - change (SizeOfElement CUbyte AScalar) with 1. cbn [Z.eqb]. rewrite Z.mul_1_l. pose proof (zlen_nonneg data).
      assert (max_alloc = 281474976710656) as MA by reflexivity.
      replace (zlen (zeros (List.length data))) with (zlen data) by (unfold zlen, zeros; rewrite repeat_length; reflexivity).
      rewrite (i64_id (zlen data - 1)), (i64_id (zlen data - 1 + 1)) by (unfold in_i64; lia).
      replace (zlen data <? zlen data - 1 + 1) with false by lia.
      f_equal. rewrite map_byte. unfold copy, zeros. rewrite repeat_length, Nat.min_id, firstn_all, skipn_all2, app_nil_r by (rewrite repeat_length; lia). reflexivity. }
  rewrite W in HW. cbn [bind] in HW. inv_ok HW. destruct x as [[? ?] ?]. injection HW as <-.
  unfold overwrite. rewrite firstn_app, firstn_all, Nat.sub_diag. cbn [firstn]. rewrite app_nil_r.
  rewrite skipn_all2, app_nil_r; [reflexivity|]. rewrite app_length. unfold zeros. rewrite repeat_length. lia.
Qed.

(** The image that is added. *)
Definition image_of (name mime : string) (i : Z) : Image :=
  set_img_Name name (set_img_MimeType mime (set_img_BufferView (Some i) zero_Image)).

Lemma WriteImage_stored d name mime data d' r :
  WriteImage d name mime (Ok data) = Ok (d', r) ->
  exists pre b, last_buffer_is d pre b /\ zlen (buf_Data b) + zlen data <= max_alloc /\ r = Ok (zlen (doc_Images d)) /\
  d' = set_doc_Images (doc_Images d ++ [Some (image_of name mime (zlen (doc_BufferViews d)))])
        (set_doc_BufferViews (doc_BufferViews d ++ [Some (mk_view (zlen pre) (zlen (buf_Data b)) (zlen data) 0 0)])
         (set_doc_Buffers (pre ++ [Some (set_buf_Data (buf_Data b ++ data) (set_buf_ByteLength (i64 (buf_ByteLength b + zlen data)) b))]) d)).
Proof.
  unfold WriteImage. intros H. inv_ok H. destruct x as [d1 i]. apply WriteBufferView_bytes in Hx as (pre & b & HL & HM & -> & ->).
  injection H as <- <-. exists pre, b. split; [exact HL|]. split; [exact HM|]. split; [|reflexivity].
  cbn [doc_Images set_doc_Images set_doc_BufferViews set_doc_Buffers]. rewrite zlen_snoc. reflexivity.
Qed.

Lemma WriteImage_progress d name mime data : room d (zlen data) ->
  exists d', WriteImage d name mime (Ok data) = Ok (d', Ok (zlen (doc_Images d))).
Proof.
  intros HR. destruct (writeBufferViews_progress d TargetNone [byte_slice data] (byte_slice data) eq_refl) as [d' H].
  - repeat constructor. exists CUbyte, AScalar. split; [reflexivity|]. apply Forall_forall. intros e He.
    apply in_map_iff in He as (x & <- & _). split; [reflexivity|]. repeat constructor; cbn; pose proof (b2z_range x); lia.
  - intros x y [<-|[]] [<-|[]]. reflexivity.
  - left. reflexivity.
  - cbn [byte_slice els]. rewrite map_length. cbn. rewrite Nat.mul_1_r. exact HR.
  - unfold WriteImage, WriteBufferView. fold (byte_slice data). rewrite H. cbn [bind].
    eexists. f_equal. f_equal. f_equal. cbn [doc_Images set_doc_Images]. rewrite zlen_snoc.
    apply writeBufferViews_inv in H as [(e & E & _)|(pre & b & st & sz & wr & b' & _ & _ & _ & _ & _ & _ & _ & _ & _ & ->)]; [discriminate|reflexivity].
Qed.

Lemma image_bytes_mono d d' im data : extends d d' -> image_bytes d im data -> image_bytes d' im data.
Proof.
  intros (_ & [l HV] & _ & HB & _) (i & v & k & b & H1 & H2 & H3 & H4 & H5 & H6 & H7 & p & q & H8 & H9).
  apply HB in H4 as (x & Hx & R). destruct x as [b'|]; cbn in R; [|contradiction]. destruct R as ([more R] & _).
  exists i, v, k, b'. split; [exact H1|]. split; [rewrite HV, nth_error_app1; [exact H2|apply nth_error_Some; congruence]|].
  do 5 (split; [assumption|]). exists p, (q ++ more). rewrite R, H8, <- !app_assoc. auto.
Qed.

(** The writers of views return or panic; errors come in the second result. *)
Lemma noerr_bind {A B} (m : res A) (f : A -> res B) :
  (forall e, m <> Err e) -> (forall a e, f a <> Err e) -> forall e, bind m f <> Err e.
Proof. intros H1 H2 e. destruct m; cbn; [apply H2|destruct (H1 e0 eq_refl)|discriminate]. Qed.
Lemma noerr_index {A} (l : list A) i e : index l i <> Err e.
Proof. unfold index. destruct (_ && _); [destruct (nth_error _ _)|]; discriminate. Qed.
Lemma noerr_deref {A} (o : option A) e : deref o <> Err e.
Proof. destruct o; discriminate. Qed.
Lemma noerr_TypeOf s e : TypeOf s <> Err e.
Proof. unfold TypeOf. destruct (sk s); try discriminate. destruct (_ && _); discriminate. Qed.
Lemma noerr_grow b n e : grow b n <> Err e.
Proof. unfold grow. destruct (_ || _); discriminate. Qed.
Lemma noerr_write buf st off data : forall e, write_data_loop buf st off data <> Err e.
Proof.
  revert buf off. induction data as [|x data IH]; intros buf off; cbn [write_data_loop]; [discriminate|].
  apply noerr_bind; [intros e; unfold slice_from; destruct (_ && _); discriminate|]. intros t.
  apply noerr_bind; [intros e; destruct (Write t st x); discriminate|]. intros b.
  apply noerr_bind; [apply noerr_TypeOf|]. intros [[c a] l]. apply IH.
Qed.
Lemma noerr_view_loop tgt n data : forall i r st sz e, view_loop tgt n i r st sz data <> Err e.
Proof.
  induction data as [|x data IH]; intros i r st sz; cbn [view_loop]; [discriminate|].
  apply noerr_bind; [apply noerr_TypeOf|]. intros [[c a] l] e. destruct (_ && _); [discriminate|]. apply IH.
Qed.
Lemma WriteImage_noerr d name mime r e : WriteImage d name mime r <> Err e.
Proof.
  unfold WriteImage. destruct r as [data|e'|]; [|discriminate|discriminate]. revert e. apply noerr_bind; [|intros [d1 i]; discriminate].
  unfold WriteBufferView. apply noerr_bind; [|intros [d1 [i|e|]]; discriminate].
  unfold writeBufferViews. apply noerr_bind; [apply noerr_view_loop|]. intros [[st sz]|e'|]; [|discriminate|discriminate].
  apply noerr_bind.
  - unfold lastBuffer. apply noerr_bind; [apply noerr_index|]. intros b. apply noerr_bind; [apply noerr_deref|]. discriminate.
  - intros [d1 b]. apply noerr_bind; [apply noerr_grow|]. intros g. apply noerr_bind; [apply noerr_write|]. discriminate.
Qed.
