(** Images written into the buffers (modeler/write.go:172-191). *)
From Verif Require Import Base BaseFacts Types Binary SpecLayout Doc SpecDoc ModelerWrite ModelerRead Stream Image SpecImage.
From Verif Require Import ModelerWriteProofs ModelerAttrProofs ModelerReadProofs ImageProofs.

(** C87: the whole of the source is stored, however the reader cuts it and
    however append grows the slice, and stays there under later writes; the
    new image has the given name and type and nothing else, and nothing else
    of the document changes. *)
Theorem C87_stored :
  forall spare d name mime src data d1 r src',
  source_bytes src = Some (Ok data) -> WriteImageFrom spare d name mime src = (Ok (d1, r), src') ->
  exists im, r = Ok (zlen (doc_Images d)) /\ doc_Images d1 = doc_Images d ++ [Some im] /\
    img_Name im = name /\ img_MimeType im = mime /\ img_URI im = ""%string /\ img_Extensions im = [] /\ img_Extras im = VNull /\
    doc_Accessors d1 = doc_Accessors d /\ List.length (doc_BufferViews d1) = S (List.length (doc_BufferViews d)) /\
    extends d d1 /\
    forall ops d2, run_ops d1 ops = Ok d2 ->
      nth_error (doc_Images d2) (List.length (doc_Images d)) = Some (Some im) /\ image_bytes d2 im data.
Proof.
  intros spare d name mime src data d1 r src' HS H. unfold WriteImageFrom in H.
  destruct (image_data spare src) as [o s'] eqn:E. destruct (image_data_spec spare src) as [E1 _]. rewrite E, HS in E1. cbn in E1. subst o.
  apply (f_equal fst) in H. cbn [fst] in H. assert (EX : extends d d1).
  { apply (run_op_extends d (OpImage name mime (Ok data)) d1). cbn [run_op]. rewrite H. reflexivity. }
  apply WriteImage_stored in H as (pre & b & HL & HM & -> & ->).
  exists (image_of name mime (zlen (doc_BufferViews d))). do 8 (split; [reflexivity|]).
  split; [cbn [doc_BufferViews set_doc_Images set_doc_BufferViews]; rewrite app_length; cbn; lia|]. split; [exact EX|].
  intros ops d2 HO. apply run_ops_extends in HO. split.
  - destruct HO as (_ & _ & [l ->] & _). cbn [doc_Images set_doc_Images]. rewrite nth_error_app1, nth_error_app2, Nat.sub_diag.
    + reflexivity.
    + apply le_n.
    + rewrite app_length. cbn. lia.
  - eapply image_bytes_mono; [exact HO|]. eexists (List.length (doc_BufferViews d)), _, (List.length pre), _. split; [reflexivity|].
    cbn [doc_BufferViews set_doc_Images set_doc_BufferViews doc_Buffers set_doc_Buffers].
    rewrite nth_error_app2, Nat.sub_diag by apply le_n. split; [reflexivity|]. split; [reflexivity|].
    rewrite nth_error_app2, Nat.sub_diag by apply le_n. split; [reflexivity|]. do 3 (split; [reflexivity|]).
    exists (buf_Data b), []. rewrite app_nil_r. split; reflexivity.
Qed.
Print Assumptions C87_stored.

(** ReadBufferView gives the bytes of such an image. *)
Theorem C87_read :
  forall d im data, image_bytes d im data -> (forall b, In (Some b) (doc_Buffers d) -> zlen (buf_Data b) <= max_alloc) ->
  exists i v, img_BufferView im = Some (Z.of_nat i) /\ nth_error (doc_BufferViews d) i = Some v /\ ReadBufferView d v = Ok data.
Proof.
  intros d im data (i & v & k & b & H1 & H2 & H3 & H4 & H5 & H6 & H7 & p & q & H8 & H9) HM.
  exists i, (Some v). split; [exact H1|]. split; [exact H2|]. unfold ReadBufferView. cbn [deref bind].
  rewrite H3. assert (k < List.length (doc_Buffers d))%nat by (apply nth_error_Some; congruence).
  replace (zlen (doc_Buffers d) <=? Z.of_nat k) with false by (unfold zlen; lia).
  rewrite (index_ok _ _ _ H4). cbn [bind deref]. specialize (HM b (nth_error_In _ _ H4)).
  rewrite H8 in *. rewrite !zlen_app in *. rewrite <- H9, H5. pose proof (zlen_nonneg p). pose proof (zlen_nonneg q). pose proof (zlen_nonneg data).
  assert (max_alloc = 281474976710656) as MA by reflexivity. rewrite i64_id by (unfold in_i64; lia).
  replace (zlen p + (zlen data + zlen q) <? zlen p + zlen data) with false by lia.
  unfold slice_range. rewrite !zlen_app. replace ((0 <=? zlen p) && (zlen p <=? zlen p + zlen data) && (zlen p + zlen data <=? zlen p + (zlen data + zlen q))) with true by lia.
  f_equal. unfold sub. replace (Z.to_nat (zlen p)) with (List.length p) by (unfold zlen; lia).
  rewrite skipn_app, skipn_all, Nat.sub_diag. cbn [skipn app].
  replace (Z.to_nat (zlen p + zlen data - zlen p)) with (List.length data) by (unfold zlen; lia).
  rewrite firstn_app, firstn_all, Nat.sub_diag. cbn [firstn]. apply app_nil_r.
Qed.
Print Assumptions C87_read.

(** A reader that fails: its error is returned and the document is as before. *)
Theorem C87_failed :
  forall spare d name mime src e, source_bytes src = Some (Err e) ->
  fst (WriteImageFrom spare d name mime src) = Ok (d, Err e).
Proof.
  intros spare d name mime src e HS. unfold WriteImageFrom. destruct (image_data spare src) as [o s'] eqn:E.
  destruct (image_data_spec spare src) as [E1 _]. rewrite E, HS in E1. cbn in E1. subst o. reflexivity.
Qed.
Print Assumptions C87_failed.

(** It panics exactly if there is no source, or if the data must be stored and
    the last buffer is nil or cannot grow. *)
Theorem C87_panics_iff :
  forall spare d name mime src,
  fst (WriteImageFrom spare d name mime src) = Panic <->
  match source_bytes src with None => True | Some (Ok data) => ~ room d (zlen data) | Some _ => False end.
Proof.
  intros spare d name mime src. unfold WriteImageFrom. destruct (image_data spare src) as [o s'] eqn:E.
  destruct (image_data_spec spare src) as [E1 _]. rewrite E in E1. cbn [fst] in *. subst o.
  destruct (source_bytes src) as [[data|e|]|] eqn:EB.
  - split.
    + intros H HR. destruct (WriteImage_progress d name mime data HR) as [d' H']. congruence.
    + intros HR. destruct (WriteImage d name mime (Ok data)) as [[d' r]|e|] eqn:H; [|exfalso|reflexivity].
      * exfalso. apply HR. apply WriteImage_stored in H as (pre & b & HL & HM & _). eapply last_room; eauto.
      * exact (WriteImage_noerr _ _ _ _ _ H).
  - split; [discriminate|intros []].
  - destruct src as [|[]|[? [] ?]]; discriminate.
  - split; auto.
Qed.
Print Assumptions C87_panics_iff.

(** A buffer keeps its unread bytes; any other reader is read to its end. *)
Theorem C87_source :
  forall spare d name mime src,
  match src, snd (WriteImageFrom spare d name mime src) with
  | SrcReader r, SrcReader r' => rd_pieces r' = [] /\ rd_err r' = rd_err r
  | SrcReader _, _ => False
  | _, src' => src' = src
  end.
Proof.
  intros spare d name mime src. unfold WriteImageFrom. destruct (image_data_spec spare src) as [_ E].
  destruct src; destruct (image_data spare _) as [o s']; exact E.
Qed.
Print Assumptions C87_source.

Definition pieces3 : reader := mkReader [str_bytes "ab"; []; str_bytes (string_of_list_ascii (repeat "c"%char 600)); str_bytes "d"] ErrEOF true.
Example C87_example :
  source_bytes (SrcReader pieces3) = Some (Ok (str_bytes "ab" ++ repeat "c"%char 600 ++ str_bytes "d")) /\
  room zero_Document 603 /\
  match WriteImageFrom (fun l => l / 4) zero_Document "logo" "image/png" (SrcReader pieces3) with
  | (Ok (d, Ok 0), SrcReader r) => rd_pieces r = [] /\ map (option_map (fun b => zlen (buf_Data b))) (doc_Buffers d) = [Some 603]
  | _ => False
  end /\
  fst (WriteImageFrom (fun _ => 0) zero_Document "" "" (SrcReader (mkReader [str_bytes "ab"] (ErrMsg "disk") false))) = Ok (zero_Document, Err (ErrMsg "disk")).
Proof. vm_compute. repeat split; discriminate. Qed.
