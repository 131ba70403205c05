(** What becomes of a document that is written: C96. *)
From Verif Require Import Base BaseFacts Types Doc F64 Base64 Url UrlProofs SpecText SpecPath SpecData JsonText JsonTextProofs JsonStringProofs Codec SpecJson CodecProofs
  DocCodec Marshal SpecMarshal MarshalProofs PropsUri PropsJson Stream StreamProofs File SpecFile DecodeProofs EncodeProofs PropsFile PropsRoundTrip
  SpecGo SpecGoDoc EncodeExact DocExact ScanDepth IndentProofs SpecLoad PropsLoad SpecStore.

Section Store.
Context (U : url_lib).
Local Notation st := (stored (has_scheme U) (sanitizeURI U)).
Lemma skip_is b : (is_nil (buf_Data b) || str_empty (buf_URI b) || buf_IsEmbeddedResource b = true) <-> ~ apart b.
Proof.
  assert (P : buf_IsEmbeddedResource b = String.prefix octet_prefix (buf_URI b)) by reflexivity. rewrite P. unfold apart.
  destruct (buf_Data b) as [|c data]; cbn [is_nil orb]; [tauto|]. pose proof (empty_adr (buf_URI b)) as E. destruct (str_empty (buf_URI b)); cbn [orb]; [tauto|].
  destruct (String.prefix octet_prefix (buf_URI b)); split; intros H; try reflexivity; try discriminate; [intros (_ & _ & H1); discriminate|].
  exfalso. apply H. split; [discriminate|]. split; [|reflexivity]. intros E1. apply E in E1. discriminate.
Qed.
Lemma stored_unique l : forall s f f', st l s f -> st l s f' -> f = f'.
Proof.
  induction l as [|b l IH]; intros s f f' A B; inversion A; subst; inversion B; subst; try reflexivity; try contradiction; try congruence; try (eapply IH; eassumption);
    f_equal; try congruence; try (eapply IH; eassumption).
Qed.
(** [files] are added to what was there. *)
Definition added (files : list (bytes * bytes)) (fs fs' : option createfs) : Prop :=
  match fs, fs' with
  | Some fs, Some fs' => cf_files fs' = rev files ++ cf_files fs
  | None, None => files = []
  | _, _ => False
  end.
(** The first buffer of [l] that cannot be stored, if any; the ones before are
    stored, and its own file is not made or holds some of the contents. *)
Definition stopped (l : list (option Buffer)) (fs fs' : option createfs) : Prop :=
  exists before b after files cut, l = before ++ Some b :: after /\ st before (option_map cf_script fs) files /\
    added (files ++ cut) fs fs' /\
    (cut = [] \/ exists n k, sanitizeURI U (str_bytes (buf_URI b)) = Some n /\ cut = [(n, firstn k (buf_Data b))]).
Lemma added_nil fs : added [] fs fs.
Proof. unfold added. destruct fs; reflexivity. Qed.
Lemma added_app f g fs fs1 fs2 : added f fs fs1 -> added g fs1 fs2 -> added (f ++ g) fs fs2.
Proof. unfold added. destruct fs, fs1, fs2; try contradiction; [intros A B; rewrite B, A, rev_app_distr, app_assoc; reflexivity|intros -> ->; reflexivity]. Qed.

Lemma buffers_fate l : ~ In None l -> forall fs,
  match encodeBuffers U l fs with
  | (Ok _, fs') => exists files, st l (option_map cf_script fs) files /\ added files fs fs'
  | (Err _, fs') => ~ (exists files, st l (option_map cf_script fs) files) /\ stopped l fs fs'
  | (Panic, _) => False
  end.
Proof.
  induction l as [|[b|] l IH]; intros N fs; cbn [encodeBuffers]; [exists []; split; [constructor|apply added_nil]| |destruct N; left; reflexivity].
  assert (N' : ~ In None l) by (intros H; apply N; right; exact H). specialize (IH N').
  (* one step that succeeds *)
  assert (STEP : forall fs1 one, added one fs fs1 ->
            (forall files, st l (option_map cf_script fs1) files -> st (Some b :: l) (option_map cf_script fs) (one ++ files)) ->
            (forall files, st (Some b :: l) (option_map cf_script fs) files -> exists files', st l (option_map cf_script fs1) files') ->
            (forall before files, st before (option_map cf_script fs1) files -> st (Some b :: before) (option_map cf_script fs) (one ++ files)) ->
            match encodeBuffers U l fs1 with
            | (Ok _, fs') => exists files, st (Some b :: l) (option_map cf_script fs) files /\ added files fs fs'
            | (Err _, fs') => ~ (exists files, st (Some b :: l) (option_map cf_script fs) files) /\ stopped (Some b :: l) fs fs'
            | (Panic, _) => False
            end).
  { intros fs1 one A S1 S2 S3. specialize (IH fs1). destruct (encodeBuffers U l fs1) as [[u|e|] fs'].
    - destruct IH as (files & I1 & I2). exists (one ++ files). split; [exact (S1 _ I1)|exact (added_app _ _ _ _ _ A I2)].
    - destruct IH as (I1 & before & b0 & after & files & cut & -> & I2 & I3 & I4). split; [intros (f & Hf); exact (I1 (S2 _ Hf))|].
      exists (Some b :: before), b0, after, (one ++ files), cut. split; [reflexivity|]. split; [exact (S3 _ _ I2)|]. split; [|exact I4].
      rewrite <- app_assoc. exact (added_app _ _ _ _ _ A I3).
    - exact IH. }
  destruct (is_nil (buf_Data b) || str_empty (buf_URI b) || buf_IsEmbeddedResource b) eqn:SK.
  - apply skip_is in SK. apply (STEP fs [] (added_nil fs)); intros.
    + constructor; assumption.
    + inversion H; subst; try contradiction. eauto.
    + constructor; assumption.
  - assert (AP : apart b).
    { unfold apart. assert (P : buf_IsEmbeddedResource b = String.prefix octet_prefix (buf_URI b)) by reflexivity. rewrite P in SK. apply orb_false_elim in SK. destruct SK as [SK S3]. apply orb_false_elim in SK. destruct SK as [S1 S2].
      split; [intros E; rewrite E in S1; discriminate|]. split; [intros E; rewrite E in S2; discriminate|exact S3]. }
    unfold encodeBuffer. destruct (valid_cases U (str_bytes (buf_URI b))) as [V|[e V]]; rewrite V.
    + assert (AC : acceptable (has_scheme U) b) by (apply (proj1 (valid_uri U _)); exact V).
      destruct fs as [fs|].
      2: { cbn [option_map] in *. apply (STEP None [] eq_refl); cbn [option_map app]; intros.
           - apply sr_nowhere; assumption.
           - inversion H; subst; try contradiction; eauto.
           - apply sr_nowhere; assumption. }
      destruct (sanitizeURI U (str_bytes (buf_URI b))) as [n|] eqn:SN.
      2: { apply (STEP (Some fs) [] (added_nil _)); cbn [app]; intros.
           - apply sr_unnamed; assumption.
           - cbn [option_map] in *. inversion H; subst; try contradiction; try congruence; eauto.
           - apply sr_unnamed; assumption. }
      unfold create_file. destruct fs as [fl cr sc]. cbn [cf_script cf_files cf_created option_map] in *.
      destruct sc as [|[e|[[k e]|] [e2|]] sc].
      * apply (STEP (Some (mkCreateFS ((n, buf_Data b) :: fl) (n :: cr) [])) [(n, buf_Data b)]); [reflexivity|..]; cbn; intros.
        -- apply sr_more; assumption.
        -- inversion H; subst; try contradiction; try congruence; eauto.
        -- apply sr_more; assumption.
      * split; [intros (f & H); inversion H; subst; try contradiction; try congruence|].
        exists [], b, l, [], []. split; [reflexivity|]. split; [constructor|]. split; [reflexivity|left; reflexivity].
      * split; [intros (f & H); inversion H; subst; try contradiction; try congruence|].
        exists [], b, l, [], [(n, firstn (Z.to_nat k) (buf_Data b))]. split; [reflexivity|]. split; [constructor|]. split; [reflexivity|]. right. eauto.
      * split; [intros (f & H); inversion H; subst; try contradiction; try congruence|].
        exists [], b, l, [], [(n, firstn (Z.to_nat k) (buf_Data b))]. split; [reflexivity|]. split; [constructor|]. split; [reflexivity|]. right. eauto.
      * split; [intros (f & H); inversion H; subst; try contradiction; try congruence|].
        exists [], b, l, [], [(n, buf_Data b)]. split; [reflexivity|]. split; [constructor|]. split; [reflexivity|]. right. exists n, (List.length (buf_Data b)). rewrite firstn_all. auto.
      * apply (STEP (Some (mkCreateFS ((n, buf_Data b) :: fl) (n :: cr) sc)) [(n, buf_Data b)]); [reflexivity|..]; cbn; intros.
        -- apply sr_file; assumption.
        -- inversion H; subst; try contradiction; try congruence; eauto.
        -- apply sr_file; assumption.
    + assert (NA : ~ acceptable (has_scheme U) b) by (intros A; apply (proj2 (valid_uri U _)) in A; congruence).
      split; [intros (f & H); inversion H; subst; contradiction|].
      exists [], b, l, [], []. split; [reflexivity|]. split; [constructor|]. split; [apply added_nil|left; reflexivity].
Qed.
End Store.

(** The padding is at most six bytes, whatever the length. *)
Lemma padding_small n : make_ok (i64 (pad4 n - n)) = true.
Proof.
  unfold make_ok. apply andb_true_intro.
  assert (H : 0 <= i64 (pad4 n - n) <= 6).
  { unfold pad4. pose proof (i64_range (n + 3)) as R. unfold in_i64 in R.
    assert (C : exists k, i64 (n + 3) = n + 3 + k * 2 ^ 64) by (unfold i64; exists (- ((n + 3 + 2 ^ 63) / 2 ^ 64)); pose proof (Z.div_mod (n + 3 + 2 ^ 63) (2 ^ 64)); lia).
    destruct C as [k C]. remember (i64 (n + 3)) as m eqn:Em. clear Em.
    pose proof (Z.quot_rem' m 4) as Q. pose proof (Z.rem_bound_abs m 4 ltac:(lia)) as B. change (Z.abs 4) with 4 in B.
    assert (SG : - 3 <= Z.rem m 4 <= 3) by lia.
    assert (Q4 : Z.quot m 4 * 4 = m - Z.rem m 4) by lia.
    assert (RG : in_i64 (Z.quot m 4 * 4)).
    { unfold in_i64. destruct (Z_le_gt_dec 0 m) as [P|P].
      - pose proof (Z.rem_bound_pos m 4 P ltac:(lia)). pose proof (Z.quot_pos m 4 P ltac:(lia)). lia.
      - pose proof (Z.rem_nonpos m 4 ltac:(lia) ltac:(lia)). change (2^63) with (2305843009213693952 * 4) in *. lia. }
    rewrite (i64_id _ RG), Q4. remember (Z.rem m 4) as r eqn:Er. clear Er Q Q4 RG B. unfold i64.
    replace (m - r - n + 2 ^ 63) with (3 - r + 2 ^ 63 + k * 2 ^ 64) by lia. rewrite Z_mod_plus_full.
    rewrite Z.mod_small by lia. lia. }
  split; apply Z.leb_le; lia.
Qed.

Lemma write_call p s out : match fst (w_write p (mkWriter out s)) with None => call_fine s 0 | Some _ => ~ call_fine s 0 end /\ wr_script (snd (w_write p (mkWriter out s))) = tl s.
Proof.
  unfold w_write, call_fine. cbn. destruct s as [|[[n e]|] s]; cbn; split; try reflexivity; try (intros q; discriminate). intros H. exact (H _ eq_refl).
Qed.
Lemma call_tl s k : call_fine (tl s) k <-> call_fine s (S k).
Proof. unfold call_fine. destruct s as [|x s]; cbn; [destruct k; cbn; tauto|tauto]. Qed.

(** ** C96 *)
(** Encode crashes exactly when a buffer is nil.  It succeeds exactly when the
    document can be expressed in JSON, no buffer is nil, the calls of the
    writer whose failures are noticed do not fail and the buffers apart can be
    stored; the files made are then the ones for these buffers.  Otherwise it
    fails: when the document cannot be expressed or one of these calls fails
    no file is made, and else the files made are the ones before the first
    that fails and at most this one. *)
Theorem C96_outcome F X U glb prefix indent d w fs :
  float_contract F -> go_Document X d ->
  let st := stored (has_scheme U) (sanitizeURI U) (doc_Buffers d) (option_map cf_script fs) in
  let asset := savable_Document X d /\ calls_fine glb d (wr_script w) in
  let '(r, _, fs') := Encode F X U glb prefix indent d w fs in
  match r with
  | Panic => In None (doc_Buffers d)
  | Ok _ => ~ In None (doc_Buffers d) /\ asset /\ exists files, st files /\ added files fs fs'
  | Err _ => ~ In None (doc_Buffers d) /\ (~ asset /\ fs' = fs \/ asset /\ ~ (exists files, st files) /\ stopped U (doc_Buffers d) fs fs')
  end.
Proof.
  intros HF G st asset. unfold Encode. destruct glb.
  - unfold encodeBinary, marshalJSONDoc. pose proof (marshal_tree_exact F X HF true d G) as E.
    destruct (marshal_tree F X true d) as [j|e|]; cbn [bind]; [|unfold asset; split; tauto|exact E]. destruct E as (_ & _ & _ & SV & N).
    set (bin := match doc_Buffers d with Some b :: _ => if str_empty (buf_URI b) then Some b else None | _ => None end).
    match goal with |- context [w_write (put_glbHeader ?h) w] => generalize (put_glbHeader h) end. intros hdr.
    match goal with |- context [match bin with None => (Ok false, _) | Some _ => _ end] => idtac end.
    destruct w as [out s]. pose proof (write_call hdr s out) as [W0 T0]. destruct (w_write hdr (mkWriter out s)) as [[e|] [o1 s1]]; cbn [fst snd wr_script] in W0, T0.
    { split; [exact N|]. left. split; [|reflexivity]. unfold asset, calls_fine. cbn [wr_script]. tauto. }
    match goal with |- context [w_write ?p (mkWriter o1 s1)] => pose proof (write_call p s1 o1) as [_ T1]; destruct (w_write p (mkWriter o1 s1)) as [e1 [o2 s2]]; cbn [snd wr_script] in T1 end.
    match goal with |- context [w_write ?p (mkWriter o2 s2)] => pose proof (write_call p s2 o2) as [_ T2]; destruct (w_write p (mkWriter o2 s2)) as [e2 [o3 s3]]; cbn [snd wr_script] in T2 end.
    destruct bin as [b|] eqn:BN.
    + assert (WC : with_chunk d) by (unfold bin in BN; destruct (doc_Buffers d) as [|[b'|] l] eqn:D; try discriminate; destruct (str_empty (buf_URI b')) eqn:SE; [|discriminate];
        exists b', l; split; [exact D|apply empty_adr; exact SE]).
      rewrite padding_small. cbn [negb].
      match goal with |- context [w_write ?p (mkWriter o3 s3)] => pose proof (write_call p s3 o3) as [_ T3]; destruct (w_write p (mkWriter o3 s3)) as [e3 [o4 s4]]; cbn [snd wr_script] in T3 end.
      match goal with |- context [w_write ?p (mkWriter o4 s4)] => pose proof (write_call p s4 o4) as [_ T4]; destruct (w_write p (mkWriter o4 s4)) as [e4 [o5 s5]]; cbn [snd wr_script] in T4 end.
      match goal with |- context [w_write ?p (mkWriter o5 s5)] => pose proof (write_call p s5 o5) as [W5 T5]; destruct (w_write p (mkWriter o5 s5)) as [e5 [o6 s6]]; cbn [fst snd wr_script] in W5, T5 end.
      assert (C5 : call_fine s5 0 <-> call_fine s 5) by (rewrite T4, T3, T2, T1, T0, !call_tl; tauto).
      destruct e5 as [e5|].
      { split; [exact N|]. left. split; [|reflexivity]. unfold asset, calls_fine. cbn [wr_script]. intros (_ & _ & H). apply W5, C5. exact (H eq_refl WC). }
      assert (A : asset) by (unfold asset, calls_fine; cbn [wr_script]; split; [exact SV|]; split; [exact W0|]; intros _ _; apply C5; exact W5).
      destruct WC as (b' & l & D & BU). rewrite D. cbn [tl]. pose proof (buffers_fate U l) as BF. rewrite D in N.
      specialize (BF ltac:(intros H; apply N; right; exact H) fs).
      assert (NAP : ~ apart b') by (intros (_ & H & _); contradiction).
      unfold st. rewrite D. destruct (encodeBuffers U l fs) as [[u|e|] fs']; [| |destruct BF].
      * destruct BF as (files & B1 & B2). split; [exact N|]. split; [exact A|]. exists files. split; [constructor; assumption|exact B2].
      * destruct BF as (B1 & B2). split; [exact N|]. right. split; [exact A|]. split; [intros (f & H); inversion H; subst; try contradiction; eauto|].
        destruct B2 as (before & b0 & after & files & cut & E1 & E2 & E3 & E4). exists (Some b' :: before), b0, after, files, cut. rewrite E1. split; [reflexivity|]. split; [constructor; assumption|]. auto.
    + assert (A : asset).
      { unfold asset, calls_fine. cbn [wr_script]. split; [exact SV|]. split; [exact W0|]. intros _ (b' & l & D & BU). unfold bin in BN. rewrite D, BU in BN. discriminate. }
      pose proof (buffers_fate U (doc_Buffers d) N fs) as BF. destruct (encodeBuffers U (doc_Buffers d) fs) as [[u|e|] fs']; [| |destruct BF].
      * split; [exact N|]. split; [exact A|]. exact BF.
      * split; [exact N|]. right. split; [exact A|]. exact BF.
  - unfold marshalJSONDoc. pose proof (marshal_tree_exact F X HF false d G) as E.
    destruct (marshal_tree F X false d) as [j|e|]; cbn [bind]; [|unfold asset; split; tauto|exact E]. destruct E as (_ & _ & _ & SV & N).
    destruct w as [out s]. match goal with |- context [w_write ?p (mkWriter out s)] => pose proof (write_call p s out) as [W0 _]; destruct (w_write p (mkWriter out s)) as [[e|] w1]; cbn [fst] in W0 end.
    { split; [exact N|]. left. split; [|reflexivity]. unfold asset, calls_fine. cbn [wr_script]. tauto. }
    assert (A : asset) by (unfold asset, calls_fine; cbn [wr_script]; split; [exact SV|]; split; [exact W0|discriminate]).
    pose proof (buffers_fate U (doc_Buffers d) N fs) as BF. destruct (encodeBuffers U (doc_Buffers d) fs) as [[u|e|] fs']; [| |destruct BF].
    * split; [exact N|]. split; [exact A|]. exact BF.
    * split; [exact N|]. right. split; [exact A|]. exact BF.
Qed.
Print Assumptions C96_outcome.

(** In particular, the document alone decides whether Encode crashes, and the
    files made by a success are determined. *)
Theorem C96_panics_iff F X U glb prefix indent d w fs :
  float_contract F -> go_Document X d ->
  (exists w' fs', Encode F X U glb prefix indent d w fs = (Panic, w', fs')) <-> In None (doc_Buffers d).
Proof.
  intros HF G. pose proof (C96_outcome F X U glb prefix indent d w fs HF G) as H. cbv zeta in H.
  destruct (Encode F X U glb prefix indent d w fs) as [[[u|e|] w'] fs'].
  - split; [intros (? & ? & A); discriminate|tauto].
  - split; [intros (? & ? & A); discriminate|tauto].
  - split; [intros _; exact H|eauto].
Qed.
Print Assumptions C96_panics_iff.
Theorem C96_files_determined U l s f f' :
  stored (has_scheme U) (sanitizeURI U) l s f -> stored (has_scheme U) (sanitizeURI U) l s f' -> f = f'.
Proof. apply stored_unique. Qed.
Print Assumptions C96_files_determined.
Ltac go_plain := unfold go_Document; cbn [set_doc_Buffers doc_Buffers doc_Extensions doc_Extras doc_Accessors doc_Animations doc_Asset doc_BufferViews doc_Cameras
  doc_Images doc_Materials doc_Meshes doc_Nodes doc_Samplers doc_Scene doc_Scenes doc_Skins doc_Textures zero_Document];
  repeat match goal with |- _ /\ _ => split end; repeat constructor; cbn; unfold in_i64; try (change (2 ^ 63) with 9223372036854775808; lia).
(** A GLB whose fifth write, the one of the contents, fails is a success; the
    failure of the sixth one is an error, and so is an invalid URI, the file
    before having been made; a negative length does not crash, a nil buffer
    does. *)
Example C96_example :
  let buf u n data := Some (mkBuffer [] VNull "" u n data) in
  let doc l := set_doc_Buffers l zero_Document in
  let full := Some (0, ErrMsg "full") in
  let run glb d s o := Encode sample_floats sample_exts sample_url glb [] [] d (mkWriter [] s) (Some (mkCreateFS [] [] o)) in
  let fate '((r, w, fs) : res unit * writer * option createfs) := (r, option_map cf_files fs) in
  let one := doc [buf ""%string 3 (str_bytes "abc")] in
  let two := doc [buf "a.bin"%string 1 (str_bytes "a"); buf "../b"%string 1 (str_bytes "b")] in
  float_contract sample_floats /\ go_Document sample_exts one /\ go_Document sample_exts two /\
  fate (run true one [None; None; None; None; full] []) = (Ok tt, Some []) /\
  fate (run true one [None; None; None; None; None; full] []) = (Err (ErrMsg "full"), Some []) /\
  (exists e, fate (run false two [] []) = (Err e, Some [(str_bytes "a.bin", str_bytes "a")])) /\
  fate (run true (doc [buf ""%string (-9) []]) [] []) = (Ok tt, Some []) /\
  fate (run true (doc [buf ""%string (2 ^ 63 - 1) []]) [] []) = (Ok tt, Some []) /\
  fate (run true (doc [None]) [] []) = (Panic, Some []).
Proof.
  cbv zeta. split; [exact sample_float_contract|]. split; [go_plain|]. split; [go_plain|].
  split; [vm_compute; reflexivity|]. split; [vm_compute; reflexivity|]. split; [eexists; vm_compute; reflexivity|]. split; [vm_compute; reflexivity|]. split; vm_compute; reflexivity.
Qed.
