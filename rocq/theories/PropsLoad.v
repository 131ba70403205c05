(** What becomes of the buffers of a file: C94. *)
From Verif Require Import Base BaseFacts Types Doc F64 Base64 Url UrlProofs SpecText SpecPath SpecData JsonText Codec DocCodec SpecJson SpecJsonDoc CodecProofs CodecInv DocCodecBase DocCodecProofs DocCodecInv PropsJson Stream StreamProofs File SpecFile DecodeProofs EncodeProofs PropsUri PropsFile PropsChunk SpecLoad.

Section Load.
Context (U : url_lib) (fsys : option (bytes -> bytes * option error)).
Definition has_scheme (u : bytes) : Prop := exists c s, url_parse U u = Ok (c :: s).
Definition inline_data (u : string) (data : bytes) : Prop := buf_marshalData (set_buf_URI u zero_Buffer) = Ok data.
Local Notation adr := (address (clean_uri U)).
Local Notation out := (outside has_scheme).
Definition cleaned (b : Buffer) : Buffer := mkBuffer (buf_Extensions b) (buf_Extras b) (buf_Name b) (adr b) (buf_ByteLength b) (buf_Data b).
Lemma clean_is b : clean_buffer U (Some b) = Ok (Some (cleaned b)).
Proof. unfold clean_buffer, cleaned, address, buf_IsEmbeddedResource. cbn [deref bind]. destruct b as [x y z u n d]; cbn. unfold octet_prefix. destruct (String.prefix _ u); reflexivity. Qed.
Lemma valid_uri u : validateBufferURI U u = Ok tt <-> has_scheme u \/ local_path u.
Proof.
  unfold validateBufferURI, has_scheme. destruct (url_parse U u) as [[|c s]| |].
  - rewrite <- IsLocal_local. destruct (IsLocal u); split; intros H; try discriminate; [right; reflexivity|reflexivity|destruct H as [(c & s & H)|H]; discriminate].
  - split; intros _; [left; exists c, s; reflexivity|reflexivity].
  - rewrite <- IsLocal_local. destruct (IsLocal u); split; intros H; try discriminate; [right; reflexivity|reflexivity|destruct H as [(c & s & H)|H]; discriminate].
  - rewrite <- IsLocal_local. destruct (IsLocal u); split; intros H; try discriminate; [right; reflexivity|reflexivity|destruct H as [(c & s & H)|H]; discriminate].
Qed.
Lemma valid_cases u : validateBufferURI U u = Ok tt \/ exists e, validateBufferURI U u = Err e.
Proof. unfold validateBufferURI. destruct (url_parse U u) as [[]| |]; try destruct (IsLocal u); eauto. Qed.

Lemma empty_adr u : str_empty u = true <-> u = ""%string.
Proof. destruct u; cbn; split; congruence. Qed.
Lemma inline_same b data : buf_marshalData b = Ok data <-> inline_data (buf_URI b) data.
Proof. unfold inline_data, buf_marshalData, buf_IsEmbeddedResource. destruct b. reflexivity. Qed.

Lemma not_both left k b data : loads (clean_uri U) has_scheme inline_data fsys left k b data -> crashes (clean_uri U) has_scheme fsys left k b -> False.
Proof.
  intros LD C. inversion LD as [? ? ? A2 CN L1 L2|? ? ? P I L0|? ? E1 O L0|? ? ? ? E1 O L0 R]; subst; inversion C as [? ? A3 CN3 L3|? ? ? E3 O3 L3]; subst; try congruence; try lia;
    try (rewrite A3 in P; discriminate P); try (destruct O3 as (? & ? & _); congruence); try (destruct O as (? & ? & _); congruence).
Qed.

(** One buffer that is not in the BIN chunk. *)
Section One.
Context (left : option bytes) (k : nat) (b : Buffer) (NC : k = O -> left = None \/ adr b <> ""%string).
Local Notation ld := (loads (clean_uri U) has_scheme inline_data fsys left k b).
Local Notation cr := (crashes (clean_uri U) has_scheme fsys left k b).
Lemma one_fate names r : decodeBuffer U fsys (cleaned b) = (names, r) ->
  match r with Ok b' => exists data, b' = set_buf_Data data (cleaned b) /\ ld data | Panic => cr | Err _ => (forall data, ~ ld data) /\ ~ cr end.
Proof.
  assert (NCH : forall content, k = O -> adr b = ""%string -> ~ chunk_next left b content).
  { intros content E1 E2 (n & E3 & _). destruct (NC E1); congruence. }
  unfold decodeBuffer, validateBuffer. cbn [cleaned buf_ByteLength buf_URI]. destruct (buf_ByteLength b =? 0) eqn:Z0.
  { intros [= _ <-]. split; [intros data L|intros C]; [inversion L|inversion C]; subst; try lia. }
  destruct (str_empty (adr b)) eqn:SE.
  { apply empty_adr in SE. intros [= _ <-]. split; [intros data L|intros C].
    - inversion L as [? ? ? _ CN|? ? ? P|? ? _ (O & _)|? ? ? ? _ (O & _)]; subst; [exact (NCH _ eq_refl SE CN)|rewrite SE in P; discriminate|congruence|congruence].
    - inversion C as [? ? _ CN|? ? ? _ (O & _)]; subst; [exact (NCH _ eq_refl SE CN)|congruence]. }
  assert (NE : adr b <> ""%string) by (rewrite <- empty_adr; congruence).
  unfold buf_IsEmbeddedResource. cbn [cleaned buf_URI]. change mimetypeApplicationOctet with octet_prefix.
  destruct (String.prefix octet_prefix (adr b)) eqn:P.
  { destruct (buf_marshalData (cleaned b)) as [d|e|] eqn:M; cbn [bind]; intros [= _ <-].
    - exists d. split; [reflexivity|]. apply ld_inline; [exact P|apply inline_same in M; exact M|lia].
    - split; [intros data L|intros C].
      + inversion L as [? ? ? A|? ? ? _ I|? ? _ (_ & O & _)|? ? ? ? _ (_ & O & _)]; subst; [congruence| |congruence|congruence].
        apply (inline_same (cleaned b)) in I. congruence.
      + inversion C as [? ? A|? ? ? _ (_ & O & _)]; subst; congruence.
    - destruct (C24_no_panic (cleaned b) M). }
  destruct (valid_cases (str_bytes (adr b))) as [V|(e & V)]; rewrite V.
  2:{ intros [= _ <-]. assert (NO : ~ out (adr b)) by (intros (_ & _ & O); apply valid_uri in O; congruence).
      split; [intros data L|intros C]; [inversion L as [? ? ? A|? ? ? P'|? ? _ O|? ? ? ? _ O]|inversion C as [? ? A|? ? ? _ O]]; subst; congruence || contradiction. }
  assert (O : out (adr b)) by (split; [exact NE|split; [exact P|apply valid_uri; exact V]]).
  destruct fsys as [rf|] eqn:EF.
  - destruct (rf (str_bytes (adr b))) as [d e] eqn:R. pose proof (zlen_nonneg d) as Nd. intros E. apply (f_equal snd) in E. cbn [snd] in E. subst r.
    destruct (Z.ltb_spec (buf_ByteLength b) (zlen d)) as [L|L].
    + destruct (Z.ltb_spec (buf_ByteLength b) 0) as [N|N]; cbn [bind].
      * eapply cr_file; [reflexivity|exact O|exact N].
      * destruct e as [e|].
        -- split; [intros data LD|intros C]; [inversion LD as [? ? ? A|? ? ? P'|? ? ? ?|? ? ? ? E1 ? ? E2]|inversion C as [? ? A|? ? ? E1 ? ?]]; subst; try congruence; try lia.
        -- eexists. split; [reflexivity|]. eapply ld_file; [reflexivity|exact O|lia|exact R].
    + cbn [bind]. assert (0 < buf_ByteLength b) by lia. destruct e as [e|].
      * split; [intros data LD|intros C]; [inversion LD as [? ? ? A|? ? ? P'|? ? ? ?|? ? ? ? E1 ? ? E2]|inversion C as [? ? A|? ? ? E1 ? ?]]; subst; try congruence; try lia.
      * exists (firstn (Z.to_nat (buf_ByteLength b)) d). rewrite firstn_exact by lia. split; [reflexivity|]. rewrite <- (firstn_exact (buf_ByteLength b) d) by lia.
        eapply ld_file; [reflexivity|exact O|lia|exact R].
  - intros [= _ <-]. exists (buf_Data b). split; [reflexivity|]. apply ld_left; [reflexivity|exact O|lia].
Qed.
End One.

(** The buffer in the BIN chunk. *)
Lemma chunk_front l b content : chunk_next (Some l) b content <->
  8 <= zlen l /\ content = skipn 8 l /\
  negb (ch_Type (get_chunkHeader (firstn 8 l)) =? glbChunkBIN) || (ch_Length (get_chunkHeader (firstn 8 l)) <? u32 (buf_ByteLength b)) = false.
Proof.
  unfold chunk_next. split.
  - intros (n & E & N & L). assert (E2 : l = word n ++ kind_bin ++ content) by congruence. subst l. pose proof (zlen_nonneg content). split; [rewrite !zlen_app, word_zlen, kindb_zlen; lia|]. split; [reflexivity|].
    rewrite kind_bin_word. change (firstn 8 (word n ++ word glbChunkBIN ++ content)) with (List.concat (map word [n; glbChunkBIN])).
    unfold get_chunkHeader. rewrite <- (app_nil_r (List.concat _)). rewrite (field4_words _ 0 [] n), (field4_words _ 1 [] glbChunkBIN);
      try reflexivity; try (unfold glbChunkBIN; lia). cbn [ch_Type ch_Length]. change (glbChunkBIN =? glbChunkBIN) with true. cbn [negb orb]. unfold u32. lia.
  - intros (L8 & -> & CH). apply orb_false_elim in CH. destruct CH as [CT CL].
    destruct l as [|x1 [|x2 [|x3 [|x4 [|y1 [|y2 [|y3 [|y4 l1]]]]]]]]; try (unfold zlen in L8; cbn in L8; lia).
    change (firstn 8 _) with [x1; x2; x3; x4; y1; y2; y3; y4] in CT, CL. change (skipn 8 _) with l1 in *.
    change (ch_Length (get_chunkHeader [x1; x2; x3; x4; y1; y2; y3; y4])) with (le_val [x1; x2; x3; x4]) in CL.
    change (ch_Type (get_chunkHeader [x1; x2; x3; x4; y1; y2; y3; y4])) with (le_val [y1; y2; y3; y4]) in CT.
    assert (LX : word (le_val [x1; x2; x3; x4]) = [x1; x2; x3; x4]) by (rewrite <- le4_word; exact (le_bytes_le_val [x1; x2; x3; x4])).
    assert (KY : [y1; y2; y3; y4] = kind_bin).
    { rewrite <- (le_bytes_le_val [y1; y2; y3; y4]). apply negb_false_iff, Z.eqb_eq in CT. rewrite CT. reflexivity. }
    pose proof (le_val_range [x1; x2; x3; x4]) as RX. change (256 ^ Z.of_nat (List.length [x1; x2; x3; x4])) with (2 ^ 32) in RX.
    exists (le_val [x1; x2; x3; x4]). split; [rewrite LX, <- KY; reflexivity|]. split; [exact RX|]. unfold u32 in CL. lia.
Qed.
Lemma chunk_fate l b : adr b = ""%string ->
  match bin_result (cleaned b) l with
  | Ok b' => exists data, b' = set_buf_Data data (cleaned b) /\ loads (clean_uri U) has_scheme inline_data fsys (Some l) 0 b data
  | Panic => crashes (clean_uri U) has_scheme fsys (Some l) 0 b
  | Err _ => (forall data, ~ loads (clean_uri U) has_scheme inline_data fsys (Some l) 0 b data) /\ ~ crashes (clean_uri U) has_scheme fsys (Some l) 0 b
  end.
Proof.
  intros A.
  assert (LI : forall data, loads (clean_uri U) has_scheme inline_data fsys (Some l) 0 b data ->
    exists more, chunk_next (Some l) b (data ++ more) /\ zlen data = buf_ByteLength b /\ 0 < buf_ByteLength b <= 2 ^ 48).
  { intros data L. inversion L as [? ? more A2 CN L1 L2|? ? ? P|? ? _ (O & _)|? ? ? ? _ (O & _)]; subst; try congruence; [exists more; auto|rewrite A in P; discriminate P]. }
  assert (CI : crashes (clean_uri U) has_scheme fsys (Some l) 0 b -> exists content, chunk_next (Some l) b content /\ (buf_ByteLength b < 0 \/ 2 ^ 48 < buf_ByteLength b)).
  { intros C. inversion C as [? content A2 CN L1|? ? ? _ (O & _)]; subst; [exists content; auto|congruence]. }
  unfold bin_result, validateBuffer. cbn [cleaned buf_ByteLength]. destruct (Z.eqb_spec (buf_ByteLength b) 0) as [Z0|Z0]; cbn [bind].
  { split; [intros data L; destruct (LI _ L) as (? & _ & _ & ?); lia|intros C; destruct (CI C) as (? & _ & ?); lia]. }
  unfold taken at 1. rewrite zlen_nil. destruct (Z.leb_spec 8 (0 + zlen l)) as [L8|L8]; cbn [bind app].
  2:{ split; [intros data L; destruct (LI _ L) as (? & CN & _)|intros C; destruct (CI C) as (? & CN & _)]; apply chunk_front in CN; lia. }
  change (Z.to_nat (8 - 0)) with 8%nat. destruct (negb _ || _) eqn:CH.
  { split; [intros data L; destruct (LI _ L) as (? & CN & _)|intros C; destruct (CI C) as (? & CN & _)]; apply chunk_front in CN; destruct CN as (_ & _ & CN); congruence. }
  assert (CN : chunk_next (Some l) b (skipn 8 l)) by (apply chunk_front; split; [lia|split; [reflexivity|exact CH]]).
  destruct (make_ok (buf_ByteLength b)) eqn:MK; cbn [negb]; unfold make_ok in MK; change (2 ^ 48) with 281474976710656 in *.
  2:{ apply (cr_chunk _ _ _ _ _ (skipn 8 l)); [exact A|exact CN|change (2 ^ 48) with 281474976710656; lia]. }
  unfold taken. rewrite zlen_nil. destruct (Z.leb_spec (buf_ByteLength b) (0 + zlen (skipn 8 l))) as [LB|LB]; cbn [bind app].
  - rewrite Z.sub_0_r. eexists. split; [reflexivity|]. apply (ld_chunk _ _ _ _ _ _ _ (skipn (Z.to_nat (buf_ByteLength b)) (skipn 8 l))); [exact A|rewrite firstn_skipn; exact CN| |change (2 ^ 48) with 281474976710656; lia].
    rewrite zlen_firstn by lia. lia.
  - split.
    + intros data L. destruct (LI _ L) as (more & CN2 & E & _). apply chunk_front in CN2. destruct CN2 as (_ & E2 & _). apply (f_equal zlen) in E2. rewrite zlen_app in E2. pose proof (zlen_nonneg more). lia.
    + intros C. destruct (CI C) as (? & _ & ?). lia.
Qed.

(** All buffers. *)
Lemma rest_fate left l : forall k names r, (k <> O \/ left = None \/ match l with Some b :: _ => adr b <> ""%string | _ => True end) -> ~ In None l ->
  decodeBuffers U fsys (map (option_map cleaned) l) = (names, r) ->
  match r with
  | Ok l' => all_load (clean_uri U) has_scheme inline_data fsys left k l l'
  | Panic => exists before b after before', l = before ++ Some b :: after /\ all_load (clean_uri U) has_scheme inline_data fsys left k before before' /\ crashes (clean_uri U) has_scheme fsys left (k + List.length before) b
  | Err _ => (forall l', ~ all_load (clean_uri U) has_scheme inline_data fsys left k l l') /\
      forall before b after before', l = before ++ Some b :: after -> all_load (clean_uri U) has_scheme inline_data fsys left k before before' -> ~ crashes (clean_uri U) has_scheme fsys left (k + List.length before) b
  end.
Proof.
  induction l as [|[b|] l IH]; intros k names r NC NN; cbn [map option_map decodeBuffers]; [intros [= _ <-]; constructor| |destruct NN; left; reflexivity].
  assert (NC1 : k = O -> left = None \/ adr b <> ""%string) by (intros ->; destruct NC as [NC|[NC|NC]]; [congruence|left; exact NC|right; exact NC]).
  destruct (decodeBuffer U fsys (cleaned b)) as [t [b'|e|]] eqn:D; pose proof (one_fate left k b NC1 _ _ D) as FT; cbn beta iota in FT.
  - destruct FT as (data & -> & LD). destruct (decodeBuffers U fsys (map (option_map cleaned) l)) as [t' r'] eqn:DR.
    specialize (IH (S k) _ _ ltac:(left; lia) ltac:(intros I; apply NN; right; exact I) eq_refl).
    destruct r' as [l'|e|]; cbn [bind]; intros [= _ <-].
    + exact (al_cons _ _ _ _ _ k b data l l' LD IH).
    + destruct IH as [IH1 IH2]. split.
      * intros l' AL. inversion AL as [|? ? data2 ? l2 LD2 AL2]; subst. exact (IH1 _ AL2).
      * intros before b2 after before' E AL. destruct before as [|o before].
        -- cbn [app List.length] in *. injection E as <- <-. rewrite Nat.add_0_r. intros C. exact (not_both _ _ _ _ LD C).
        -- cbn [app List.length] in *. injection E as <- ->. inversion AL as [|? ? data2 ? l2 LD2 AL2]; subst. replace (k + S (List.length before))%nat with (S k + List.length before)%nat by lia. exact (IH2 _ _ _ _ eq_refl AL2).
    + destruct IH as (before & b2 & after & before' & -> & AL & C). exists (Some b :: before), b2, after. eexists. split; [reflexivity|]. split; [exact (al_cons _ _ _ _ _ k b data before before' LD AL)|].
      cbn [List.length]. replace (k + S (List.length before))%nat with (S k + List.length before)%nat by lia. exact C.
  - intros [= _ <-]. destruct FT as [F1 F2]. split.
    + intros l' AL. inversion AL as [|? ? data2 ? l2 LD2 AL2]; subst. exact (F1 _ LD2).
    + intros before b2 after before' E AL. destruct before as [|o before].
      * cbn [app List.length] in *. injection E as <- <-. rewrite Nat.add_0_r. exact F2.
      * cbn [app] in E. injection E as <- ->. inversion AL as [|? ? data2 ? l2 LD2 AL2]; subst. destruct (F1 _ LD2).
  - intros [= _ <-]. exists [], b, l, []. split; [reflexivity|]. split; [constructor|]. cbn [List.length]. rewrite Nat.add_0_r. exact FT.
Qed.
Lemma all_fate left l names r : ~ In None l ->
  match left with
  | Some rest => load_bytes U fsys true (map (option_map cleaned) l) rest
  | None => decodeBuffers U fsys (map (option_map cleaned) l)
  end = (names, r) ->
  match r with
  | Ok l' => all_load (clean_uri U) has_scheme inline_data fsys left 0 l l'
  | Panic => one_crashes (clean_uri U) has_scheme inline_data fsys left l
  | Err _ => (forall l', ~ all_load (clean_uri U) has_scheme inline_data fsys left 0 l l') /\ ~ one_crashes (clean_uri U) has_scheme inline_data fsys left l
  end.
Proof.
  intros NN.
  assert (REST : (left = None \/ match l with Some b :: _ => adr b <> ""%string | _ => True end) -> decodeBuffers U fsys (map (option_map cleaned) l) = (names, r) ->
    match r with
    | Ok l' => all_load (clean_uri U) has_scheme inline_data fsys left 0 l l'
    | Panic => one_crashes (clean_uri U) has_scheme inline_data fsys left l
    | Err _ => (forall l', ~ all_load (clean_uri U) has_scheme inline_data fsys left 0 l l') /\ ~ one_crashes (clean_uri U) has_scheme inline_data fsys left l
    end).
  { intros NC D. pose proof (rest_fate left l O names r (or_intror NC) NN D) as Q. destruct r as [l'|e|]; [exact Q| |exact Q].
    destruct Q as [Q1 Q2]. split; [exact Q1|]. intros (before & b & after & before' & E & AL & C). exact (Q2 _ _ _ _ E AL C). }
  destruct left as [rest|]; [|apply REST; left; reflexivity].
  unfold load_bytes. destruct l as [|[b|] l]; [apply REST; right; exact I| |destruct NN; left; reflexivity]. cbn [map option_map andb].
  change (buf_URI (cleaned b)) with (adr b). destruct (str_empty (adr b)) eqn:SE; [|apply REST; right; rewrite <- empty_adr; congruence].
  apply empty_adr in SE. pose proof (chunk_fate rest b SE) as FT. destruct (bin_result (cleaned b) rest) as [b'|e|].
  - destruct FT as (data & -> & LD). destruct (decodeBuffers U fsys (map (option_map cleaned) l)) as [t' r'] eqn:DR.
    pose proof (rest_fate (Some rest) l 1%nat t' r' ltac:(left; lia) ltac:(intros I; apply NN; right; exact I) DR) as Q.
    destruct r' as [l'|e|]; cbn [bind]; intros [= _ <-].
    + exact (al_cons _ _ _ _ _ O b data l l' LD Q).
    + destruct Q as [Q1 Q2]. split.
      * intros l' AL. inversion AL as [|? ? data2 ? l2 LD2 AL2]; subst. exact (Q1 _ AL2).
      * intros (before & b2 & after & before' & E & AL & C). destruct before as [|o before].
        -- cbn [app List.length] in *. injection E as <- <-. exact (not_both _ _ _ _ LD C).
        -- cbn [app List.length] in *. injection E as <- ->. inversion AL as [|? ? data2 ? l2 LD2 AL2]; subst. exact (Q2 _ _ _ _ eq_refl AL2 C).
    + destruct Q as (before & b2 & after & before' & -> & AL & C). exists (Some b :: before), b2, after. eexists. split; [reflexivity|]. split; [exact (al_cons _ _ _ _ _ O b data before before' LD AL)|exact C].
  - intros [= _ <-]. destruct FT as [F1 F2]. split.
    + intros l' AL. inversion AL as [|? ? data2 ? l2 LD2 AL2]; subst. exact (F1 _ LD2).
    + intros (before & b2 & after & before' & E & AL & C). destruct before as [|o before].
      * cbn [app List.length] in *. injection E as <- <-. exact (F2 C).
      * cbn [app] in E. injection E as <- ->. inversion AL as [|? ? data2 ? l2 LD2 AL2]; subst. exact (F1 _ LD2).
  - intros [= _ <-]. exists [], b, l, []. split; [reflexivity|]. split; [constructor|exact FT].
Qed.
Lemma exclusive left l l' : all_load (clean_uri U) has_scheme inline_data fsys left 0 l l' -> one_crashes (clean_uri U) has_scheme inline_data fsys left l -> False.
Proof.
  intros AL (before & b & after & before' & -> & _ & C). change (List.length before) with (0 + List.length before)%nat in C. revert AL C. generalize O at 1 2. intros k AL C. revert k l' AL C.
  induction before as [|o before IH]; intros k l' AL C; inversion AL as [|? ? data ? l2 LD AL2]; subst.
  - cbn in C. rewrite Nat.add_0_r in C. exact (not_both _ _ _ _ LD C).
  - apply (IH (S k) _ AL2). cbn [List.length] in C. replace (S k + List.length before)%nat with (k + S (List.length before))%nat by lia. exact C.
Qed.
Lemma clean_all l : ~ In None l -> mapM (clean_buffer U) l = Ok (map (option_map cleaned) l).
Proof.
  induction l as [|[b|] l IH]; intros NN; [reflexivity| |destruct NN; left; reflexivity].
  cbn [mapM map option_map]. rewrite clean_is. cbn [bind]. rewrite IH by (intros I; apply NN; right; exact I). reflexivity.
Qed.
Lemma images_all l : ~ In None l -> exists l', mapM (clean_image U) l = Ok l'.
Proof.
  induction l as [|[b|] l IH]; intros NN; [eexists; reflexivity| |destruct NN; left; reflexivity].
  destruct IH as (l' & E); [intros I; apply NN; right; exact I|]. cbn [mapM clean_image deref bind]. rewrite E. eexists; reflexivity.
Qed.
Lemma null_dec {A} (l : list (option A)) : {In None l} + {~ In None l}.
Proof. induction l as [|[a|] l [IH|IH]]; [right; intros []|left; right; exact IH|right; intros [Q|Q]; [discriminate|contradiction]|left; left; reflexivity..]. Qed.
Lemma mapM_null {A B} (f : option A -> res B) l : (f None = Panic) -> (forall a e, f a <> Err e) -> In None l -> mapM f l = Panic.
Proof.
  intros FN FE. induction l as [|a l IH]; [intros []|]. intros [->|I]; cbn [mapM]; [rewrite FN; reflexivity|].
  rewrite (IH I). destruct (f a) eqn:E; [reflexivity|destruct (FE _ _ E)|reflexivity].
Qed.
End Load.

(** ** C94 *)
(** Once the JSON is read, what Decode does is settled by the conditions of
    SpecLoad: it returns a document when every buffer loads, it panics when an
    entry is null or a buffer crashes after the ones before it were loaded, and
    otherwise it returns an error. *)
Section Outcome.
Context (F : float_lib) (X : ext_lib) (U : url_lib) (fsys : option (bytes -> bytes * option error)) (old : Document) (r : reader) (isBinary : bool) (doc : Document) (b : bufio).
Context (R : reads_to_eof r) (D : decodeDocument F X old (NewReader r) = (Ok (isBinary, doc), b)).
Let rest := if isBinary then Some (remaining b) else None.
Lemma decoded : Decode F X U fsys old (NewReader r) =
  match mapM (clean_buffer U) (doc_Buffers doc), mapM (clean_image U) (doc_Images doc) with
  | Ok bufs, Ok ims =>
      let '(t, r) := match rest with Some l => load_bytes U fsys true bufs l | None => decodeBuffers U fsys bufs end in
      (t, bufs <- r ;; Ok (set_doc_Images ims (set_doc_Buffers bufs doc)))
  | Panic, _ | _, Panic => ([], Panic)
  | Err e, _ | _, Err e => ([], Err e)
  end.
Proof.
  unfold Decode, rest. rewrite D. destruct (mapM (clean_buffer U) (doc_Buffers doc)); [|reflexivity..]. destruct (mapM (clean_image U) (doc_Images doc)); [|reflexivity..].
  destruct isBinary; [|rewrite load_text; reflexivity].
  destruct (header_of (stream r)) as [h|] eqn:H.
  - destruct (decodeDocument_rest F X old r h doc b true R H D) as (_ & _ & I & E & _). rewrite (load_buffers_spec _ _ _ _ b I E). reflexivity.
  - pose proof (decodeDocument_text F X old r R H) as Q. rewrite D in Q. cbn [fst] in Q. destruct (whole start true (stream r)) as [v| |]; cbn [bind] in Q; try discriminate.
    destruct (dec (c_Document F X) old v); discriminate.
Qed.
End Outcome.
Theorem C94_outcome F X U fsys old r isBinary doc b :
  reads_to_eof r -> decodeDocument F X old (NewReader r) = (Ok (isBinary, doc), b) ->
  let rest := if isBinary then Some (remaining b) else None in
  ((exists names doc', Decode F X U fsys old (NewReader r) = (names, Ok doc')) <->
   ~ In None (doc_Buffers doc) /\ ~ In None (doc_Images doc) /\ exists bufs, all_load (clean_uri U) (has_scheme U) inline_data fsys rest 0 (doc_Buffers doc) bufs) /\
  ((exists names, Decode F X U fsys old (NewReader r) = (names, Panic)) <->
   In None (doc_Buffers doc) \/ In None (doc_Images doc) \/ one_crashes (clean_uri U) (has_scheme U) inline_data fsys rest (doc_Buffers doc)) /\
  (forall names doc', Decode F X U fsys old (NewReader r) = (names, Ok doc') ->
   all_load (clean_uri U) (has_scheme U) inline_data fsys rest 0 (doc_Buffers doc) (doc_Buffers doc')).
Proof.
  intros R D rest. rewrite (decoded F X U fsys old r isBinary doc b R D). fold rest.
  assert (CB : forall a e, clean_buffer U a <> Err e) by (intros [] e; discriminate). assert (CI : forall a e, clean_image U a <> Err e) by (intros [] e; discriminate).
  destruct (null_dec (doc_Buffers doc)) as [NB|NB].
  { rewrite (mapM_null (clean_buffer U)) by (reflexivity || assumption). split; [|split].
    - split; [intros (names & doc' & E)|intros (Q & _)]; [discriminate|contradiction].
    - split; [auto|]. intros _. exists []. reflexivity.
    - discriminate. }
  rewrite (clean_all U _ NB). destruct (null_dec (doc_Images doc)) as [NI|NI].
  { rewrite (mapM_null (clean_image U)) by (reflexivity || assumption). split; [|split].
    - split; [intros (names & doc' & E)|intros (_ & Q & _)]; [discriminate|contradiction].
    - split; [auto|]. intros _. exists []. reflexivity.
    - discriminate. }
  destruct (images_all U _ NI) as (ims & ->).
  match goal with |- context [let '(t, r) := ?q in _] => destruct q as [t res] eqn:EQ end.
  pose proof (all_fate U fsys rest (doc_Buffers doc) t res NB EQ) as FT. destruct res as [bufs|e|]; cbn [bind].
  - split; [|split].
    + split; [|intros _; do 2 eexists; reflexivity]. intros _. split; [exact NB|]. split; [exact NI|]. exists bufs. exact FT.
    + split; [intros (names & E); discriminate|]. intros [Q|[Q|Q]]; [contradiction..|]. destruct (exclusive _ _ _ _ _ FT Q).
    + intros names doc' [= _ <-]. exact FT.
  - destruct FT as [F1 F2]. split; [|split].
    + split; [intros (names & doc' & E); discriminate|]. intros (_ & _ & bufs & AL). destruct (F1 _ AL).
    + split; [intros (names & E); discriminate|]. intros [Q|[Q|Q]]; [contradiction..|]. destruct (F2 Q).
    + discriminate.
  - split; [|split].
    + split; [intros (names & doc' & E); discriminate|]. intros (_ & _ & bufs & AL). destruct (exclusive _ _ _ _ _ AL FT).
    + split; [auto|]. intros _. exists t. reflexivity.
    + discriminate.
Qed.
Print Assumptions C94_outcome.

(** And if the JSON is not read, Decode returns an error and opens no file. *)
Theorem C94_unread F X U fsys old b : registry_total X ->
  (exists isBinary doc b', decodeDocument F X old b = (Ok (isBinary, doc), b')) \/ exists e, Decode F X U fsys old b = ([], Err e).
Proof.
  intros RT. unfold Decode. destruct (decodeDocument F X old b) as [res b1] eqn:DD.
  assert (ND : res <> Panic).
  { unfold decodeDocument in DD. destruct (readGLBHeader b) as [h b2] eqn:RH.
    assert (NH : h <> Panic).
    { unfold readGLBHeader in RH. destruct (Peek header_size b) as [[c|] b3]; [|injection RH as <- _; discriminate].
      destruct (negb _); [injection RH as <- _; discriminate|]. destruct (b_read header_size b3) as [[? ?] ?]. injection RH as <- _.
      unfold validateGLBHeader. destruct (_ || _); discriminate. }
    destruct h as [h| |]; [|injection DD as <- _; discriminate|congruence].
    pose proof (readValue_safe (S (S (List.length (remaining b2)))) 0 0 start true (mkSource (option_map (fun h => ch_Length (gh_JSONHeader h)) h) b2)) as NV.
    unfold read_json in DD. cbn [src_buf] in DD. destruct (readValue _ _ _ _ _ _) as [v s]. cbn [fst] in NV. apply (f_equal fst) in DD. cbn [fst] in DD. subst res.
    destruct v as [v| |]; unfold bind; [|discriminate|congruence]. pose proof (np_Document F X RT old v) as NP. destruct (dec (c_Document F X) old v) as [y|e|]; [discriminate|discriminate|congruence]. }
  destruct res as [[isB doc]|e|]; [left; eauto|right; eauto|congruence].
Qed.
Print Assumptions C94_unread.

(** The conditions in use: three buffers of a text, where the third is a file
    and its length is negative, so that Decode panics after it has opened the
    first file; with a positive length it loads; and without the second file
    there is an error before. *)
Definition three (len2 len3 : string) : reader :=
  mkReader [str_bytes (q ("{'buffers':[{'uri':'./a.bin','byteLength':2},{'uri':'data:application/octet-stream;base64,aGk=','byteLength':" ++ len2 ++ "},{'uri':'b.bin','byteLength':" ++ len3 ++ "}]}"))] ErrEOF false.
Definition both_files (n : bytes) : bytes * option error :=
  if list_eq_dec ascii_dec n (str_bytes "a.bin") then (str_bytes "abc", None) else if list_eq_dec ascii_dec n (str_bytes "b.bin") then (str_bytes "xyz", None) else ([], Some (ErrMsg "file does not exist")).
Example C94_example :
  let load r := Decode sample_floats sample_exts sample_url (Some both_files) zero_Document (NewReader r) in
  let found r := decodeDocument sample_floats sample_exts zero_Document (NewReader r) in
  load (three "2" "-1") = ([str_bytes "a.bin"; str_bytes "b.bin"], Panic) /\
  (exists doc b, found (three "2" "-1") = (Ok (false, doc), b) /\ one_crashes (clean_uri sample_url) (has_scheme sample_url) inline_data (Some both_files) None (doc_Buffers doc)) /\
  (exists doc b bufs, found (three "2" "9") = (Ok (false, doc), b) /\ all_load (clean_uri sample_url) (has_scheme sample_url) inline_data (Some both_files) None 0 (doc_Buffers doc) bufs /\
     map (option_map buf_Data) bufs = [Some (str_bytes "ab"); Some (str_bytes "hi"); Some (str_bytes "xyz")]) /\
  exists e, load (three "0" "-1") = ([str_bytes "a.bin"], Err e).
Proof.
  cbv zeta. split; [vm_compute; reflexivity|]. split; [|split; [|eexists; vm_compute; reflexivity]].
  - destruct (decodeDocument sample_floats sample_exts zero_Document (NewReader (three "2" "-1"))) as [[[[] doc]| |] b] eqn:E; try (vm_compute in E; discriminate E).
    exists doc, b. split; [reflexivity|].
    destruct (C94_outcome sample_floats sample_exts sample_url (Some both_files) zero_Document (three "2" "-1") false doc b ltac:(split; [repeat constructor; discriminate|reflexivity]) E) as (_ & P & _).
    destruct (proj1 P) as [Q|[Q|Q]]; [eexists; vm_compute; reflexivity| | |exact Q]; vm_compute in E; injection E as <- _; cbn in Q; intuition discriminate.
  - destruct (decodeDocument sample_floats sample_exts zero_Document (NewReader (three "2" "9"))) as [[[[] doc]| |] b] eqn:E; try (vm_compute in E; discriminate E).
    destruct (C94_outcome sample_floats sample_exts sample_url (Some both_files) zero_Document (three "2" "9") false doc b ltac:(split; [repeat constructor; discriminate|reflexivity]) E) as (_ & _ & P).
    assert (B : match Decode sample_floats sample_exts sample_url (Some both_files) zero_Document (NewReader (three "2" "9")) with
      | (_, Ok doc') => map (option_map buf_Data) (doc_Buffers doc') = [Some (str_bytes "ab"); Some (str_bytes "hi"); Some (str_bytes "xyz")] | _ => False end) by (vm_compute; reflexivity).
    destruct (Decode sample_floats sample_exts sample_url (Some both_files) zero_Document (NewReader (three "2" "9"))) as [names [doc'| |]]; try contradiction.
    exists doc, b, (doc_Buffers doc'). split; [reflexivity|]. split; [exact (P names doc' eq_refl)|exact B].
Qed.
