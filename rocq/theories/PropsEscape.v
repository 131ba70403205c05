(** Properties of escaped buffer URIs: C66. *)
From Verif Require Import Base BaseFacts Types Doc F64 Base64 Url UrlProofs SpecText SpecPath JsonText Codec SpecJson SpecString Marshal Stream File SpecFile DocCodec PropsJson PropsFile PropsString.

Lemma digit_plain h x : digit_value h x -> 48 <= b2z h <= 102 /\ 0 <= x < 16 /\ ~ In h (str_bytes "#?:/.") /\ h <> z2b 92.
Proof.
  intros (N & H). assert (E : x = Z.of_nat (Z.to_nat x)) by lia. rewrite E. generalize (Z.to_nat x), H. clear. intros n H.
  do 16 (destruct n; [destruct H as [H|H]; injection H as <-; (split; [vm_compute; intuition discriminate|split; [lia|split; [cbn; intuition discriminate|discriminate]]])|]).
  destruct H as [H|H]; cbn in H; destruct n; discriminate.
Qed.
Lemma pct_chars e p : pct_encodes e p -> Forall (fun b => 32 <= b2z b /\ b2z b <> 127 /\ ~ In b (str_bytes "#?:") /\ b <> z2b 92) e.
Proof.
  induction 1 as [|b e p (H1 & H2 & H3 & H4) _ IH|h g x y e p Hh Hg _ IH].
  - constructor.
  - constructor; [|exact IH]. cbn in *. tauto.
  - destruct (digit_plain h x Hh) as (A1 & _ & A2 & A3). destruct (digit_plain g y Hg) as (B1 & _ & B2 & B3). cbn in *.
    repeat (apply Forall_cons; [|]); [|split; [lia|split; [lia|tauto]]..|exact IH]. vm_compute. intuition discriminate.
Qed.
Lemma pct_unescape e p : pct_encodes e p -> unescape e = Ok p.
Proof.
  induction 1 as [|b e p (_ & _ & H & _) _ IH|h g x y e p Hh Hg _ IH]; cbn [unescape].
  - reflexivity.
  - destruct (Ascii.eqb_spec b "%"%char) as [->|N]; [cbn in H; tauto|]. rewrite IH. reflexivity.
  - apply hexv_digit in Hh, Hg. change (unhex h = Some x) in Hh. change (unhex g = Some y) in Hg. rewrite Ascii.eqb_refl, Hh, Hg, IH. reflexivity.
Qed.
Lemma no_scheme l : ~ In colon l -> forall i, get_scheme_from i l = Ok None.
Proof.
  induction l as [|c l IH]; intros H i; [reflexivity|]. cbn [get_scheme_from]. assert (Hl : ~ In colon l) by (cbn in H; tauto).
  destruct (is_alpha c); [rewrite (IH Hl); reflexivity|]. destruct (is_scheme_rest c); [destruct i; [reflexivity|rewrite (IH Hl); reflexivity]|].
  destruct (Ascii.eqb_spec c colon) as [->|]; [cbn in H; tauto|reflexivity].
Qed.
Lemma cut_none c l : ~ In c l -> cut c l = (l, None).
Proof.
  induction l as [|x l IH]; intros H; [reflexivity|]. cbn [cut]. destruct (Ascii.eqb_spec x c) as [->|]; [cbn in H; tauto|]. rewrite IH by (cbn in H; tauto). reflexivity.
Qed.
Lemma drop_dots_none l : (forall a t, l <> a ++ str_bytes "/./" ++ t) -> drop_dots l = l.
Proof.
  induction l as [|x l IH]; intros H; [reflexivity|].
  assert (Hl : drop_dots l = l). { apply IH. intros a t E. apply (H (x :: a) t). rewrite E. reflexivity. }
  destruct l as [|y [|z l]]; [reflexivity|reflexivity|]. rewrite drop_dots_cons3.
  destruct (Ascii.eqb_spec x slash) as [->|]; cbn [andb]; [|rewrite Hl; reflexivity].
  destruct (Ascii.eqb_spec y dot) as [->|]; cbn [andb]; [|rewrite Hl; reflexivity].
  destruct (Ascii.eqb_spec z slash) as [->|]; [|rewrite Hl; reflexivity]. destruct (H [] l). reflexivity.
Qed.
Lemma sanitize_pct U e p : pct_encodes e p -> simple_reference e -> sanitizeURI U e = Some p.
Proof.
  intros P (NS & ND & NM). pose proof (pct_chars e p P) as Fc.
  assert (NI : forall b, In b (str_bytes "#?:") \/ b = z2b 92 -> ~ In b e).
  { intros b K I. rewrite Forall_forall in Fc. specialize (Fc b I). tauto. }
  unfold sanitizeURI. rewrite fix_backslash_plain by (apply NI; right; reflexivity). rewrite drop_dots_none by exact NM.
  assert (T : trim_prefix [dot; slash] e = e).
  { unfold trim_prefix. destruct (has_prefix [dot; slash] e) eqn:HP; [|reflexivity]. apply has_prefix_app in HP. destruct HP as (t & ->). destruct (ND t). reflexivity. }
  cbv zeta. rewrite T.
  assert (UP : url_parse U e = Ok []).
  { unfold url_parse. rewrite cut_none by (apply NI; cbn; tauto). unfold parse_nofrag.
    assert (HC : has_ctl e = false).
    { unfold has_ctl. destruct (existsb _ e) eqn:X; [|reflexivity]. apply existsb_exists in X. destruct X as (b & I & X). rewrite Forall_forall in Fc. specialize (Fc b I). lia. }
    rewrite HC. destruct (has_prefix ["*"%char] e && (List.length e =? 1)%nat); [reflexivity|].
    unfold get_scheme. rewrite no_scheme by (apply NI; cbn; tauto). cbn [bind List.length Nat.eqb negb andb orb].
    rewrite cut_none by (apply NI; cbn; tauto). cbn [fst].
    assert (HS : forall p', has_prefix (slash :: p') e = false).
    { intros p'. destruct (has_prefix (slash :: p') e) eqn:X; [|reflexivity]. apply has_prefix_app in X. destruct X as (t & ->). destruct (NS (p' ++ t)). reflexivity. }
    rewrite !HS. cbn [negb andb].
    assert (CC : contains colon (fst (cut slash e)) = false).
    { unfold contains. destruct (existsb _ _) eqn:X; [|reflexivity]. apply existsb_exists in X. destruct X as (b & I & X). apply Ascii.eqb_eq in X. subst b.
      destruct (cut slash e) as [a o] eqn:C. pose proof (cut_app _ _ _ _ C) as CA. exfalso. apply (NI colon); [cbn; tauto|]. cbn [fst] in I. destruct o; rewrite CA; [apply in_or_app; left|]; exact I. }
    rewrite CC, (pct_unescape e p P). reflexivity. }
  rewrite UP, (pct_unescape e p P). reflexivity.
Qed.

(** ** C66 *)
(** The URI stands for the local path [p], and it is not the data themselves. *)
Definition points_to (uri : string) (p : bytes) : Prop :=
  pct_encodes (str_bytes uri) p /\ simple_reference (str_bytes uri) /\ local_path p /\
  forall t, p <> str_bytes "data:application/octet-stream;base64" ++ t.
Definition first_bytes (n : Z) (d : bytes) : bytes := if zlen d <=? n then d else firstn (Z.to_nat n) d.

Lemma prefix_str a : forall s, String.prefix a s = true -> exists t, str_bytes s = str_bytes a ++ t.
Proof.
  unfold str_bytes. induction a as [|c a IH]; intros s H; [eexists; reflexivity|]. destruct s as [|d s]; [discriminate|]. cbn in H.
  destruct (Ascii.ascii_dec c d) as [->|]; [|discriminate]. destruct (IH s H) as (t & E). exists t. cbn. rewrite E. reflexivity.
Qed.
Lemma points_clean U uri p : points_to uri p -> clean_uri U uri = bytes_str p /\ String.prefix octet_prefix uri = false /\ String.prefix octet_prefix (bytes_str p) = false.
Proof.
  intros (P & S & L & N). split; [unfold clean_uri; rewrite (sanitize_pct U _ p P S); reflexivity|]. split.
  - destruct (String.prefix octet_prefix uri) eqn:X; [|reflexivity]. destruct (prefix_str _ _ X) as (t & E). pose proof (pct_chars _ _ P) as Fc. rewrite E in Fc.
    apply Forall_app in Fc. destruct Fc as [Fc _]. rewrite Forall_forall in Fc. destruct (Fc colon) as (_ & _ & Q & _); [cbn; tauto|]. destruct Q. cbn. tauto.
  - destruct (String.prefix octet_prefix (bytes_str p)) eqn:X; [|reflexivity]. destruct (prefix_str _ _ X) as (t & E). rewrite str_bytes_str in E. destruct (N t E).
Qed.
Lemma decodeBuffer_points U rf b p d : points_to (buf_URI b) p -> 0 < buf_ByteLength b -> rf p = (d, None) ->
  exists b', clean_buffer U (Some b) = Ok (Some b') /\ str_empty (buf_URI b') = false /\
    decodeBuffer U (Some rf) b' = ([p], Ok (set_buf_Data (first_bytes (buf_ByteLength b) d) b')).
Proof.
  intros P B R. destruct (points_clean U _ _ P) as (C & E1 & E2). destruct P as (_ & _ & L & _).
  unfold clean_buffer, buf_IsEmbeddedResource. cbn [deref bind]. change mimetypeApplicationOctet with octet_prefix. rewrite E1, C. eexists. split; [reflexivity|].
  assert (NE : str_empty (bytes_str p) = false). { destruct p; [destruct L as [L _]; destruct L; reflexivity|reflexivity]. }
  split; [exact NE|]. unfold decodeBuffer, validateBuffer, buf_IsEmbeddedResource. cbn [buf_ByteLength buf_URI set_buf_URI].
  rewrite (proj2 (Z.eqb_neq _ 0)) by lia. change mimetypeApplicationOctet with octet_prefix. rewrite NE, E2, str_bytes_str, (validate_local U p L), R.
  f_equal. unfold first_bytes. destruct (Z.ltb_spec (buf_ByteLength b) (zlen d)).
  - rewrite (proj2 (Z.ltb_ge _ 0)), (proj2 (Z.leb_gt (zlen d) _)) by lia. reflexivity.
  - rewrite (proj2 (Z.leb_le (zlen d) _)) by lia. reflexivity.
Qed.

Lemma clean_images_ok U l : ~ In None l -> exists ims, mapM (clean_image U) l = Ok ims.
Proof.
  induction l as [|[im|] l IH]; intros N; [eexists; reflexivity| |destruct N; left; reflexivity]. destruct IH as (ims & E); [intros I; apply N; right; exact I|].
  cbn [mapM]. unfold clean_image at 1. cbn [deref bind]. rewrite E. eexists. reflexivity.
Qed.

(** Decode opens the files the URIs stand for, in order and no others, and
    the buffers get their bytes. *)
Theorem C66_opened F X U rf old b isB doc b' ps ds :
  decodeDocument F X old b = (Ok (isB, doc), b') -> ~ In None (doc_Images doc) ->
  Forall2 (fun ob p => exists x, ob = Some x /\ points_to (buf_URI x) p /\ 0 < buf_ByteLength x) (doc_Buffers doc) ps ->
  Forall2 (fun p d => rf p = (d, None)) ps ds ->
  exists y, Decode F X U (Some rf) old b = (ps, Ok y) /\
    Forall2 (fun d oy => exists y', oy = Some y' /\ buf_Data y' = first_bytes (buf_ByteLength y') d) ds (doc_Buffers y).
Proof.
  intros D NI FB FD. unfold Decode. rewrite D.
  assert (K : exists bufs out, mapM (clean_buffer U) (doc_Buffers doc) = Ok bufs /\ (forall a l, bufs = a :: l -> exists x, a = Some x /\ str_empty (buf_URI x) = false) /\
    decodeBuffers U (Some rf) bufs = (ps, Ok out) /\ Forall2 (fun d oy => exists y', oy = Some y' /\ buf_Data y' = first_bytes (buf_ByteLength y') d) ds out).
  { clear D NI. revert ds FD. induction FB as [|ob p l ps (x & -> & P & B) FB IH]; intros ds FD.
    - inversion FD; subst. exists [], []. cbn. repeat split; [discriminate|constructor].
    - inversion FD as [|? d ? ds' R FD']; subst. destruct (IH ds' FD') as (bufs & out & M & _ & DB & G).
      destruct (decodeBuffer_points U rf x p d P B R) as (x' & C & E & DX).
      exists (Some x' :: bufs). eexists. split; [cbn [mapM]; rewrite C; cbn [bind]; rewrite M; reflexivity|]. split; [intros a l' [= <- _]; exists x'; auto|].
      split; [cbn [decodeBuffers]; rewrite DX, DB; reflexivity|]. constructor; [|exact G]. eexists. split; [reflexivity|].
      unfold clean_buffer in C. cbn [deref bind] in C. destruct (buf_IsEmbeddedResource x); injection C as <-; reflexivity. }
  destruct K as (bufs & out & M & HD & DB & G). rewrite M.
  destruct (clean_images_ok U _ NI) as (ims & ->).
  assert (LB : load_buffers U (Some rf) isB bufs b' = decodeBuffers U (Some rf) bufs).
    { unfold load_buffers. destruct bufs as [|a l]; [reflexivity|]. destruct (HD a l eq_refl) as (x & -> & E). rewrite E, andb_false_r. reflexivity. }
    rewrite LB, DB. eexists. split; [reflexivity|]. exact G.
Qed.
Print Assumptions C66_opened.
(** The same for the URIs of images: they are unescaped in the document. *)
Theorem C66_images F X U rf old b isB doc b' t y i im p :
  decodeDocument F X old b = (Ok (isB, doc), b') -> Decode F X U rf old b = (t, Ok y) ->
  nth_error (doc_Images doc) i = Some (Some im) -> pct_encodes (str_bytes (img_URI im)) p -> simple_reference (str_bytes (img_URI im)) ->
  exists im', nth_error (doc_Images y) i = Some (Some im') /\ img_URI im' = bytes_str p.
Proof.
  intros D DY N P S. unfold Decode in DY. rewrite D in DY. destruct (mapM (clean_buffer U) _) as [bufs| |]; [|destruct (mapM (clean_image U) (doc_Images doc)); discriminate|discriminate].
  destruct (mapM (clean_image U) (doc_Images doc)) as [ims| |] eqn:MI; [|discriminate..].
  destruct (load_buffers U rf isB bufs b') as [t' [bs| |]]; [|discriminate..]. injection DY as _ <-.
  destruct (mapM_ok_nth _ _ _ _ _ MI N) as (o & NO & C). change (doc_Images _) with ims.
  unfold clean_image in C. cbn [deref bind] in C. injection C as <-. eexists. split; [exact NO|]. 
  assert (NE : img_IsEmbeddedResource im = false).
  { assert (Q : forall a, In colon (str_bytes a) -> String.prefix a (img_URI im) = false).
    { intros a I. destruct (String.prefix a (img_URI im)) eqn:E; [|reflexivity]. destruct (prefix_str _ _ E) as (t0 & Et). pose proof (pct_chars _ _ P) as Fc. rewrite Et in Fc.
      apply Forall_app in Fc. destruct Fc as [Fc _]. rewrite Forall_forall in Fc. destruct (Fc colon I) as (_ & _ & K & _). destruct K. cbn. tauto. }
    unfold img_IsEmbeddedResource. rewrite !Q by (cbn; tauto). reflexivity. }
  rewrite NE. cbn [img_URI set_img_URI]. unfold clean_uri. rewrite (sanitize_pct U _ p P S). reflexivity.
Qed.
Print Assumptions C66_images.

(** A name with a space, a percent sign and an umlaut. *)
Example C66_example :
  points_to "dir/a%20b%25%C3%a4.bin" (str_bytes "dir/a b%" ++ [z2b 0xc3; z2b 0xa4] ++ str_bytes ".bin") /\
  fst (Decode sample_floats sample_exts sample_url (Some files_abc) zero_Document
    (text_reader (q "{'buffers':[{'uri':'dir/a%20b%25%C3%a4.bin','byteLength':2}]}"))) = [str_bytes "dir/a b%" ++ [z2b 0xc3; z2b 0xa4] ++ str_bytes ".bin"].
Proof.
  split; [|vm_compute; reflexivity]. split.
  { assert (D : forall h x, hexv h = Some x -> digit_value h x) by (intros h x H; apply hexv_digit; exact H).
    assert (L : forall c e p, (32 <=? b2z c) && negb (b2z c =? 127) && negb (b2z c =? 92) && negb (existsb (Ascii.eqb c) (str_bytes "%#?:")) = true -> pct_encodes e p -> pct_encodes (c :: e) (c :: p)).
    { intros c e p H K. constructor; [|exact K]. repeat rewrite andb_true_iff in H. destruct H as [[[H1 H2] H3] H4]. split; [lia|]. split; [lia|]. split.
      - intros I. rewrite (proj2 (existsb_exists _ _)) in H4; [discriminate|]. exists c. split; [exact I|apply Ascii.eqb_refl].
      - intros ->. discriminate. }
    change (pct_encodes (str_bytes "dir/a%20b%25%C3%a4.bin") (str_bytes "dir/a" ++ [z2b (16 * 2 + 0)] ++ str_bytes "b" ++ [z2b (16 * 2 + 5); z2b (16 * 12 + 3); z2b (16 * 10 + 4)] ++ str_bytes ".bin")).
    cbn -[z2b Z.mul]. repeat first [apply L; [reflexivity|]|apply pe_pct; [apply D; reflexivity..|]]. constructor. }
  split; [|split].
  - split; [discriminate|]. split; [discriminate|]. intros a t E.
    assert (C : forall a t : bytes, existsb (Ascii.eqb "/"%char) (skipn 4 (a ++ str_bytes "/./" ++ t)) = true \/ (List.length a < 4)%nat).
    { intros a0 t0. destruct (Nat.lt_ge_cases (List.length a0) 4) as [H|H]; [right; exact H|left]. rewrite skipn_app, existsb_app. replace (4 - List.length a0)%nat with O by lia. cbn [skipn].
      rewrite existsb_app. cbn. apply orb_true_r. }
    destruct (C a t) as [H|H]; [rewrite <- E in H; discriminate|]. do 4 (destruct a as [|? a]; [discriminate E|apply (f_equal (@List.tl _)) in E; cbn [List.tl] in E]). cbn in H. lia.
  - apply IsLocal_local. vm_compute. reflexivity.
  - discriminate.
Qed.
