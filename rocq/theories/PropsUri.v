(** Properties of data URIs: C24, C25.  The confinement lemmas behind C26-C28
    are in UrlProofs. *)
From Verif Require Import Base BaseFacts Types Doc Base64 SpecData Base64Proofs.

Lemma prefix_app p s : String.prefix p (p ++ s) = true.
Proof. induction p as [|a p IH]; [destruct s; reflexivity|]. cbn. destruct (ascii_dec a a); [exact IH|contradiction]. Qed.

Lemma bytes_str_app a b : bytes_str (a ++ b) = (bytes_str a ++ bytes_str b)%string.
Proof. unfold bytes_str. induction a as [|c a IH]; [reflexivity|]. cbn. rewrite IH. reflexivity. Qed.
Lemma bytes_str_bytes s : bytes_str (str_bytes s) = s.
Proof. apply string_of_list_ascii_of_string. Qed.
Lemma str_bytes_bytes l : str_bytes (bytes_str l) = l.
Proof. apply list_ascii_of_string_of_list_ascii. Qed.
Lemma str_bytes_app a b : str_bytes (a ++ b) = str_bytes a ++ str_bytes b.
Proof. unfold str_bytes. induction a as [|c a IH]; [reflexivity|]. cbn. rewrite IH. reflexivity. Qed.

Lemma slice_from_app (p t : bytes) : slice_from (p ++ t) (zlen p) = Ok t.
Proof.
  unfold slice_from, zlen. rewrite app_length.
  replace ((0 <=? Z.of_nat (List.length p)) && (Z.of_nat (List.length p) <=? Z.of_nat (List.length p + List.length t))) with true by lia.
  rewrite Nat2Z.id, skipn_app, skipn_all, Nat.sub_diag. reflexivity.
Qed.

Lemma data_uri_tail mime data : 
  str_bytes (data_uri mime data) = (str_bytes ("data:" ++ mime ++ ";base64") ++ ","%char :: base64_text data).
Proof.
  unfold data_uri. rewrite !str_bytes_app, str_bytes_bytes.
  change (str_bytes ";base64,") with (str_bytes ";base64" ++ [","%char]). rewrite <- !app_assoc. reflexivity.
Qed.

Lemma decode_tail mime data :
  (tl <- str_from (data_uri mime data) (zlen (str_bytes ("data:" ++ mime ++ ";base64")) + 1) ;; b64_decode tl) = Ok data
  /\ zlen (str_bytes (data_uri mime data)) <? zlen (str_bytes ("data:" ++ mime ++ ";base64")) + 1 = false.
Proof.
  unfold str_from. rewrite data_uri_tail. split.
  - set (h := str_bytes ("data:" ++ mime ++ ";base64")).
    replace (zlen h + 1) with (zlen (h ++ [","%char])) by (unfold zlen; rewrite app_length; cbn; lia).
    change (h ++ ","%char :: base64_text data) with (h ++ [","%char] ++ base64_text data). rewrite app_assoc.
    rewrite slice_from_app. cbn [bind]. rewrite <- b64_encode_text. apply b64_decode_encode.
  - unfold zlen. rewrite app_length. cbn [List.length]. lia.
Qed.

(** ** C24 *)
Theorem C24_embed_lossless :
  forall b,
  let b' := buf_EmbeddedResource b in
  buf_URI b' = data_uri "application/octet-stream" (buf_Data b) /\
  buf_IsEmbeddedResource b' = true /\
  buf_marshalData b' = Ok (buf_Data b) /\
  buf_Data b' = buf_Data b /\ buf_ByteLength b' = buf_ByteLength b /\ buf_Name b' = buf_Name b /\
  buf_Extensions b' = buf_Extensions b /\ buf_Extras b' = buf_Extras b.
Proof.
  intros b. cbv zeta.
  assert (U : buf_URI (buf_EmbeddedResource b) = data_uri "application/octet-stream" (buf_Data b)).
  { unfold buf_EmbeddedResource. destruct b; cbn. rewrite b64_encode_text. reflexivity. }
  assert (I : buf_IsEmbeddedResource (buf_EmbeddedResource b) = true).
  { unfold buf_IsEmbeddedResource. rewrite U. reflexivity. }
  split; [exact U|]. split; [exact I|]. split.
  - unfold buf_marshalData. rewrite I, U. cbn [negb].
    destruct (decode_tail "application/octet-stream" (buf_Data b)) as [D L].
    change (zlen (str_bytes mimetypeApplicationOctet)) with (zlen (str_bytes ("data:" ++ "application/octet-stream" ++ ";base64"))).
    rewrite L. exact D.
  - destruct b; repeat split; reflexivity.
Qed.
Print Assumptions C24_embed_lossless.

(** Decoding any data URI never panics, whatever follows the prefix. *)
Lemma b64_loop_safe l : forall acc, (List.length acc <= 3)%nat -> b64_loop acc l <> Panic.
Proof.
  induction l as [|c l IH]; intros acc Ha; cbn [b64_loop].
  - destruct acc; discriminate.
  - destruct (dec6 c).
    + destruct (List.length acc =? 3)%nat eqn:E.
      * specialize (IH [] ltac:(cbn; lia)). destruct (b64_loop [] l); cbn [bind]; [discriminate..|contradiction].
      * apply IH. rewrite app_length. cbn. apply Nat.eqb_neq in E. lia.
    + destruct (is_nl c); [apply IH; exact Ha|]. destruct (negb _); [discriminate|].
      destruct (List.length acc) as [|[|[|[|]]]]; try discriminate.
      * destruct (skip_nl l); [discriminate|]. destruct (Ascii.eqb _ _); [|discriminate].
        destruct (skip_nl _); discriminate.
      * destruct (skip_nl l); discriminate.
Qed.

Lemma str_from_safe s n : 0 <= n -> zlen (str_bytes s) <? n = false -> str_from s n <> Panic.
Proof.
  intros H0 H. unfold str_from, slice_from.
  replace ((0 <=? n) && (n <=? zlen (str_bytes s))) with true by lia. discriminate.
Qed.

Theorem C24_no_panic : forall b, buf_marshalData b <> Panic.
Proof.
  intros b. unfold buf_marshalData. destruct (negb _); [discriminate|]. cbv zeta.
  destruct (zlen (str_bytes (buf_URI b)) <? _) eqn:E; [discriminate|].
  assert (N : 0 <= zlen (str_bytes mimetypeApplicationOctet) + 1) by (unfold zlen; lia).
  pose proof (str_from_safe _ _ N E) as S.
  destruct (str_from _ _); cbn [bind]; [|discriminate|contradiction].
  apply b64_loop_safe. cbn. lia.
Qed.
Print Assumptions C24_no_panic.

Example C24_example :
  buf_URI (buf_EmbeddedResource (set_buf_Data (map z2b [0; 255; 16; 7]) zero_Buffer)) =
  "data:application/octet-stream;base64,AP8QBw=="%string.
Proof. vm_compute. reflexivity. Qed.

(** ** C25 *)
Theorem C25_image_lossless :
  forall im mime data,
  mime = "image/png"%string \/ mime = "image/jpeg"%string ->
  img_URI im = data_uri mime data ->
  img_IsEmbeddedResource im = true /\ img_MarshalData im = Ok data.
Proof.
  intros im mime data M E. unfold img_MarshalData, img_IsEmbeddedResource. rewrite E.
  destruct (decode_tail mime data) as [D L]. destruct M as [-> | ->].
  - replace (String.prefix mimetypeImagePNG (data_uri "image/png" data)) with true by reflexivity.
    replace (String.prefix mimetypeImageJPG (data_uri "image/png" data)) with false by reflexivity.
    cbn [orb negb]. split; [reflexivity|].
    change (zlen (str_bytes mimetypeImagePNG)) with (zlen (str_bytes ("data:" ++ "image/png" ++ ";base64"))).
    cbv zeta. rewrite L. exact D.
  - replace (String.prefix mimetypeImageJPG (data_uri "image/jpeg" data)) with true by reflexivity.
    rewrite orb_true_r. cbn [negb]. split; [reflexivity|].
    change (zlen (str_bytes mimetypeImageJPG)) with (zlen (str_bytes ("data:" ++ "image/jpeg" ++ ";base64"))).
    cbv zeta. rewrite L. exact D.
Qed.
Print Assumptions C25_image_lossless.

(** Any URI that does not begin with one of the two prefixes gives no data. *)
Theorem C25_not_embedded :
  forall im,
  (forall t, img_URI im <> ("data:image/png;base64" ++ t)%string) ->
  (forall t, img_URI im <> ("data:image/jpeg;base64" ++ t)%string) ->
  img_IsEmbeddedResource im = false /\ img_MarshalData im = Ok [].
Proof.
  intros im H1 H2.
  assert (P : forall p s, String.prefix p s = true -> exists t, s = (p ++ t)%string).
  { induction p as [|a p IH]; intros s H; [exists s; reflexivity|]. destruct s as [|b s]; [discriminate|].
    cbn in H. destruct (ascii_dec a b) as [->|]; [|discriminate]. destruct (IH s H) as (t & ->). exists t. reflexivity. }
  assert (E : img_IsEmbeddedResource im = false).
  { unfold img_IsEmbeddedResource. destruct (String.prefix mimetypeImagePNG (img_URI im)) eqn:A.
    - destruct (P _ _ A) as (t & X). destruct (H1 t X).
    - destruct (String.prefix mimetypeImageJPG (img_URI im)) eqn:B; [|reflexivity].
      destruct (P _ _ B) as (t & X). destruct (H2 t X). }
  split; [exact E|]. unfold img_MarshalData. rewrite E. reflexivity.
Qed.
Print Assumptions C25_not_embedded.

Theorem C25_no_panic : forall im, img_MarshalData im <> Panic.
Proof.
  intros im. unfold img_MarshalData. destruct (negb _); [discriminate|]. cbv zeta.
  destruct (zlen (str_bytes (img_URI im)) <? _) eqn:E; [discriminate|].
  assert (N : 0 <= zlen (str_bytes (if String.prefix mimetypeImageJPG (img_URI im) then mimetypeImageJPG else mimetypeImagePNG)) + 1)
    by (unfold zlen; lia).
  pose proof (str_from_safe _ _ N E) as S.
  destruct (str_from _ _); cbn [bind]; [|discriminate|contradiction].
  apply b64_loop_safe. cbn. lia.
Qed.
Print Assumptions C25_no_panic.

Example C25_example :
  img_MarshalData (set_img_URI "data:image/jpeg;base64,AP8QBw==" zero_Image) = Ok (map z2b [0; 255; 16; 7]).
Proof. vm_compute. reflexivity. Qed.
Example C25_example_other :
  img_MarshalData (set_img_URI "textures/wood.png" zero_Image) = Ok [] /\
  img_MarshalData (set_img_URI "data:image/png;base64" zero_Image) = Err (ErrMsg "gltf: Invalid base64 content").
Proof. split; vm_compute; reflexivity. Qed.
