(** Encode and Decode, for every document a Go program can hold whose buffers
    and images have plain URIs. *)
From Coq Require Import FinFun.
From Verif Require Import Base BaseFacts Types Doc F64 Base64 Url UrlProofs SpecText SpecPath SpecData JsonText JsonTextProofs JsonStringProofs Codec SpecJson CodecProofs CodecInv
  DocCodec Marshal SpecMarshal MarshalProofs PropsUri Stream StreamProofs File SpecFile DecodeProofs EncodeProofs PlainProofs PropsFile PropsRoundTrip
  SpecGo SpecGoDoc EncodeExact DocExact ScanDepth IndentProofs SpecKeep SpecKeepDoc KeepProofs DocKeepProofs KeepTree SpecKeepFile.

(** ** Repaired strings *)
Lemma repaired_ascii p s t : Forall (fun b => b2z b < 128) p -> repaired (p ++ s) t -> exists t', t = p ++ t' /\ repaired s t'.
Proof.
  intros H. revert t. induction H as [|b p Hb _ IH]; intros t R; [exists t; split; [reflexivity|exact R]|].
  assert (Eb : utf8 (b2z b) = [b]). { unfold utf8. replace (b2z b <=? 127) with true by lia. rewrite z2b_b2z. reflexivity. }
  assert (Sb : scalar (b2z b)). { pose proof (b2z_range b). unfold scalar. lia. }
  destruct (unquote_quote (p ++ s)) as (u & Hu & _).
  assert (E : t = b :: u).
  { apply (repaired_fun _ _ R). change ((b :: p) ++ s) with ([b] ++ (p ++ s)). change (b :: u) with ([b] ++ u). rewrite <- Eb. apply rep_rune; assumption. }
  destruct (IH u Hu) as (t' & -> & Rt). exists t'. split; [exact E|exact Rt].
Qed.

Lemma repaired_prefix rep p s : repairs rep -> Forall (fun b => b2z b < 128) (str_bytes p) -> String.prefix p s = true -> String.prefix p (rep s) = true.
Proof.
  intros R A H.
  assert (G : forall q u, String.prefix q u = true <-> exists t, str_bytes u = str_bytes q ++ t).
  { induction q as [|c q IH]; intros u.
    - split; [intros _; exists (str_bytes u); reflexivity|]. intros _. destruct u; reflexivity.
    - destruct u as [|c' u]; cbn [String.prefix].
      + split; [discriminate|]. intros [t E]. discriminate.
      + destruct (ascii_dec c c') as [->|N].
        * rewrite IH. change (str_bytes (String c' u)) with (c' :: str_bytes u). change (str_bytes (String c' q)) with (c' :: str_bytes q). cbn [app]. split; intros [t E]; exists t; [rewrite E; reflexivity|injection E as E; exact E].
        * split; [discriminate|]. intros [t E]. injection E as E _. congruence. }
  apply G. apply G in H. destruct H as [t E]. pose proof (R s) as Rs. rewrite E in Rs.
  destruct (repaired_ascii _ _ _ A Rs) as (t' & E' & _). exists t'. exact E'.
Qed.

Section KeepFile.
Context (F : float_lib) (X : ext_lib) (U : url_lib) (rep : string -> string) (HF : float_contract F) (HT : registry_total X) (HR : repairs rep).

Definition sound (o : option Buffer) : Prop := match o with Some b => storable U b /\ utf8_str (buf_URI b) | None => False end.
Lemma sound_stored l : Forall sound l -> Forall (stored U) l.
Proof. intros H. eapply Forall_impl; [|exact H]. intros [b|] Hb; [exact (proj1 Hb)|destruct Hb]. Qed.

Definition kept_plain (b : Buffer) : Buffer :=
  mkBuffer (kept_ext X rep (buf_Extensions b)) (kept_any rep (buf_Extras b)) (rep (buf_Name b)) (buf_URI b) (buf_ByteLength b) [].
Definition cleaned_back (a : bool) (i : nat) (b : Buffer) : Buffer :=
  let e := embedded_buffer a i b in
  mkBuffer (kept_ext X rep (buf_Extensions b)) (kept_any rep (buf_Extras b)) (rep (buf_Name b))
    (if String.prefix octet_prefix (buf_URI e) then buf_URI e else clean_uri U (buf_URI e)) (buf_ByteLength b) (buf_Data b).
Definition cleaned_backs (a : bool) (l : list (option Buffer)) : list (option Buffer) :=
  map (fun p => option_map (cleaned_back a (fst p)) (snd p)) (combine (seq 0 (List.length l)) l).
Definition cleaned_doc (a : bool) (d : Document) : Document :=
  set_doc_Images (map (option_map (restored_image (clean_uri U))) (map (option_map (kept_Image X rep)) (doc_Images d)))
    (set_doc_Buffers (cleaned_backs a (doc_Buffers d)) (kept_Document X rep (embedded a d))).

Lemma kept_plain_eq l a : forall k, Forall sound l ->
  map (option_map (kept_Buffer X rep)) (map (fun p => option_map (embedded_buffer a (fst p)) (snd p)) (combine (seq k (List.length l)) l)) =
  map (option_map kept_plain) (map (fun p => option_map (embedded_buffer a (fst p)) (snd p)) (combine (seq k (List.length l)) l)).
Proof.
  induction l as [|o l IH]; intros k H; [reflexivity|]. cbn [List.length seq combine map fst snd]. rewrite (IH (S k) (Forall_inv_tail H)). f_equal.
  destruct o as [b|]; [|reflexivity]. cbn [option_map]. f_equal. unfold kept_Buffer, kept_plain. f_equal. apply (repairs_utf8 rep HR).
  destruct (Forall_inv H) as [_ Hu]. unfold embedded_buffer. destruct (buf_Data b); [exact Hu|]. destruct (buf_URI b) eqn:E; [|rewrite E; exact Hu].
  destruct (a && (k =? 0)%nat); [rewrite E; exact Hu|]. cbn [buf_URI]. apply data_uri_utf8.
Qed.

(** What the JSON says about the buffer. *)
Definition plainly (a : bool) (i : nat) (b : Buffer) : Buffer := kept_plain (embedded_buffer a i b).
Definition cleaned (a : bool) (i : nat) (b : Buffer) : Buffer :=
  if buf_IsEmbeddedResource (plainly a i b) then plainly a i b else set_buf_URI (clean_uri U (buf_URI (plainly a i b))) (plainly a i b).

Lemma restored_cleaned a i b : set_buf_Data (buf_Data b) (cleaned a i b) = cleaned_back a i b.
Proof.
  destruct (embedded_fields a i b) as (E1 & E2 & E3 & E4). unfold cleaned, cleaned_back, plainly, kept_plain, buf_IsEmbeddedResource. cbn [buf_URI].
  rewrite E1, E2, E3, E4. change mimetypeApplicationOctet with octet_prefix. destruct (String.prefix octet_prefix _); reflexivity.
Qed.

Lemma decodeBuffer_ok a i b rf : storable U b -> (a = true -> i = 0%nat -> buf_URI b <> ""%string) ->
  (forall n, accepted U (buf_URI b) n -> rf n = (buf_Data b, None)) ->
  decodeBuffer U (Some rf) (cleaned a i b) = (map fst (out_of U (Some b)), Ok (cleaned_back a i b)).
Proof.
  intros (BL & ND & S) NB RF. rewrite <- restored_cleaned. destruct (embedded_fields a i b) as (E1 & E2 & E3 & E4).
  pose proof (zlen_pos _ ND) as PL.
  unfold decodeBuffer, validateBuffer.
  assert (BC : buf_ByteLength (cleaned a i b) = buf_ByteLength b).
  { unfold cleaned. destruct (buf_IsEmbeddedResource (plainly a i b)); unfold plainly, kept_plain, set_buf_URI; cbn [buf_ByteLength]; exact E4. }
  rewrite BC, BL. replace (zlen (buf_Data b) =? 0) with false by lia. cbn [out_of]. unfold skipped.
  assert (G : buf_URI b = ""%string \/ buf_URI b = data_uri "application/octet-stream" (buf_Data b) ->
    buf_URI (embedded_buffer a i b) = data_uri "application/octet-stream" (buf_Data b)).
  { unfold embedded_buffer. intros [E|E]; rewrite E.
    - destruct (buf_Data b) eqn:Ed; [congruence|]. rewrite <- Ed. destruct (a && (i =? 0)%nat) eqn:A; [|reflexivity].
      apply andb_prop in A. destruct A as [A1 A2]. apply Nat.eqb_eq in A2. exfalso. exact (NB A1 A2 E).
    - destruct (buf_Data b) eqn:Ed; [congruence|]. rewrite <- Ed. destruct (data_uri "application/octet-stream" (buf_Data b)) eqn:Eu; [discriminate|]. rewrite E, <- Ed. exact Eu. }
  destruct S as [S|[S|(n & S)]].
  1,2: specialize (G (ltac:(tauto))).
  1,2: assert (Em : buf_IsEmbeddedResource (plainly a i b) = true) by (unfold plainly, kept_plain, buf_IsEmbeddedResource; cbn [buf_URI]; rewrite G; reflexivity).
  1,2: assert (Ec : cleaned a i b = plainly a i b) by (unfold cleaned; rewrite Em; reflexivity).
  1,2: rewrite Ec; destruct (data_uri_data (buf_Data b) (plainly a i b) ltac:(unfold plainly, kept_plain; cbn [buf_URI]; exact G)) as [D1 D2].
  1,2: replace (str_empty (buf_URI (plainly a i b))) with false by (unfold plainly, kept_plain; cbn [buf_URI]; rewrite G; reflexivity).
  1,2: rewrite D1, D2; cbn [bind].
  1: rewrite S; cbn [str_empty]; rewrite orb_true_r; reflexivity.
  1: unfold buf_IsEmbeddedResource; rewrite S; rewrite (orb_comm (is_nil _ || _)); reflexivity.
  specialize (RF n S). destruct S as (A1 & A2 & A3 & A4 & A5 & A6).
  assert (Ne : buf_URI b <> ""%string). { intros E. rewrite E in A3. injection A3 as <-. apply A4. reflexivity. }
  assert (Eu : buf_URI (plainly a i b) = buf_URI b).
  { unfold plainly, kept_plain. cbn [buf_URI]. unfold embedded_buffer. destruct (buf_Data b); [reflexivity|]. destruct (buf_URI b) eqn:E; [congruence|]. exact E. }
  assert (Em : buf_IsEmbeddedResource (plainly a i b) = false) by (unfold buf_IsEmbeddedResource; rewrite Eu; exact A1).
  assert (Ec : buf_URI (cleaned a i b) = bytes_str n). { unfold cleaned. rewrite Em, Eu. cbn [set_buf_URI buf_URI]. unfold clean_uri. rewrite A3. reflexivity. }
  assert (Em' : buf_IsEmbeddedResource (cleaned a i b) = false) by (unfold buf_IsEmbeddedResource; rewrite Ec; exact A5).
  rewrite Em', Ec, str_bytes_bytes, A6, RF.
  replace (str_empty (bytes_str n)) with false by (destruct n; [congruence|reflexivity]).
  replace (zlen (buf_Data b) <? zlen (buf_Data b)) with false by lia. cbn [bind].
  replace (is_nil (buf_Data b)) with false by (destruct (buf_Data b); [congruence|reflexivity]).
  replace (str_empty (buf_URI b)) with false by (destruct (buf_URI b); [congruence|reflexivity]).
  unfold buf_IsEmbeddedResource. change mimetypeApplicationOctet with octet_prefix. rewrite A1, A3. reflexivity.
Qed.

Lemma decodeBuffers_ok a rf : forall l k, Forall (stored U) l ->
  (a = true -> k = 0%nat -> match l with Some b :: _ => buf_URI b <> ""%string | _ => True end) ->
  (forall n b, In (Some b) l -> accepted U (buf_URI b) n -> rf n = (buf_Data b, None)) ->
  decodeBuffers U (Some rf) (map (fun p => option_map (cleaned a (fst p)) (snd p)) (combine (seq k (List.length l)) l)) =
  (map fst (outs U l), Ok (map (fun p => option_map (cleaned_back a (fst p)) (snd p)) (combine (seq k (List.length l)) l))).
Proof.
  induction l as [|o l IH]; intros k Hl NB RF; [reflexivity|]. pose proof (Forall_inv Hl) as Ho. pose proof (Forall_inv_tail Hl) as Hl'.
  destruct o as [b|]; [|destruct Ho]. cbn [List.length seq combine map fst snd option_map decodeBuffers outs flat_map].
  rewrite (decodeBuffer_ok a k b rf Ho).
  - rewrite (IH (S k) Hl'); [cbn [bind]; rewrite map_app; reflexivity|discriminate|]. intros n b' H. apply RF. right. exact H.
  - intros A1 A2. exact (NB A1 A2).
  - intros n. apply RF. left. reflexivity.
Qed.

Lemma mapM_clean a : forall l k, Forall (stored U) l ->
  mapM (clean_buffer U) (map (option_map (kept_plain)) (map (fun p => option_map (embedded_buffer a (fst p)) (snd p)) (combine (seq k (List.length l)) l))) =
  Ok (map (fun p => option_map (cleaned a (fst p)) (snd p)) (combine (seq k (List.length l)) l)).
Proof.
  induction l as [|o l IH]; intros k Hl; [reflexivity|]. pose proof (Forall_inv Hl) as Ho. pose proof (Forall_inv_tail Hl) as Hl'.
  destruct o as [b|]; [|destruct Ho]. cbn [List.length seq combine map fst snd option_map mapM]. unfold clean_buffer at 1. cbn [deref bind].
  rewrite (IH (S k) Hl'). cbn [bind]. reflexivity.
Qed.
(** Everything after the JSON. *)
Lemma finish_ok a d rf bc : Forall sound (doc_Buffers d) -> Forall (fun o => o <> None) (doc_Images d) ->
  (forall n b, In (Some b) (doc_Buffers d) -> accepted U (buf_URI b) n -> rf n = (buf_Data b, None)) ->
  (a = true -> match bin_buffer d with Some b => glb_chunk kind_bin (z2b 0) (buf_Data b) bc /\ zlen bc < 2 ^ 32 | None => True end) ->
  finish U (Some rf) a (kept_Document X rep (embedded a d)) bc = (map fst (outs U (doc_Buffers d)), Ok (cleaned_doc a d)).
Proof.
  intros SB0 SI RF HB. pose proof (sound_stored _ SB0) as SB. unfold finish.
  assert (EB0 : doc_Buffers (kept_Document X rep (embedded a d)) =
    map (option_map kept_plain) (map (fun p => option_map (embedded_buffer a (fst p)) (snd p)) (combine (seq 0 (List.length (doc_Buffers d))) (doc_Buffers d))))
    by exact (kept_plain_eq _ a 0 SB0). rewrite EB0. clear EB0.
  rewrite (mapM_clean a _ 0 SB).
  change (doc_Images (kept_Document X rep (embedded a d))) with (map (option_map (kept_Image X rep)) (doc_Images d)).
  rewrite mapM_clean_image by (apply Forall_map; eapply Forall_impl; [|exact SI]; intros [im|] H; [discriminate|congruence]).
  assert (L : load_bytes U (Some rf) a (map (fun p => option_map (cleaned a (fst p)) (snd p)) (combine (seq 0 (List.length (doc_Buffers d))) (doc_Buffers d))) bc =
    (map fst (outs U (doc_Buffers d)), Ok (cleaned_backs a (doc_Buffers d)))).
  { unfold cleaned_backs. destruct a.
    2:{ unfold load_bytes. rewrite (decodeBuffers_ok false rf _ 0 SB); [|discriminate|exact RF]. destruct (doc_Buffers d) as [|[b|] l]; reflexivity. }
    specialize (HB eq_refl). unfold bin_buffer in HB. destruct (doc_Buffers d) as [|o l] eqn:EB; [reflexivity|].
    pose proof (Forall_inv SB) as Ho. pose proof (Forall_inv_tail SB) as Hl. destruct o as [b|]; [|destruct Ho].
    destruct (str_empty (buf_URI b)) eqn:E.
    - apply str_empty_iff in E. cbn [List.length seq combine map fst snd option_map load_bytes]. destruct HB as [HB HB2].
      assert (Ep : plainly true 0 b = kept_plain b). { unfold plainly, embedded_buffer. rewrite E. destruct (buf_Data b); reflexivity. }
      assert (Ec : cleaned true 0 b = kept_plain b).
      { unfold cleaned. rewrite Ep. unfold buf_IsEmbeddedResource, kept_plain. cbn [buf_URI]. rewrite E. reflexivity. }
      assert (Eu : buf_URI (cleaned true 0 b) = ""%string) by (rewrite Ec; exact E).
      rewrite Eu. cbn [str_empty andb]. rewrite (bin_result_chunk (cleaned true 0 b) (buf_Data b) bc HB); [|rewrite Ec; exact (proj1 Ho)|exact (proj1 (proj2 Ho))|exact HB2].
      rewrite (decodeBuffers_ok true rf l 1 Hl); [|discriminate|intros n b' H; apply RF; right; exact H].
      cbn [bind outs flat_map out_of]. unfold skipped. rewrite E. cbn [str_empty]. rewrite orb_true_r. cbn [orb app]. rewrite restored_cleaned. reflexivity.
    - assert (N : buf_URI b <> ""%string) by (intros Q; rewrite Q in E; discriminate).
      rewrite <- (decodeBuffers_ok true rf (Some b :: l) 0 SB); [|intros _ _; exact N|exact RF].
      cbn [List.length seq combine map fst snd option_map load_bytes].
      assert (Eu : str_empty (buf_URI (cleaned true 0 b)) = false).
      { destruct (str_empty (buf_URI (cleaned true 0 b))) eqn:Z; [|reflexivity]. exfalso.
        apply str_empty_iff in Z. destruct Ho as (_ & ND & S).
        assert (Q : buf_URI (plainly true 0 b) = buf_URI b). { unfold plainly, kept_plain. cbn [buf_URI]. unfold embedded_buffer. destruct (buf_Data b); [congruence|]. destruct (buf_URI b) eqn:Q; [congruence|]. exact Q. }
        unfold cleaned, buf_IsEmbeddedResource in Z. rewrite Q in Z. destruct S as [S|[S|(n & S)]]; [congruence| |].
        - assert (P : String.prefix mimetypeApplicationOctet (buf_URI b) = true) by (rewrite S; reflexivity). rewrite P, Q in Z. congruence.
        - pose proof (accepted_embedded U _ _ S) as P. rewrite P in Z. cbn [set_buf_URI buf_URI] in Z. unfold clean_uri in Z. destruct S as (_ & _ & S & S' & _). rewrite S in Z.
          destruct n; [congruence|discriminate]. }
      rewrite Eu. reflexivity. }
  rewrite L. reflexivity.
Qed.


(** ** The whole round trip *)
Lemma plain_utf8 p : plain_name p -> utf8_str (bytes_str p).
Proof.
  intros [H _]. apply ascii_utf8. rewrite str_bytes_bytes. apply forallb_forall. intros c I. rewrite Forall_forall in H. destruct (H c I) as [R _]. lia.
Qed.
Lemma plain_sound l : Forall plain_buffer l -> Forall sound l.
Proof.
  intros H. pose proof (plain_stored U l H) as S. rewrite Forall_forall in *. intros o I. specialize (H o I). specialize (S o I).
  destruct o as [b|]; [|destruct H]. split; [exact S|]. destruct H as (_ & _ & [->|[->|(p & P & ->)]]); [apply ascii_utf8; reflexivity|apply data_uri_utf8|exact (plain_utf8 p P)].
Qed.
Lemma plain_back a d : Forall plain_buffer (doc_Buffers d) -> cleaned_doc a d = back_images (clean_uri U) X rep a d.
Proof.
  intros HB. unfold cleaned_doc, back_images, back, set_doc_Images, set_doc_Buffers, kept_Document, embedded. cbn.
  assert (E1 : cleaned_backs a (doc_Buffers d) = back_buffers X rep a (doc_Buffers d)).
  { unfold cleaned_backs, back_buffers. apply map_ext_in. intros [i o] I. apply in_combine_r in I. cbn [fst snd]. rewrite Forall_forall in HB. specialize (HB o I).
    destruct o as [b|]; [|reflexivity]. cbn [option_map]. f_equal. unfold cleaned_back, back_buffer. destruct (String.prefix octet_prefix (buf_URI (embedded_buffer a i b))) eqn:P; [reflexivity|].
    f_equal. destruct HB as (_ & N & S). unfold embedded_buffer in *. destruct (buf_Data b); [congruence|]. destruct (buf_URI b) as [|c u] eqn:Eu.
    - destruct (a && (i =? 0)%nat); [rewrite Eu; reflexivity|discriminate].
    - rewrite Eu in *. destruct S as [S|[S|S]]; [discriminate| |exact (plain_clean U _ S)]. rewrite S in P. discriminate. }
  rewrite E1. reflexivity.
Qed.
(** An image whose URI is still the same after cleaning. *)
Definition still_image (o : option Image) : Prop :=
  match o with Some im => restored_image (clean_uri U) (kept_Image X rep im) = kept_Image X rep im | None => False end.
Lemma still_back a d : Forall still_image (doc_Images d) -> back_images (clean_uri U) X rep a d = back X rep a d.
Proof.
  intros H. unfold back_images, back, set_doc_Images, kept_Document. cbn.
  assert (E : map (option_map (restored_image (clean_uri U))) (map (option_map (kept_Image X rep)) (doc_Images d)) = map (option_map (kept_Image X rep)) (doc_Images d)).
  { rewrite map_map. apply map_ext_in. intros o I. rewrite Forall_forall in H. specialize (H o I). destruct o as [im|]; [|destruct H]. cbn [option_map]. f_equal. exact H. }
  rewrite E. reflexivity.
Qed.
Lemma plain_still o : plain_image o -> still_image o.
Proof.
  intros HI. destruct o as [im|]; [|destruct HI]. cbn [still_image]. unfold restored_image, kept_Image. cbn.
    destruct HI as [HI|[(p & P & HI)|[HI|HI]]].
    - rewrite HI, (repairs_utf8 rep HR "") by (apply ascii_utf8; reflexivity). reflexivity.
    - rewrite HI, (repairs_utf8 rep HR _ (plain_utf8 p P)). rewrite (plain_clean U (bytes_str p)) by (exists p; split; [exact P|reflexivity]). destruct (_ || _); reflexivity.
    - rewrite (repaired_prefix rep _ _ HR) by (try exact HI; repeat (constructor; [vm_compute; reflexivity|]); constructor). reflexivity.
    - rewrite (repaired_prefix rep "data:image/jpeg;base64" _ HR) by (try exact HI; repeat (constructor; [vm_compute; reflexivity|]); constructor). rewrite orb_true_r. reflexivity.
Qed.

Definition outcome (files : list (bytes * bytes)) (a : bool) (d : Document) (j : json) : list bytes * res Document :=
  if 10000 <? Z.of_nat (nesting j) then ([], Err (ErrMsg "invalid character"))
  else if typed d then (map fst files, Ok (back_images (clean_uri U) X rep a d))
  else ([], Err (ErrMsg "gltf: unknown accessor's type")).
Lemma after_json_kept rf a d m bc : go_Document X d -> Forall plain_buffer (doc_Buffers d) -> Forall (fun o => o <> None) (doc_Images d) ->
  marshal_tree F X a d = Ok (JObj m) ->
  (forall name data, In (name, data) (buffer_files (doc_Buffers d)) -> rf name = (data, None)) ->
  (a = true -> match bin_buffer d with Some b => glb_chunk kind_bin (z2b 0) (buf_Data b) bc /\ zlen bc < 2 ^ 32 | None => True end) ->
  after_json F X U (Some rf) zero_Document a (JObj m) bc = outcome (buffer_files (doc_Buffers d)) a d (JObj m).
Proof.
  intros G HB HI M RF BC. unfold after_json, outcome. change max_depth with 10000. rewrite Z.leb_antisym. destruct (10000 <? _); cbn [negb bind]; [reflexivity|].
  rewrite (tree_kept F X rep a d (JObj m) HF HT HR G M). destruct (typed d); [|reflexivity].
  pose proof (plain_sound _ HB) as SB. pose proof (sound_stored _ SB) as ST.
  rewrite (finish_ok a d rf bc SB HI); [rewrite (plain_outs U _ HB), (plain_back a d HB); reflexivity| |exact BC].
  intros k b Hb A. apply RF. rewrite <- (plain_outs U _ HB). unfold outs. apply in_flat_map. exists (Some b). split; [exact Hb|]. cbn [out_of].
  rewrite Forall_forall in ST. destruct (ST _ Hb) as (_ & Nd & _). destruct A as (A1 & A2 & A3 & A4 & _).
  unfold skipped, buf_IsEmbeddedResource. change mimetypeApplicationOctet with octet_prefix. rewrite A1, A3.
  replace (is_nil (buf_Data b)) with false by (destruct (buf_Data b); [congruence|reflexivity]).
  replace (str_empty (buf_URI b)) with false; [left; reflexivity|]. destruct (buf_URI b); [|reflexivity]. exfalso. injection A3 as <-. apply A4. reflexivity.
Qed.

Lemma files_kept asBinary prefix indent d w fs :
  go_Document X d -> savable_Document X d -> Forall plain_buffer (doc_Buffers d) -> Forall (fun o => o <> None) (doc_Images d) ->
  ws prefix -> ws indent -> no_failures w fs ->
  (forall text, marshalJSONDoc F X asBinary prefix indent d = Ok text -> asBinary = true -> glb_size text d < 2 ^ 32) ->
  exists m w' fs', let text := printed prefix indent (JObj m) in
    marshal_tree F X asBinary d = Ok (JObj m) /\
    Encode F X U asBinary prefix indent d w (Some fs) = (Ok tt, w', Some fs') /\
    cf_files fs' = rev (buffer_files (doc_Buffers d)) ++ cf_files fs /\
    cf_created fs' = rev (map fst (buffer_files (doc_Buffers d))) ++ cf_created fs /\
    (asBinary = false -> wr_out w' = text) /\
    (asBinary = true -> glb_file text (option_map buf_Data (glb_buffer d)) (wr_out w')) /\
    forall rf r, (forall name data, In (name, data) (buffer_files (doc_Buffers d)) -> rf name = (data, None)) ->
      reads_to_eof r -> stream r = wr_out w' -> asBinary = false \/ r_aligned r ->
      Decode F X U (Some rf) zero_Document (NewReader r) = outcome (buffer_files (doc_Buffers d)) asBinary d (JObj m).
Proof.
  intros G SV HB HI Hp Hi (NF & W0 & FO) SZ. pose proof (plain_sound _ HB) as SB0. pose proof (sound_stored _ SB0) as SB.
  pose proof (marshal_tree_exact F X HF asBinary d G) as E.
  destruct (marshal_tree F X asBinary d) as [j|e|] eqn:Mt.
  2:{ exfalso. tauto. }
  2:{ exfalso. rewrite Forall_forall in HB. exact (HB None E). }
  destruct E as (L & C & (m & ->) & _). exists m.
  set (text := printed prefix indent (JObj m)).
  assert (M : marshalJSONDoc F X asBinary prefix indent d = Ok text) by (unfold marshalJSONDoc; rewrite Mt; reflexivity).
  specialize (SZ text M). rewrite <- (plain_outs U _ HB), <- bin_glb.
  destruct asBinary.
  - specialize (SZ eq_refl). unfold glb_size in SZ. rewrite <- bin_glb in SZ.
    destruct (encodeBinary_out F X prefix indent d text w M NF) as (out & w' & E1 & E2 & E3 & E4).
    { intros b Hb. unfold bin_buffer in Hb. destruct (doc_Buffers d) as [|[c|] l]; try discriminate. destruct (str_empty (buf_URI c)); [|discriminate]. injection Hb as <-.
      exact (proj1 (Forall_inv SB)). }
    { exact SZ. }
    rewrite W0 in E3. cbn [app] in E3.
    assert (EF : exists fs', encodeBuffers U (if match bin_buffer d with Some _ => true | None => false end then tl (doc_Buffers d) else doc_Buffers d) (Some fs) = (Ok tt, Some fs') /\
      cf_files fs' = rev (outs U (doc_Buffers d)) ++ cf_files fs /\ cf_created fs' = rev (map fst (outs U (doc_Buffers d))) ++ cf_created fs).
    { destruct (bin_buffer d) as [b|] eqn:EB.
      - rewrite <- (outs_tl U d b EB). destruct (encodeBuffers_ok U (tl (doc_Buffers d)) fs FO) as (fs' & F1 & F2 & F3 & F4); [destruct (doc_Buffers d); [exact SB|exact (Forall_inv_tail SB)]|].
        exists fs'. split; [exact F1|]. split; assumption.
      - destruct (encodeBuffers_ok U (doc_Buffers d) fs FO SB) as (fs' & F1 & F2 & F3 & F4). exists fs'. split; [exact F1|]. split; assumption. }
    destruct EF as (fs' & F1 & F3 & F4). exists w', fs'. cbv zeta. split; [reflexivity|]. unfold Encode. rewrite E1, F1. split; [reflexivity|]. split; [exact F3|]. split; [exact F4|].
    split; [discriminate|]. rewrite E3. split; [intros _; exact E4|].
    intros rf r RF RE ST [AL|AL]; [discriminate|].
    destruct (glb_header _ _ _ E4) as (h & k & bc & H1 & H2 & H3 & H4 & H5 & H6 & H7 & H8 & H9 & _).
    pose proof (zlen_nonneg text) as NT. rewrite <- ST in H1, H6, H7, H8.
    destruct (whole_printed prefix indent (JObj m) (repeat (z2b 32) k) L I Hp Hi) as [WH LO]. fold text in WH, LO. rewrite <- H6 in WH, LO.
    rewrite (Decode_glb F X U (Some rf) zero_Document r h RE H1 H2 ltac:(lia)).
    + rewrite WH, H7. rewrite (plain_outs U _ HB) in *. change (after_json F X U (Some rf) zero_Document true (JObj m) bc = outcome (buffer_files (doc_Buffers d)) true d (JObj m)).
      apply after_json_kept; [exact G|exact HB|exact HI|exact Mt|exact RF|]. intros _. destruct (bin_buffer d) as [b|]; [|exact I].
      split; [exact H9|]. rewrite <- H7. unfold after_chunk. destruct E4 as (_ & _ & _ & _ & _ & LL). rewrite ST.
      unfold zlen in *. rewrite !skipn_length. lia.
    + left. unfold chunk_done. destruct LO as [LO|LO]; [right|left; exact LO]. rewrite LO, repeat_zlen. split; [exact AL|]. split; [exact H5|]. split; [lia|]. exact H8.
  - destruct (w_write_ok text w NF) as (w' & E1 & E2 & E3). rewrite W0 in E3. cbn [app] in E3.
    destruct (encodeBuffers_ok U (doc_Buffers d) fs FO SB) as (fs' & F1 & F2 & F3 & F4). exists w', fs'. cbv zeta. split; [reflexivity|]. unfold Encode. rewrite M, E1, F1.
    split; [reflexivity|]. split; [exact F3|]. split; [exact F4|]. split; [intros _; exact E3|]. split; [discriminate|].
    intros rf r RF RE ST _. rewrite (decode_text_any F X U (Some rf) zero_Document prefix indent m r L Hp Hi RE (eq_trans ST E3)). rewrite (plain_outs U _ HB) in *.
    apply after_json_kept; [exact G|exact HB|exact HI|exact Mt|exact RF|discriminate].
Qed.
End KeepFile.
