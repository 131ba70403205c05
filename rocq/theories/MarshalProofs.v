(** Lemmas behind the properties of the JSON mapping. *)
From Verif Require Import Base BaseFacts Types Doc F64 JsonText SpecText JsonTextProofs JsonStringProofs Base64 SpecData Base64Proofs
  Codec DocCodec SpecJson SpecJsonDoc CodecProofs CodecInv DocCodecBase DocCodecProofs DocInvBase DocCodecInv Marshal SpecMarshal ScanSound PropsUri.

(** ** Text *)
Lemma scan_container v t n rest : text_of v t -> container v -> wf_json n v -> Z.of_nat n <= max_depth ->
  scan start (t ++ rest) = Done v rest.
Proof.
  intros T C W D. destruct scan_text as [S _]. destruct (S v t T n [] rest W) as [S1 _].
  - unfold zlen. cbn [List.length]. lia.
  - exact (S1 C).
Qed.
Lemma json_decode_text {A} (c : codec A) old v t n rest y : text_of v t -> container v -> wf_json n v -> Z.of_nat n <= max_depth ->
  dec c old v = Ok y -> json_decode c old (t ++ rest) = Ok (y, rest).
Proof. intros T C W D E. unfold json_decode. rewrite (scan_container v t n rest T C W D), E. reflexivity. Qed.

Definition printed (prefix indent : bytes) (j : json) : bytes :=
  if negb (is_nil prefix) || negb (is_nil indent) then print_indent prefix indent j else print_compact j.
Lemma printed_text prefix indent j : ws prefix -> ws indent -> text_of j (printed prefix indent j).
Proof.
  intros Hp Hi. unfold printed. destruct (_ || _); [apply print_indent_text; assumption|apply print_compact_text].
Qed.

(** ** Unquoting a string literal succeeds *)
Lemma prep_some bs o : (exists s, o = Some s) -> exists s, prep bs o = Some s.
Proof. intros [s ->]. eexists. reflexivity. Qed.
Lemma unquote_total l : string_body l -> exists s, unquote l = Some s.
Proof.
  assert (G : forall n l, (List.length l <= n)%nat -> string_body l -> exists s, unquote l = Some s).
  { clear l. induction n as [|n IH]; intros l Hn H; [destruct l; [eexists; reflexivity|cbn in Hn; lia]|].
    destruct l as [|b l]; [eexists; reflexivity|]. cbn [List.length] in Hn.
    destruct (sb_inv b l H) as [(B1 & B2 & B3 & S)|[(-> & e & l' & -> & He & S)|(-> & h1 & h2 & h3 & h4 & l' & -> & H1 & H2 & H3 & H4 & S)]].
    - destruct (Z_lt_dec (b2z b) 128) as [L|L].
      { rewrite unquote_plain by lia. apply prep_some. apply IH; [lia|exact S]. }
      assert (Hb : high b) by (unfold high; lia).
      destruct (decode_rune b l) as [r rest] eqn:D. rewrite (unquote_high b l r rest Hb D). apply prep_some.
      destruct (decode_inv b l r rest Hb D) as [(_ & -> & _)|(p & -> & _ & U & Sr & _)]; [apply IH; [lia|exact S]|].
      destruct (decode_utf8 r b p [] Sr U) as (_ & _ & F).
      apply IH; [rewrite app_length in Hn; lia|].
      apply (sb_high_app p); [eapply Forall_impl; [|exact F]; apply cont_high|exact S].
    - destruct (esc_ascii e He) as (_ & _ & (c & X) & _). change (z2b 92) with bslash.
      rewrite (unquote_esc e c) by exact X. apply prep_some. apply IH; [cbn [List.length] in Hn; lia|exact S].
    - destruct (hex_unhex h1 h2 h3 h4 H1 H2 H3 H4) as (r & X). change (z2b 92) with bslash.
      rewrite (unquote_u_gen r _ _ (X l')). cbn [List.length] in Hn.
      assert (P : exists s, unquote l' = Some s) by (apply IH; [lia|exact S]).
      destruct (_ && _); [|apply prep_some; exact P].
      pose proof (getu4_html l' S) as Gu. destruct (getu4 l') as [[r1 l10]|]; [|apply prep_some; exact P].
      destruct Gu as (_ & S10 & L10). destruct (_ && _); apply prep_some; [|exact P]. apply IH; [lia|exact S10]. }
  apply (G (List.length l)). lia.
Qed.
Lemma key_total raw : string_body (str_bytes raw) -> exists k, key_of raw = Ok k.
Proof.
  intros H. unfold key_of, unquote_str. destruct (unquote_total _ H) as [s ->]. eexists. reflexivity.
Qed.

(** ** Map lookups *)
Lemma sorted_tail {A} (p : string * A) m : sorted_keys (p :: m) -> sorted_keys m.
Proof. intros H. inversion H; subst; [constructor|assumption]. Qed.
Lemma sorted_lt {A} (p : string * A) m : sorted_keys (p :: m) -> Forall (fun q => String.compare (fst p) (fst q) = Lt) m.
Proof.
  revert p. induction m as [|q m IH]; intros p H; [constructor|]. inversion H as [| |? ? ? L S]; subst.
  constructor; [exact L|]. eapply Forall_impl; [|exact (IH q S)]. intros r Hr. exact (compare_trans _ _ _ L Hr).
Qed.
Lemma map_set_iff {A} k (v : A) m : sorted_keys m -> forall k' v', In (k', v') (map_set k v m) <->
  (k' = k /\ v' = v) \/ (k' <> k /\ In (k', v') m).
Proof.
  intros S k' v'. induction m as [|[k1 v1] m IH].
  - cbn. split; [intros [[= <- <-]|[]]; left; split; reflexivity|]. intros [[-> ->]|[_ []]]. left. reflexivity.
  - pose proof (sorted_tail _ _ S) as S'. pose proof (sorted_lt _ _ S) as L. rewrite Forall_forall in L. cbn [fst] in L.
    specialize (IH S'). cbn [map_set]. destruct (String.compare k k1) eqn:E.
    + apply compare_eq in E. subst k1. split.
      * intros [[= <- <-]|H]; [left; split; reflexivity|]. right. split; [|right; exact H]. intros ->.
        specialize (L _ H). cbn [fst] in L. rewrite compare_refl in L. discriminate.
      * intros [[-> ->]|[N [[= <- <-]|H]]]; [left; reflexivity|contradiction|right; exact H].
    + split.
      * intros [[= <- <-]|H]; [left; split; reflexivity|]. right. split; [|exact H]. intros ->.
        destruct H as [[= -> _]|H]; [rewrite compare_refl in E; discriminate|].
        specialize (L _ H). cbn [fst] in L. pose proof (compare_trans _ _ _ E L) as X. rewrite compare_refl in X. discriminate.
      * intros [[-> ->]|[_ H]]; [left; reflexivity|right; exact H].
    + cbn [In]. rewrite IH. split.
      * intros [[= <- <-]|[H|[N H]]]; [right; split; [|left; reflexivity]|left; exact H|right; split; [exact N|right; exact H]].
        intros ->. rewrite compare_refl in E. discriminate.
      * intros [H|[N [H|H]]]; [right; left; exact H|left; exact H|right; right; split; assumption].
Qed.
(** The last assignment wins. *)
Definition last_of {A} (kvs : list (string * A)) (k : string) (v : A) : Prop :=
  exists l1 l2, kvs = l1 ++ (k, v) :: l2 /\ Forall (fun p => fst p <> k) l2.
Lemma map_sets_iff {A} (kvs : list (string * A)) : forall m, sorted_keys m -> forall k v,
  In (k, v) (map_sets m kvs) <-> last_of kvs k v \/ (Forall (fun p => fst p <> k) kvs /\ In (k, v) m).
Proof.
  unfold map_sets. induction kvs as [|[k1 v1] kvs IH]; intros m S k v; cbn [fold_left fst snd].
  - split; [intros H; right; split; [constructor|exact H]|]. intros [(l1 & l2 & E & _)|[_ H]]; [destruct l1; discriminate|exact H].
  - rewrite (IH _ (map_set_sorted k1 v1 m S)), (map_set_iff k1 v1 m S). split.
    + intros [(l1 & l2 & -> & F)|[F [[-> ->]|[N H]]]].
      * left. exists ((k1, v1) :: l1), l2. split; [reflexivity|exact F].
      * left. exists [], kvs. split; [reflexivity|exact F].
      * right. split; [constructor; [cbn; congruence|exact F]|exact H].
    + intros [(l1 & l2 & E & F)|[F H]].
      * destruct l1 as [|p l1]; cbn [app] in E.
        -- injection E as -> -> ->. right. split; [exact F|]. left. split; reflexivity.
        -- injection E as _ ->. left. exists l1, l2. split; [reflexivity|exact F].
      * pose proof (Forall_inv F) as N. cbn in N. right. split; [exact (Forall_inv_tail F)|]. right. split; [congruence|exact H].
Qed.

(** ** Extension objects *)
Lemma keys_last m raw : traverse (fun p => k <- key_of (fst p) ;; Ok (k, snd p)) m = Ok raw ->
  forall k (j : json), (last_of raw k j <-> last_member m k j) /\ (Forall (fun p => fst p <> k) raw <-> absent m k).
Proof.
  intros H. apply traverse_ok in H. intros k j.
  assert (K : Forall2 (fun a b => unquote_str (fst a) = Some (fst b) /\ snd a = snd b) m raw).
  { induction H as [|[r1 j1] [k2 j2] m raw E H IH]; constructor; [|exact IH]. cbn [fst snd] in *. apply bind_ok in E.
    destruct E as (k' & Ek & E). injection E as -> ->. unfold key_of in Ek. destruct (unquote_str r1) as [s|]; [|discriminate].
    injection Ek as ->. split; reflexivity. }
  clear H. assert (Ab : forall m raw, Forall2 (fun (a b : string * json) => unquote_str (fst a) = Some (fst b) /\ snd a = snd b) m raw ->
    (Forall (fun p => fst p <> k) raw <-> absent m k)).
  { clear. intros m raw K. unfold absent. induction K as [|a b m raw [E1 E2] K IH]; [split; constructor|].
    split; intros F; constructor; try (apply IH; exact (Forall_inv_tail F)); pose proof (Forall_inv F) as N; cbn beta in N |- *;
      rewrite E1 in *; congruence. }
  split; [|exact (Ab m raw K)]. split.
  - intros (l1 & l2 & -> & F). apply Forall2_app_inv_r in K. destruct K as (m1 & m2 & K1 & K2 & ->).
    inversion K2 as [|[r1 j1] b m3 raw3 [E1 E2] K3]; subst. cbn [fst snd] in *. subst j1.
    exists m1, r1, m3. split; [reflexivity|]. split; [exact E1|]. apply (Ab m3 l2 K3). exact F.
  - intros (m1 & r1 & m2 & -> & U & F). apply Forall2_app_inv_l in K. destruct K as (l1 & l2 & K1 & K2 & ->).
    inversion K2 as [|a [k1 j1] m3 raw3 [E1 E2] K3]; subst. cbn [fst snd] in *. subst j1. rewrite U in E1. injection E1 as <-.
    exists l1, raw3. split; [reflexivity|]. apply (Ab m2 raw3 K3). exact F.
Qed.
Lemma last_of_map {A B} (f : string -> A -> B) kvs k v :
  last_of (map (fun p => (fst p, f (fst p) (snd p))) kvs) k v <-> exists a, last_of kvs k a /\ v = f k a.
Proof.
  split.
  - intros (l1 & l2 & E & F). apply map_eq_app in E. destruct E as (m1 & m2 & -> & <- & E).
    destruct m2 as [|[k1 a] m2]; [discriminate|]. cbn [map fst snd] in E. injection E as E1 E2 E3. subst k1 v l2. exists a.
    split; [|reflexivity]. exists m1, m2. split; [reflexivity|]. rewrite Forall_map in F. exact F.
  - intros (a & (l1 & l2 & -> & F) & ->). rewrite map_app. cbn [map fst snd].
    exists (map (fun p => (fst p, f (fst p) (snd p))) l1), (map (fun p => (fst p, f (fst p) (snd p))) l2).
    split; [reflexivity|]. rewrite Forall_map. exact F.
Qed.
Lemma sorted_last {A} (m : list (string * A)) : sorted_keys m -> forall k v, last_of m k v <-> In (k, v) m.
Proof.
  intros S k v. split; [intros (l1 & l2 & -> & _); apply in_or_app; right; left; reflexivity|].
  intros H. apply in_split in H. destruct H as (l1 & l2 & ->). exists l1, l2. split; [reflexivity|].
  assert (S2 : sorted_keys ((k, v) :: l2)).
  { revert S. clear. induction l1 as [|p l1 IH]; cbn [app]; intros S; [exact S|]. exact (IH (sorted_tail _ _ S)). }
  eapply Forall_impl; [|exact (sorted_lt _ _ S2)]. cbn [fst]. intros q L E. rewrite E, compare_refl in L. discriminate.
Qed.

Lemma in_last {A} (kvs : list (string * A)) k : forall p, In p kvs -> fst p = k -> exists v, last_of kvs k v.
Proof.
  induction kvs as [|q kvs IH]; intros p Hp Ek; [destruct Hp|].
  destruct (Forall_Exists_dec (fun p => fst p <> k) (fun p => match string_dec (fst p) k with left e => right (fun f => f e) | right n => left n end) kvs) as [F|Ex].
  - destruct Hp as [->|Hp].
    + exists (snd p), [], kvs. destruct p. cbn [fst] in Ek. subst. split; [reflexivity|exact F].
    + rewrite Forall_forall in F. exfalso. exact (F p Hp Ek).
  - apply Exists_exists in Ex. destruct Ex as (p' & Hp' & Np). destruct (string_dec (fst p') k) as [E|E]; [|contradiction].
    destruct (IH p' Hp' E) as (j & l1 & l2 & -> & F). exists j, (q :: l1), l2. split; [reflexivity|exact F].
Qed.
Lemma dec_extv_total X k j : registry_total X -> dec_extv X k j = Ok (payload (registry X k) j).
Proof.
  intros RT. unfold dec_extv, payload. destruct (registry X k) as [f|] eqn:E; [|reflexivity].
  pose proof (RT k f j E). destruct (f j); [reflexivity|reflexivity|contradiction].
Qed.
Lemma dec_ext_spec X old m : registry_total X -> sorted_keys old ->
  Forall (fun p => string_body (str_bytes (fst p))) m ->
  exists y, dec_ext X old (JObj m) = Ok y /\ sorted_keys y /\
  forall k e, In (k, e) y <->
    (exists j, last_member m k j /\ e = payload (registry X k) j) \/ (absent m k /\ In (k, e) old).
Proof.
  intros RT So Hm. cbn [dec_ext].
  assert (T1 : exists raw, traverse (fun p => k <- key_of (fst p) ;; Ok (k, snd p)) m = Ok raw).
  { clear So. induction Hm as [|[r j] m Hr Hm IH]; [eexists; reflexivity|]. destruct IH as [raw E].
    cbn [traverse fst snd] in *. destruct (key_total r Hr) as [k ->]. cbn [bind]. rewrite E. eexists. reflexivity. }
  destruct T1 as [raw Er]. rewrite Er. cbn [bind].
  pose proof (keys_last m raw Er) as KL.
  set (sr := map_sets [] raw).
  assert (Ss : sorted_keys sr).
  { apply (map_sets_inv (fun _ => True) raw []); [constructor|constructor|apply Forall_forall; intros; exact I]. }
  assert (Ei : forall k j, In (k, j) sr <-> last_member m k j).
  { intros k j. unfold sr. rewrite (map_sets_iff raw [] (sk_nil)). rewrite (proj1 (KL k j)). split; [intros [H|[_ []]]; exact H|].
    intros H. left. exact H. }
  assert (T2 : traverse (fun p => v <- dec_extv X (fst p) (snd p) ;; Ok (fst p, v)) sr =
    Ok (map (fun p => (fst p, payload (registry X (fst p)) (snd p))) sr)).
  { clear - RT. induction sr as [|p l IH]; [reflexivity|]. cbn [traverse map]. rewrite dec_extv_total by exact RT. cbn [bind].
    rewrite IH. reflexivity. }
  rewrite T2. cbn [bind]. eexists. split; [reflexivity|]. split.
  { apply (map_sets_inv (fun _ => True)); [exact So|apply Forall_forall; intros; exact I|apply Forall_forall; intros; exact I]. }
  intros k e. rewrite (map_sets_iff _ _ So). rewrite (last_of_map (fun k a => payload (registry X k) a)).
  rewrite Forall_map. cbn [fst].
  assert (Ab : Forall (fun p => fst p <> k) sr <-> absent m k).
  { rewrite <- (proj2 (KL k JNull)). rewrite !Forall_forall. split.
    - intros H p Hp Ek. assert (N : exists j, last_of raw k j).
      { exact (in_last raw k p Hp Ek). }
      destruct N as [j N]. apply (proj1 (KL k j)) in N. apply Ei in N. exact (H _ N eq_refl).
    - intros H [k' j] Hp Ek. cbn [fst] in Ek. subst k'. apply Ei in Hp. apply (proj1 (KL k j)) in Hp. destruct Hp as (l1 & l2 & -> & _).
      apply (H (k, j)); [apply in_or_app; right; left; reflexivity|reflexivity]. }
  rewrite Ab. split; (intros [H|H]; [left|right; exact H]).
  - destruct H as (j & L & ->). exists j. split; [|reflexivity]. apply Ei. apply (sorted_last _ Ss). exact L.
  - destruct H as (j & L & ->). exists j. split; [|reflexivity]. apply (sorted_last _ Ss). apply Ei. exact L.
Qed.

(** ** Embedded buffers *)
Lemma custom_buffers_spec b : forall l k, Forall (fun o => o <> None) l ->
  custom_buffers b k l = Ok (map (fun p => option_map (embedded_buffer b (fst p)) (snd p)) (combine (seq k (List.length l)) l)).
Proof.
  induction l as [|o l IH]; intros k H; [reflexivity|]. cbn [custom_buffers List.length seq combine map fst snd].
  destruct o as [x|]; [|exfalso; apply (Forall_inv H); reflexivity].
  assert (E : custom_buffer b k (Some x) = Ok (Some (embedded_buffer b k x))).
  { cbn [custom_buffer]. unfold embedded_buffer, buf_IsEmbeddedResource, is_nil, str_empty.
    destruct x as [e1 e2 nm uri bl data]. cbn [buf_Data buf_URI buf_Extensions buf_Extras buf_Name buf_ByteLength].
    rewrite (andb_comm b). destruct uri as [|a u].
    - destruct data as [|c data]; destruct ((k =? 0)%nat && b); cbn; try reflexivity.
      unfold buf_EmbeddedResource, data_uri. rewrite b64_encode_text. reflexivity.
    - destruct data; rewrite ?andb_false_r; cbn; reflexivity. }
  rewrite E. cbn [bind]. rewrite (IH (S k) (Forall_inv_tail H)). reflexivity.
Qed.
Lemma base64_ascii data : forallb (fun b => b2z b <? 128) (base64_text data) = true.
Proof.
  unfold base64_text. rewrite forallb_app. apply andb_true_intro. split.
  - rewrite forallb_forall. intros c Hc. apply in_map_iff in Hc. destruct Hc as (g & <- & _). unfold sextet_char.
    assert (A : forallb (fun b => b2z b <? 128) alphabet = true) by reflexivity. rewrite forallb_forall in A.
    destruct (Nat.lt_ge_cases (bits_num g) (List.length alphabet)) as [L|L]; [apply A; apply nth_In; exact L|].
    rewrite nth_overflow by exact L. reflexivity.
  - rewrite forallb_forall. intros c Hc. apply repeat_spec in Hc. subst c. reflexivity.
Qed.
Lemma data_uri_utf8 data : utf8_str (data_uri "application/octet-stream" data).
Proof.
  apply ascii_utf8. rewrite data_uri_tail. rewrite forallb_app. apply andb_true_intro. split; [reflexivity|].
  cbn [forallb]. rewrite base64_ascii. reflexivity.
Qed.
Lemma embedded_buffer_wf X n a i b : wf_Buffer X n b -> wf_Buffer X n (embedded_buffer a i b).
Proof.
  intros W. unfold embedded_buffer. destruct (buf_Data b); [exact W|]. destruct (buf_URI b); [|exact W].
  destruct (a && (i =? 0)%nat); [exact W|]. unfold wf_Buffer in *. cbn [buf_Data buf_URI buf_Extensions buf_Extras buf_Name buf_ByteLength]. decompose [and] W. repeat (split; [assumption|]).
  split; [apply data_uri_utf8|assumption].
Qed.
Lemma embedded_wf X n a d : wf_Document X n d -> wf_Document X n (embedded a d).
Proof.
  intros W. unfold wf_Document in *. decompose [and] W. cbn [embedded doc_Extensions doc_Extras doc_ExtensionsUsed doc_ExtensionsRequired doc_Accessors doc_Animations doc_Asset doc_Buffers doc_BufferViews doc_Cameras doc_Images doc_Materials doc_Meshes doc_Nodes doc_Samplers doc_Scene doc_Scenes doc_Skins doc_Textures].
  repeat (split; [assumption|]). split; [|repeat (split; [assumption|]); assumption].
  unfold embedded_buffers. apply Forall_map. apply Forall_forall. intros [i o] Hin. apply in_combine_r in Hin. cbn [fst snd].
  match goal with H : Forall (opt (wf_Buffer X n)) _ |- _ => rewrite Forall_forall in H; specialize (H o Hin) end.
  destruct o as [b|]; [|exact I]. cbn [option_map opt]. apply embedded_buffer_wf. assumption.
Qed.
Lemma set_buffers_embedded a d : set_doc_Buffers (embedded_buffers a (doc_Buffers d)) d = embedded a d.
Proof. destruct d. reflexivity. Qed.

Lemma marshal_tree_spec F X n a d : float_contract F -> wf_Document X n d -> Forall (fun o => o <> None) (doc_Buffers d) ->
  exists m, marshal_tree F X a d = Ok (JObj m) /\ wf_json (n + 7) (JObj m) /\
    dec (c_Document F X) zero_Document (JObj m) = Ok (norm_Document X (embedded a d)).
Proof.
  intros HF W N. unfold marshal_tree. rewrite (custom_buffers_spec a _ 0 N). cbn [bind].
  fold (embedded_buffers a (doc_Buffers d)). rewrite set_buffers_embedded.
  destruct (rt_Document F X HF n zero_Document eq_refl (embedded a d) (embedded_wf X n a d W)) as (j & E & Wj & D).
  assert (O : exists m, j = JObj m).
  { cbn [c_Document c_struct enc] in E. unfold enc_struct in E. apply bind_ok in E. destruct E as (m & _ & E). injection E as <-. exists m. reflexivity. }
  destruct O as [m ->]. exists m. repeat split; assumption.
Qed.
