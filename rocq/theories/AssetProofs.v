(** Assets whatever made them: names, chunks and buffers. *)
From Verif Require Import Base BaseFacts Types Doc F64 Base64 Base64Proofs Url UrlProofs PlainProofs GoUrl GoUrlProofs SpecText SpecPath SpecData SpecUrl JsonText JsonTextProofs
  Codec DocCodec Marshal SpecMarshal MarshalProofs PropsUri Stream StreamProofs File SpecFile DecodeProofs EncodeProofs SpecAsset.

(** ** Relative references *)
Lemma hex_value_unhex c x : hex_value c x -> unhex c = Some (Z.of_nat x).
Proof.
  intros [H|H]; do 16 (destruct x as [|x]; [injection H as <-; reflexivity|]); destruct x; discriminate H.
Qed.
Definition uri_char (c : byte) : Prop := 32 <= b2z c /\ b2z c <> 127 /\ ~ In c (z2b 92 :: str_bytes "?#/").
Lemma hex_value_char c x : hex_value c x -> uri_char c.
Proof.
  intros [H|H]; apply nth_error_In in H; cbn in H; repeat (destruct H as [<-|H]; [split; [vm_compute; discriminate|split; [vm_compute; discriminate|cbn; intuition discriminate]]|]); destruct H.
Qed.
Lemma spells_chars u n : spells u n -> Forall uri_char u.
Proof.
  induction 1 as [|c u n H S IH|h g x y u n H1 H2 S IH]; [constructor| |].
  - constructor; [|exact IH]. destruct H as (H1 & H2 & H3). split; [exact H1|]. split; [exact H2|]. intros I. apply H3. cbn in *. tauto.
  - constructor; [split; [vm_compute; discriminate|split; [vm_compute; discriminate|cbn; intuition discriminate]]|].
    constructor; [exact (hex_value_char h x H1)|]. constructor; [exact (hex_value_char g y H2)|exact IH].
Qed.
Lemma spells_unescape u n l : spells u n -> unescape (u ++ l) = (r <- unescape l ;; Ok (n ++ r)).
Proof.
  induction 1 as [|c u n H S IH|h g x y u n H1 H2 S IH]; cbn [app unescape].
  - destruct (unescape l); reflexivity.
  - replace (Ascii.eqb c "%"%char) with false.
    2:{ symmetry. apply Ascii.eqb_neq. intros ->. destruct H as (_ & _ & H). apply H. cbn. tauto. }
    rewrite IH. destruct (unescape l); reflexivity.
  - change (Ascii.eqb "%"%char "%"%char) with true. cbv iota. rewrite (hex_value_unhex h x H1), (hex_value_unhex g y H2), IH. destruct (unescape l); reflexivity.
Qed.
Lemma spells_empty u n : spells u n -> n <> [] -> u <> [].
Proof. intros [] N; [contradiction|discriminate..]. Qed.
Lemma spells_dot u n : spells u n -> n <> str_bytes "." -> u <> [dot].
Proof. intros S N ->. apply N. inversion S as [|c u' n' _ S'|]; subst. inversion S'; subst. reflexivity. Qed.

Definition seg (p : bytes * bytes) : Prop := spells (fst p) (snd p) /\ file_element (snd p).
Lemma joined_cons e l : l <> [] -> joined (e :: l) = e ++ slash :: joined l.
Proof. destruct l; [contradiction|reflexivity]. Qed.
Lemma segs_unescape segs : segs <> [] -> Forall seg segs -> unescape (joined (map fst segs)) = Ok (joined (map snd segs)).
Proof.
  intros N H. induction H as [|[u n] l [S _] H IH]; [contradiction|]. destruct l as [|q l].
  - cbn. cbn [fst snd] in S. rewrite <- (app_nil_r u) at 1. rewrite (spells_unescape u n [] S). cbn. rewrite app_nil_r. reflexivity.
  - change (map fst ((u, n) :: q :: l)) with (u :: map fst (q :: l)). change (map snd ((u, n) :: q :: l)) with (n :: map snd (q :: l)).
    rewrite !joined_cons by discriminate. rewrite (spells_unescape u n _ S). cbn [unescape]. change (Ascii.eqb slash "%"%char) with false. cbv iota.
    rewrite IH by discriminate. reflexivity.
Qed.
Lemma segs_split segs : segs <> [] -> Forall seg segs -> split slash (joined (map fst segs)) = map fst segs.
Proof.
  intros N H. apply split_join; [destruct segs; [contradiction|discriminate]|]. apply Forall_map. eapply Forall_impl; [|exact H].
  intros [u n] [S _] I. apply spells_chars in S. rewrite Forall_forall in S. destruct (S _ I) as (_ & _ & Q). apply Q. cbn. tauto.
Qed.
Lemma joined_in c l : In c (joined l) -> c = slash \/ exists e, In e l /\ In c e.
Proof.
  induction l as [|e l IH]; [intros []|]. destruct l as [|q l]; [intros I; right; exists e; split; [left; reflexivity|exact I]|].
  rewrite joined_cons by discriminate. intros I. apply in_app_or in I. destruct I as [I|[<-|I]]; [right; exists e; split; [left; reflexivity|exact I]|left; reflexivity|].
  destruct (IH I) as [->|(x & X1 & X2)]; [left; reflexivity|right; exists x; split; [right; exact X1|exact X2]].
Qed.
Lemma segs_not segs c : Forall seg segs -> In c (z2b 92 :: str_bytes "?#") -> ~ In c (joined (map fst segs)).
Proof.
  intros H Hc I. apply joined_in in I. destruct I as [->|(e & I1 & I2)]; [cbn in Hc; intuition discriminate|].
  apply in_map_iff in I1. destruct I1 as ([u n] & <- & I1). rewrite Forall_forall in H. destruct (H _ I1) as [S _]. apply spells_chars in S. rewrite Forall_forall in S.
  destruct (S c I2) as (_ & _ & Q). apply Q. cbn in *. tauto.
Qed.
Lemma segs_no_dot segs : Forall seg segs -> ~ In [dot] (map fst segs).
Proof.
  intros H I. apply in_map_iff in I. destruct I as ([u n] & E & I). rewrite Forall_forall in H. destruct (H _ I) as [S (_ & N & _)]. exact (spells_dot u n S N E).
Qed.
Lemma no_scheme u rest : ~ In colon u -> rest = [] \/ (exists t, rest = slash :: t) -> forall i, get_scheme_from i (u ++ rest) = Ok None.
Proof.
  intros N R. induction u as [|c u IH]; intros i; cbn [app get_scheme_from].
  - destruct R as [->|(t & ->)]; reflexivity.
  - rewrite IH by (intros I; apply N; right; exact I). cbn [bind]. destruct (is_alpha c); [reflexivity|]. destruct (is_scheme_rest c); [destruct i; reflexivity|].
    replace (Ascii.eqb c colon) with false; [reflexivity|]. symmetry. apply Ascii.eqb_neq. intros ->. apply N. left. reflexivity.
Qed.

Section Relative.
Context (U : url_lib) (u n : bytes) (segs : list (bytes * bytes)) (Hs : Forall seg ((u, n) :: segs)) (Hc : ~ In colon u).
Let all := (u, n) :: segs.
Let p := joined (map fst all).
Let name := joined (map snd all).
Lemma all_some : all <> [].
Proof. discriminate. Qed.
Lemma rel_front : exists rest, p = u ++ rest /\ (rest = [] \/ exists t, rest = slash :: t).
Proof.
  unfold p, all. cbn [map fst]. destruct (map fst segs) as [|a l]; [exists []; cbn; rewrite app_nil_r; split; [reflexivity|left; reflexivity]|].
  rewrite joined_cons by discriminate. eexists. split; [reflexivity|]. right. eexists. reflexivity.
Qed.
Lemma rel_no_slash t : p <> slash :: t.
Proof.
  destruct rel_front as (rest & -> & _). apply Forall_inv in Hs. destruct Hs as [S (N & _)]. cbn [fst snd] in *.
  pose proof (spells_empty u n S N) as NE. apply spells_chars in S. destruct u as [|c u']; [contradiction|]. intros [= -> _].
  apply Forall_inv in S. destruct S as (_ & _ & Q). apply Q. cbn. tauto.
Qed.
Lemma rel_parse : url_parse U p = Ok [].
Proof.
  unfold url_parse. rewrite cut_none by (apply segs_not; [exact Hs|cbn; tauto]). cbn [bind]. unfold parse_nofrag.
  replace (has_ctl p) with false.
  2:{ symmetry. unfold has_ctl. apply not_true_is_false. rewrite existsb_exists. intros (x & I & E). apply joined_in in I. destruct I as [->|(e & I1 & I2)]; [discriminate E|].
      apply in_map_iff in I1. destruct I1 as ([u' n'] & <- & I1). rewrite Forall_forall in Hs. destruct (Hs _ I1) as [S _]. apply spells_chars in S. rewrite Forall_forall in S.
      destruct (S x I2) as (Q1 & Q2 & _). lia. }
  destruct (has_prefix ["*"%char] p && (List.length p =? 1)%nat); [reflexivity|].
  destruct rel_front as (rest & E & R). unfold get_scheme. rewrite E at 1. rewrite (no_scheme u rest Hc R). cbn [bind].
  rewrite cut_none by (apply segs_not; [exact Hs|cbn; tauto]). cbn [fst].
  assert (P1 : has_prefix [slash] p = false).
  { destruct (has_prefix [slash] p) eqn:Q; [|reflexivity]. apply has_prefix_app in Q. destruct Q as [t Q]. exfalso. exact (rel_no_slash t Q). }
  assert (P2 : has_prefix [slash; slash] p = false).
  { destruct (has_prefix [slash; slash] p) eqn:Q; [|reflexivity]. apply has_prefix_app in Q. destruct Q as [t Q]. exfalso. exact (rel_no_slash (slash :: t) Q). }
  rewrite P1, P2. cbn [negb andb List.length Nat.eqb].
  replace (contains colon (fst (cut slash p))) with false.
  2:{ symmetry. apply not_true_is_false. intros Q. apply contains_in in Q. rewrite E in Q.
      assert (Ns : ~ In slash u). { apply Forall_inv in Hs. destruct Hs as [S _]. apply spells_chars in S. rewrite Forall_forall in S. intros I. destruct (S _ I) as (_ & _ & J). apply J. cbn. tauto. }
      rewrite cut_skip in Q.
      - destruct R as [->|(t & ->)]; cbn in Q; rewrite app_nil_r in Q; exact (Hc Q).
      - apply forallb_forall. intros x I. apply negb_true_iff, Ascii.eqb_neq. intros ->. exact (Ns I). }
  rewrite andb_false_r. unfold p. rewrite (segs_unescape all all_some Hs). reflexivity.
Qed.
Lemma rel_clean uri : uri = p \/ uri = str_bytes "./" ++ p -> trim_prefix [dot; slash] (drop_dots (fix_backslash uri)) = p.
Proof.
  intros E.
  assert (NB : ~ In backslash p) by (apply segs_not; [exact Hs|left; reflexivity]).
  assert (SP : split slash p = map fst all) by (exact (segs_split all all_some Hs)).
  assert (TP : trim_prefix [dot; slash] p = p).
  { unfold trim_prefix. destruct (has_prefix [dot; slash] p) eqn:Q; [|reflexivity]. apply has_prefix_app in Q. destruct Q as [t Q].
    exfalso. apply (segs_no_dot all Hs). rewrite <- SP, Q. left. reflexivity. }
  assert (DP : drop_dots p = p).
  { apply drop_dots_id. intros a b Q. apply (segs_no_dot all Hs). rewrite <- SP, Q, split_gen. apply in_or_app. right. left. reflexivity. }
  destruct E as [->| ->].
  - rewrite fix_backslash_plain, DP by exact NB. exact TP.
  - rewrite fix_backslash_plain by (intros I; apply in_app_or in I; destruct I as [I|I]; [cbn in I; intuition discriminate|exact (NB I)]).
    rewrite drop_dots_id; [reflexivity|]. intros a b Q. apply (f_equal (split slash)) in Q. rewrite split_gen in Q.
    change (split slash (str_bytes "./" ++ p)) with ([dot] :: split slash p) in Q. rewrite SP in Q.
    pose proof (split_nonnil slash a) as NA. destruct (split slash a) as [|x s]; [contradiction|]. injection Q as _ Q.
    apply (segs_no_dot all Hs). change (map fst all) with (u :: map fst segs). rewrite Q. apply in_or_app. right. left. reflexivity.
Qed.
Lemma rel_local : local_path name.
Proof.
  assert (FE : Forall file_element (map snd all)). { apply Forall_map. eapply Forall_impl; [|exact Hs]. intros q [_ Q]. exact Q. }
  assert (FN : n <> [] /\ ~ In slash n). { apply Forall_inv in FE. destruct FE as (F1 & _ & _ & F4). split; [exact F1|exact F4]. }
  assert (Q : exists rest, name = n ++ rest).
  { unfold name, all. cbn [map snd]. destruct (map snd segs) as [|a l]; [exists []; cbn; rewrite app_nil_r; reflexivity|]. rewrite joined_cons by discriminate. eexists. reflexivity. }
  destruct Q as [rest Q]. destruct FN as [N1 N2]. split; [rewrite Q; destruct n; [contradiction|discriminate]|]. split.
  { intros q E. rewrite Q in E. destruct n as [|c m]; [contradiction|]. injection E as -> _. apply N2. left. reflexivity. }
  exists (map snd all). split; [eapply Forall_impl; [|exact FE]; intros e (_ & _ & _ & E); exact E|]. split; [reflexivity|]. apply walk_no_dots.
  eapply Forall_impl; [|exact FE]. intros e (_ & _ & E & _). unfold no_dotdot. destruct (is_dotdot e) eqn:D; [|reflexivity]. apply is_dotdot_eq in D. contradiction.
Qed.
End Relative.

Lemma relative_facts U uri name : relative uri name -> sanitizeURI U uri = Some name /\ local_path name /\ validateBufferURI U name = Ok tt /\
  (forall t, uri <> str_bytes "data:" ++ t).
Proof.
  intros (u & n & segs & S & FE & NC & FS & E & ->).
  assert (Hs : Forall seg ((u, n) :: segs)) by (constructor; [split; assumption|exact FS]).
  change (u :: map fst segs) with (map fst ((u, n) :: segs)) in E. change (n :: map snd segs) with (map snd ((u, n) :: segs)).
  assert (NN : (u, n) :: segs <> []) by discriminate.
  split; [|split; [exact (rel_local u n segs Hs)|split; [apply validate_local; exact (rel_local u n segs Hs)|]]].
  - unfold sanitizeURI. rewrite (rel_clean u n segs Hs uri E), (rel_parse U u n segs Hs NC), (segs_unescape _ NN Hs). reflexivity.
  - intros t ->. destruct E as [E|E]; [|discriminate E]. destruct (rel_front u n segs) as (rest & F & R). rewrite F in E. clear F.
    do 5 (destruct u as [|? u]; [destruct R as [->|(r & ->)]; discriminate E|]; cbn [str_bytes list_ascii_of_string app] in E; injection E as <- E).
    apply NC. cbn. tauto.
Qed.
Lemma data_prefix a s : String.prefix ("data:" ++ a) s = true -> exists t, str_bytes s = str_bytes "data:" ++ t.
Proof.
  intros H. do 5 (destruct s as [|? s]; [discriminate H|]; cbn [append String.prefix] in H; match type of H with context [ascii_dec ?x ?y] => destruct (ascii_dec x y) as [<-|]; [|discriminate H] end).
  exists (str_bytes s). reflexivity.
Qed.

(** ** Chunks *)
Lemma glb_parts json k bin more out : (k < 4)%nat -> (zlen json + Z.of_nat k) mod 4 = 0 -> zlen out < 2 ^ 32 ->
  let bc := match bin with Some chunk => word (zlen chunk) ++ kind_bin ++ chunk ++ more | None => more end in
  out = str_bytes "glTF" ++ word 2 ++ word (zlen out) ++ word (zlen json + Z.of_nat k) ++ kind_json ++ json ++ repeat (z2b 32) k ++ bc ->
  exists h, header_of out = Some h /\ validateGLBHeader h = Ok tt /\
    ch_Length (gh_JSONHeader h) = zlen json + Z.of_nat k /\
    json_chunk h out = json ++ repeat (z2b 32) k /\ after_chunk h out = bc /\
    ch_Length (gh_JSONHeader h) <= zlen (skipn 20 out).
Proof.
  cbv zeta. generalize (match bin with Some chunk => word (zlen chunk) ++ kind_bin ++ chunk ++ more | None => more end). intros bc Hk Hm Lo Eo.
  pose proof (zlen_nonneg json) as Nj. pose proof (zlen_nonneg bc) as Nb.
  set (L := zlen out) in *.
  assert (EL : L = 20 + (zlen json + Z.of_nat k) + zlen bc).
  { unfold L. rewrite Eo, !zlen_app, !word_zlen, kindj_zlen, repeat_zlen. change (zlen (str_bytes "glTF")) with 4. lia. }
  set (N := zlen json + Z.of_nat k) in *.
  assert (E2 : out = List.concat (map word [glbHeaderMagic; 2; L; N; glbChunkJSON]) ++ (json ++ repeat (z2b 32) k) ++ bc).
  { rewrite Eo, magic_word, kind_json_word. cbn [map List.concat]. rewrite <- !app_assoc. reflexivity. }
  assert (H20 : firstn 20 out = List.concat (map word [glbHeaderMagic; 2; L; N; glbChunkJSON])).
  { rewrite E2, firstn_app. change (List.length (List.concat (map word [glbHeaderMagic; 2; L; N; glbChunkJSON]))) with 20%nat.
    rewrite Nat.sub_diag, firstn_O, app_nil_r. reflexivity. }
  assert (S20 : skipn 20 out = (json ++ repeat (z2b 32) k) ++ bc).
  { rewrite E2, skipn_app. change (List.length (List.concat (map word [glbHeaderMagic; 2; L; N; glbChunkJSON]))) with 20%nat. reflexivity. }
  exists (mkGlbHeader glbHeaderMagic 2 L (mkChunkHeader N glbChunkJSON)). cbn [gh_JSONHeader ch_Length gh_Version gh_Length].
  assert (P32 : 2 ^ 32 = 4294967296) by reflexivity.
  assert (G : get_glbHeader (firstn 20 out) = mkGlbHeader glbHeaderMagic 2 L (mkChunkHeader N glbChunkJSON)).
  { rewrite H20. unfold get_glbHeader. rewrite <- (app_nil_r (List.concat _)).
    rewrite (field4_words _ 0 [] glbHeaderMagic), (field4_words _ 1 [] 2), (field4_words _ 2 [] L), (field4_words _ 3 [] N), (field4_words _ 4 [] glbChunkJSON);
      try reflexivity; unfold glbChunkJSON, glbHeaderMagic; rewrite P32 in *; lia. }
  split. { unfold header_of. fold L. replace (L <? 20) with false by lia. rewrite G. reflexivity. }
  split. { unfold validateGLBHeader. cbn [gh_JSONHeader ch_Length ch_Type gh_Length]. change (glbChunkJSON =? glbChunkJSON) with true. cbn [negb orb].
    unfold u32, header_size. rewrite Z.mod_small by lia. replace (L <? N + 20) with false by lia. reflexivity. }
  split; [reflexivity|].
  assert (LN : List.length (json ++ repeat (z2b 32) k) = Z.to_nat N). { unfold N, zlen. rewrite app_length, repeat_length. lia. }
  unfold json_chunk, after_chunk. cbn [gh_JSONHeader ch_Length]. rewrite S20, firstn_app, skipn_app, LN, Nat.sub_diag, firstn_O, app_nil_r, firstn_all2, skipn_all2 by lia.
  split; [reflexivity|]. split; [reflexivity|]. rewrite zlen_app. unfold zlen at 1. rewrite LN. lia.
Qed.
Lemma bin_front b data rest more : buf_ByteLength b = zlen data -> data <> [] -> zlen (data ++ rest) < 2 ^ 32 ->
  bin_result b (word (zlen (data ++ rest)) ++ kind_bin ++ (data ++ rest) ++ more) = Ok (set_buf_Data data b).
Proof.
  intros BL N L. pose proof (zlen_pos data N) as Pd. assert (P32 : 2 ^ 32 = 4294967296) by reflexivity. pose proof (zlen_nonneg rest) as Nr. pose proof (zlen_nonneg more) as Nm.
  rewrite zlen_app in L. rewrite <- app_assoc, zlen_app. set (n := zlen data + zlen rest) in *.
  unfold bin_result, validateBuffer. rewrite BL. replace (zlen data =? 0) with false by lia. cbn [bind].
  set (all := word n ++ kind_bin ++ data ++ rest ++ more).
  assert (F8 : firstn 8 all = List.concat (map word [n; glbChunkBIN])).
  { unfold all. rewrite kind_bin_word. reflexivity. }
  assert (S8 : skipn 8 all = data ++ rest ++ more). { unfold all. rewrite kind_bin_word. reflexivity. }
  assert (LA : zlen all = 8 + n + zlen more). { unfold all, n. rewrite !zlen_app, word_zlen, kindb_zlen. lia. }
  unfold taken at 1. rewrite zlen_nil, LA. replace (8 <=? 0 + (8 + n + zlen more)) with true by lia. cbn [app bind]. change (Z.to_nat (8 - 0)) with 8%nat. rewrite F8.
  unfold get_chunkHeader. rewrite <- (app_nil_r (List.concat _)). rewrite (field4_words _ 0 [] n), (field4_words _ 1 [] glbChunkBIN);
    try reflexivity; try (unfold glbChunkBIN; lia). cbn [ch_Type ch_Length]. change (glbChunkBIN =? glbChunkBIN) with true. cbn [negb orb].
  unfold u32. rewrite Z.mod_small by lia. replace (n <? zlen data) with false by lia.
  unfold make_ok. change (2 ^ 48) with 281474976710656. replace ((0 <=? zlen data) && (zlen data <=? 281474976710656)) with true by lia. cbn [negb].
  rewrite S8. unfold taken. rewrite zlen_nil, !zlen_app. replace (zlen data <=? 0 + (zlen data + (zlen rest + zlen more))) with true by lia. cbn [bind app].
  f_equal. f_equal. rewrite Z.sub_0_r. unfold zlen. rewrite Nat2Z.id, firstn_app, firstn_all, Nat.sub_diag, firstn_O, app_nil_r. reflexivity.
Qed.

(** ** Buffers *)
Definition filled (b : Buffer) (uri : string) (data : bytes) : Buffer := mkBuffer (buf_Extensions b) (buf_Extras b) (buf_Name b) uri (buf_ByteLength b) data.
Section Buffers.
Context (rf : bytes -> bytes * option error).
Lemma clean_relative u name : relative (str_bytes u) name -> clean_uri go_url u = bytes_str name.
Proof. intros R. unfold clean_uri. rewrite (proj1 (relative_facts go_url _ _ R)). reflexivity. Qed.
Lemma clean_absolute u : absolute_uri (str_bytes u) -> no_dot_segment (str_bytes u) -> clean_uri go_url u = u.
Proof. intros A D. unfold clean_uri. rewrite (sanitize_kept _ A D). apply bytes_str_bytes. Qed.
Lemma first_of (data rest : bytes) : (if zlen data <? zlen (data ++ rest) then if zlen data <? 0 then Panic else Ok (firstn (Z.to_nat (zlen data)) (data ++ rest)) else Ok (data ++ rest)) = Ok data.
Proof.
  rewrite zlen_app. pose proof (zlen_nonneg data). pose proof (zlen_nonneg rest). destruct (zlen data <? zlen data + zlen rest) eqn:E.
  - replace (zlen data <? 0) with false by lia. unfold zlen. rewrite Nat2Z.id, firstn_app, firstn_all, Nat.sub_diag, firstn_O, app_nil_r. reflexivity.
  - rewrite (zlen_0 rest) by lia. rewrite app_nil_r. reflexivity.
Qed.
(** A buffer that is not in the BIN chunk: cleaned, then loaded. *)
Lemma resource_load bin i b names uri data : resource rf bin i b names uri data -> zlen data = buf_ByteLength b -> 1 <= buf_ByteLength b ->
  exists b1, clean_buffer go_url (Some b) = Ok (Some b1) /\
    (buf_URI b = ""%string /\ b1 = b /\ names = [] /\ uri = ""%string /\ i = 0%nat /\ (exists rest, bin = Some (data ++ rest)) \/
     buf_URI b1 <> ""%string /\ decodeBuffer go_url (Some rf) b1 = (names, Ok (filled b uri data))).
Proof.
  intros R L P. destruct R as [b data rest U B|i b data U|i b name data rest RL NP F|i b data rest A ND NP F].
  - exists b. split.
    + cbn [clean_buffer deref bind]. unfold buf_IsEmbeddedResource. rewrite U. cbn. destruct b; cbn in *; subst. reflexivity.
    + left. repeat (split; [first [assumption|reflexivity]|]). exists rest. exact B.
  - pose proof (C24_embed_lossless (filled b (buf_URI b) data)) as Q. cbv zeta in Q. destruct Q as (Q1 & Q2 & Q3 & _). cbn [filled buf_Data] in Q1, Q3.
    assert (EB : buf_IsEmbeddedResource b = true). { unfold buf_IsEmbeddedResource in *. rewrite U, <- Q1. exact Q2. }
    assert (MB : buf_marshalData b = Ok data). { unfold buf_marshalData in *. rewrite Q2, Q1 in Q3. rewrite EB, U. exact Q3. }
    exists b. split; [cbn [clean_buffer deref bind]; rewrite EB; reflexivity|]. right. split; [rewrite U; discriminate|].
    unfold decodeBuffer, validateBuffer. replace (buf_ByteLength b =? 0) with false by lia. replace (str_empty (buf_URI b)) with false by (rewrite U; reflexivity).
    rewrite EB, MB. cbn [bind]. unfold filled. destruct b; reflexivity.
  - destruct (relative_facts go_url _ _ RL) as (S & LO & V & ND).
    assert (EB : buf_IsEmbeddedResource b = false).
    { unfold buf_IsEmbeddedResource. destruct (String.prefix _ (buf_URI b)) eqn:Q; [|reflexivity]. destruct (data_prefix _ _ Q) as [t T]. destruct (ND t T). }
    exists (set_buf_URI (bytes_str name) b). split; [cbn [clean_buffer deref bind]; rewrite EB, (clean_relative _ _ RL); reflexivity|]. right.
    assert (NE : bytes_str name <> ""%string). { destruct LO as (LO & _). destruct name; [contradiction|discriminate]. }
    split; [exact NE|]. unfold decodeBuffer, validateBuffer. cbn [buf_ByteLength buf_URI set_buf_URI]. replace (buf_ByteLength b =? 0) with false by lia.
    replace (str_empty (bytes_str name)) with false by (destruct (bytes_str name); [contradiction|reflexivity]).
    unfold buf_IsEmbeddedResource. cbn [buf_URI set_buf_URI]. unfold octet_prefix in NP. change mimetypeApplicationOctet with "data:application/octet-stream;base64"%string. rewrite NP.
    rewrite str_bytes_bytes, V, F, <- L, first_of. reflexivity.
  - assert (EB : buf_IsEmbeddedResource b = false) by exact NP.
    exists b. split; [cbn [clean_buffer deref bind]; rewrite EB, (clean_absolute _ A ND); destruct b; reflexivity|]. right.
    assert (NE : buf_URI b <> ""%string). { intros E. rewrite E in A. destruct A as (s & h & q & f & A & _). destruct s; discriminate A. }
    split; [exact NE|]. unfold decodeBuffer, validateBuffer. replace (buf_ByteLength b =? 0) with false by lia.
    replace (str_empty (buf_URI b)) with false by (destruct (buf_URI b); [contradiction|reflexivity]). rewrite EB.
    assert (V : validateBufferURI go_url (str_bytes (buf_URI b)) = Ok tt).
    { destruct (Parse_kept _ A) as (u & Pu & Nu & _). unfold validateBufferURI. rewrite url_parse_go, Pu. cbn [bind]. destruct (u_Scheme u); [contradiction|reflexivity]. }
    rewrite V, F, <- L, first_of. cbn [bind]. unfold filled. destruct b; reflexivity.
Qed.
Lemma resources_load bin l : forall i names l', resources rf bin (S i) l names l' -> Forall (fun o => match o with Some b => 1 <= buf_ByteLength b | None => False end) l ->
  exists bs, mapM (clean_buffer go_url) l = Ok bs /\ decodeBuffers go_url (Some rf) bs = (names, Ok l').
Proof.
  induction l as [|o l IH]; intros i names l' R P; inversion R as [|? b ? nm uri data ns r RS L RL]; subst.
  - exists []. split; reflexivity.
  - destruct (IH _ _ _ RL (Forall_inv_tail P)) as (bs & M & D). apply Forall_inv in P.
    destruct (resource_load _ _ _ _ _ _ RS L P) as (b1 & C & [(_ & _ & _ & _ & E & _)|(N & DB)]); [discriminate E|].
    exists (Some b1 :: bs). cbn [mapM]. rewrite C. cbn [bind]. rewrite M. cbn [bind]. split; [reflexivity|]. cbn [decodeBuffers]. rewrite DB, D. reflexivity.
Qed.
Definition bin_bytes (bin : option bytes) (more : bytes) : bytes := match bin with Some chunk => word (zlen chunk) ++ kind_bin ++ chunk ++ more | None => more end.
Lemma resources_all bin more l names l' : resources rf bin 0 l names l' -> Forall (fun o => match o with Some b => 1 <= buf_ByteLength b | None => False end) l ->
  (forall chunk, bin = Some chunk -> zlen chunk < 2 ^ 32) ->
  exists bs, mapM (clean_buffer go_url) l = Ok bs /\ load_bytes go_url (Some rf) true bs (bin_bytes bin more) = (names, Ok l') /\
    (bin = None -> decodeBuffers go_url (Some rf) bs = (names, Ok l') /\ match bs with Some b :: _ => buf_URI b <> ""%string | _ => True end).
Proof.
  intros R P LC. destruct l as [|o l]; inversion R as [|? b ? nm uri data ns r RS L RL]; subst.
  - exists []. split; [reflexivity|]. split; [reflexivity|]. intros _. split; [reflexivity|exact I].
  - destruct (resources_load bin l 0 _ _ RL (Forall_inv_tail P)) as (bs & M & D). apply Forall_inv in P.
    destruct (resource_load _ _ _ _ _ _ RS L P) as (b1 & C & K). exists (Some b1 :: bs). cbn [mapM]. rewrite C. cbn [bind]. rewrite M. cbn [bind]. split; [reflexivity|].
    destruct K as [(U & -> & -> & -> & _ & rest & B)|(N & DB)].
    + split; [|intros E; congruence]. unfold load_bytes. rewrite U. cbn [str_empty andb]. change (str_empty "") with true. cbv iota. unfold bin_bytes. rewrite B.
      rewrite bin_front; [|symmetry; exact L|intros ->; rewrite zlen_nil in L; lia|apply LC; exact B]. rewrite D. cbn [bind app]. destruct b; cbn in *; subst; reflexivity.
    + assert (DD : decodeBuffers go_url (Some rf) (Some b1 :: bs) = (nm ++ ns, Ok (Some (filled b uri data) :: r))) by (cbn [decodeBuffers]; rewrite DB, D; reflexivity).
      split; [|intros _; split; [exact DD|exact N]]. unfold load_bytes. replace (str_empty (buf_URI b1)) with false by (destruct (buf_URI b1); [contradiction|reflexivity]).
      cbn [andb]. exact DD.
Qed.
Lemma images_clean l : Forall (fun o => o <> None) l -> exists ims, mapM (clean_image go_url) l = Ok ims /\ Forall2 addressed l ims.
Proof.
  induction l as [|[x|] l IH]; intros P; [exists []; split; [reflexivity|constructor]| |destruct (Forall_inv P eq_refl)].
  destruct (IH (Forall_inv_tail P)) as (ims & M & A). cbn [mapM clean_image deref bind]. rewrite M. cbn [bind]. eexists. split; [reflexivity|]. constructor; [|exact A].
  exists x. destruct (img_IsEmbeddedResource x) eqn:EB.
  - exists (img_URI x). split; [reflexivity|]. split; [destruct x; reflexivity|]. intros w Hw. inversion Hw as [E1 E2|? _ E|? name R E1 E2|? _ _ E]; subst; try reflexivity.
    exfalso. destruct (relative_facts go_url _ _ R) as (_ & _ & _ & ND). unfold img_IsEmbeddedResource in EB. apply orb_prop in EB. destruct EB as [Q|Q]; destruct (data_prefix _ _ Q) as [t T]; exact (ND t T).
  - exists (clean_uri go_url (img_URI x)). split; [reflexivity|]. split; [destruct x; reflexivity|].
    intros w Hw. inversion Hw as [E1 E2|? Q E|? name R E1 E2|? Q1 Q2 E]; subst.
    + reflexivity.
    + exfalso. unfold img_IsEmbeddedResource in EB. apply orb_false_elim in EB. destruct EB as [E1 E2].
      change mimetypeImagePNG with "data:image/png;base64"%string in *. change mimetypeImageJPG with "data:image/jpeg;base64"%string in *. destruct Q; congruence.
    + exact (clean_relative _ _ R).
    + exact (clean_absolute _ Q1 Q2).
Qed.
End Buffers.

(** Text begins with white space or a brace. *)
Lemma text_front w t : ws w -> header_of (w ++ "{"%char :: t) = None.
Proof.
  intros W. destruct w as [|c w]; [apply brace_text|]. apply Forall_inv in W.
  unfold header_of. cbn [app]. destruct (zlen (c :: w ++ "{"%char :: t) <? 20); [reflexivity|]. replace (gh_Magic _ =? glbHeaderMagic) with false; [reflexivity|].
  symmetry. apply Z.eqb_neq. unfold get_glbHeader, field4. cbn [gh_Magic]. change (4 * 0)%nat with 0%nat. set (l := w ++ "{"%char :: t).
  change (firstn 4 (skipn 0 (firstn 20 (c :: l)))) with (c :: firstn 3 (firstn 19 l)). unfold le_val. fold le_val.
  unfold glbHeaderMagic. generalize (le_val (firstn 3 (firstn 19 l))). intros z.
  assert (B : b2z c = 32 \/ b2z c = 9 \/ b2z c = 10 \/ b2z c = 13).
  { cbn in W. destruct W as [<-|[<-|[<-|[<-|[]]]]]; [left|right; left|right; right; left|right; right; right]; reflexivity. }
  lia.
Qed.
