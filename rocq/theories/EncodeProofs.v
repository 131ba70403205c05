(** Encoder.Encode: the bytes and files it produces, and reading them back. *)
From Verif Require Import Base BaseFacts Base64Proofs Types Doc F64 Base64 Url UrlProofs SpecText SpecPath SpecData JsonText JsonTextProofs Codec SpecJson CodecProofs
  DocCodec SpecJsonDoc DocCodecProofs Marshal SpecMarshal MarshalProofs PropsUri Stream StreamProofs File SpecFile DecodeProofs.

(** ** Writers *)
Definition no_faults (w : writer) : Prop := Forall (fun o => o = None) (wr_script w).
Lemma w_write_ok p w : no_faults w -> exists w', w_write p w = (None, w') /\ no_faults w' /\ wr_out w' = wr_out w ++ p.
Proof.
  unfold no_faults, w_write. destruct w as [out [|o s]]; cbn [wr_script wr_out]; intros H; [eexists; split; [reflexivity|split; [constructor|reflexivity]]|].
  rewrite (Forall_inv H). eexists. split; [reflexivity|]. split; [exact (Forall_inv_tail H)|reflexivity].
Qed.
Lemma w_write_out p w e w' : w_write p w = (e, w') -> e = None -> wr_out w' = wr_out w ++ p.
Proof. unfold w_write. destruct (wr_script w) as [|[[n x]|] s]; intros [= <- <-] H; try discriminate; reflexivity. Qed.

(** ** Words and headers *)
Lemma u32_small n : 0 <= n < 4294967296 -> u32 n = n.
Proof. intros H. apply Z.mod_small. exact H. Qed.
Lemma le4_word n : le_bytes 4 n = word n.
Proof.
  cbn [le_bytes]. unfold word. rewrite !Z.div_div by lia. reflexivity.
Qed.
Lemma word_length n : List.length (word n) = 4%nat.
Proof. reflexivity. Qed.
Lemma word_val n : 0 <= n < 2 ^ 32 -> le_val (word n) = n.
Proof. intros H. rewrite <- le4_word, le_val_le_bytes. change (256 ^ Z.of_nat 4) with (2 ^ 32). apply Z.mod_small. exact H. Qed.
Lemma kind_json_word : kind_json = word glbChunkJSON.
Proof. vm_compute. reflexivity. Qed.
Lemma kind_bin_word : kind_bin = word glbChunkBIN.
Proof. vm_compute. reflexivity. Qed.
Lemma magic_word : str_bytes "glTF" = word glbHeaderMagic.
Proof. vm_compute. reflexivity. Qed.

Lemma field4_words ws i t n : nth_error ws i = Some n -> 0 <= n < 2 ^ 32 -> field4 i (List.concat (map word ws) ++ t) = n.
Proof.
  intros H R. unfold field4. revert i H. induction ws as [|a ws IH]; intros [|i] H; try discriminate.
  - injection H as ->. cbn [map List.concat]. rewrite <- app_assoc. replace (skipn (4 * 0) (word n ++ List.concat (map word ws) ++ t)) with (word n ++ List.concat (map word ws) ++ t) by reflexivity.
    rewrite firstn_app, word_length, Nat.sub_diag, firstn_O, app_nil_r. change (firstn 4 (word n)) with (word n). apply word_val. exact R.
  - cbn [map List.concat]. rewrite <- app_assoc. rewrite skipn_app, word_length, (skipn_all2 (word a)) by (rewrite word_length; lia). cbn [app].
    replace (4 * S i - 4)%nat with (4 * i)%nat by lia. exact (IH i H).
Qed.

Lemma pad4_up n : 0 <= n < 2 ^ 32 -> pad4 n = up4 n.
Proof.
  intros H. unfold pad4, up4. assert (P : 2 ^ 32 = 4294967296) by reflexivity. rewrite P in H.
  rewrite (i64_id (n + 3)) by (unfold in_i64; change (2 ^ 63) with 9223372036854775808; lia).
  rewrite Z.quot_div_nonneg by lia. apply i64_id. unfold in_i64. change (2 ^ 63) with 9223372036854775808. lia.
Qed.
Lemma up4_bounds n : n <= up4 n < n + 4 /\ up4 n mod 4 = 0.
Proof. unfold up4. lia. Qed.

(** ** A GLB file, seen by the decoder *)
Lemma repeat_zlen {A} (a : A) k : zlen (repeat a k) = Z.of_nat k.
Proof. unfold zlen. rewrite repeat_length. reflexivity. Qed.
Lemma word_zlen n : zlen (word n) = 4.
Proof. reflexivity. Qed.
Lemma kindj_zlen : zlen kind_json = 4.
Proof. reflexivity. Qed.
Lemma kindb_zlen : zlen kind_bin = 4.
Proof. reflexivity. Qed.

Lemma glb_header json bin out : glb_file json bin out ->
  exists h k bc, header_of out = Some h /\ validateGLBHeader h = Ok tt /\
    (k < 4)%nat /\ ch_Length (gh_JSONHeader h) = zlen json + Z.of_nat k /\ ch_Length (gh_JSONHeader h) mod 4 = 0 /\
    json_chunk h out = json ++ repeat (z2b 32) k /\ after_chunk h out = bc /\
    ch_Length (gh_JSONHeader h) <= zlen (skipn 20 out) /\
    match bin with Some data => glb_chunk kind_bin (z2b 0) data bc | None => bc = [] end /\ gh_Version h = 2 /\ gh_Length h = zlen out.
Proof.
  intros (jc & bc & (k & Hk & Hm & Ej) & Hb & Eo & Lo).
  pose proof (zlen_nonneg json) as Nj. pose proof (zlen_nonneg bc) as Nb.
  set (L := zlen out) in *.
  assert (EL : L = 20 + (zlen json + Z.of_nat k) + zlen bc).
  { unfold L. rewrite Eo, Ej, !zlen_app, !word_zlen, kindj_zlen, repeat_zlen. change (zlen (str_bytes "glTF")) with 4. lia. }
  set (N := zlen json + Z.of_nat k) in *.
  assert (E2 : out = List.concat (map word [glbHeaderMagic; 2; L; N; glbChunkJSON]) ++ (json ++ repeat (z2b 32) k) ++ bc).
  { rewrite Eo, Ej, magic_word, kind_json_word. cbn [map List.concat]. rewrite <- !app_assoc. reflexivity. }
  assert (H20 : firstn 20 out = List.concat (map word [glbHeaderMagic; 2; L; N; glbChunkJSON])).
  { rewrite E2, firstn_app. change (List.length (List.concat (map word [glbHeaderMagic; 2; L; N; glbChunkJSON]))) with 20%nat.
    rewrite Nat.sub_diag, firstn_O, app_nil_r. reflexivity. }
  assert (S20 : skipn 20 out = (json ++ repeat (z2b 32) k) ++ bc).
  { rewrite E2, skipn_app. change (List.length (List.concat (map word [glbHeaderMagic; 2; L; N; glbChunkJSON]))) with 20%nat. reflexivity. }
  exists (mkGlbHeader glbHeaderMagic 2 L (mkChunkHeader N glbChunkJSON)), k, bc. cbn [gh_JSONHeader ch_Length gh_Version gh_Length].
  assert (P32 : 2 ^ 32 = 4294967296) by reflexivity.
  assert (G : get_glbHeader (firstn 20 out) = mkGlbHeader glbHeaderMagic 2 L (mkChunkHeader N glbChunkJSON)).
  { rewrite H20. unfold get_glbHeader. rewrite <- (app_nil_r (List.concat _)).
    rewrite (field4_words _ 0 [] glbHeaderMagic), (field4_words _ 1 [] 2), (field4_words _ 2 [] L), (field4_words _ 3 [] N), (field4_words _ 4 [] glbChunkJSON);
      try reflexivity; unfold glbChunkJSON, glbHeaderMagic; rewrite P32 in *; lia. }
  split. { unfold header_of. fold L. replace (L <? 20) with false by lia. rewrite G. reflexivity. }
  split. { unfold validateGLBHeader. cbn [gh_JSONHeader ch_Length ch_Type gh_Length]. change (glbChunkJSON =? glbChunkJSON) with true. cbn [negb orb].
    unfold u32, header_size. rewrite Z.mod_small by lia. replace (L <? N + 20) with false by lia. reflexivity. }
  split; [exact Hk|]. split; [reflexivity|]. split; [exact Hm|].
  assert (LN : List.length (json ++ repeat (z2b 32) k) = Z.to_nat N). { unfold N, zlen. rewrite app_length, repeat_length. lia. }
  unfold json_chunk, after_chunk. cbn [gh_JSONHeader ch_Length]. rewrite S20, firstn_app, skipn_app, LN, Nat.sub_diag, firstn_O, app_nil_r, firstn_all2, skipn_all2 by lia.
  split; [reflexivity|]. split; [reflexivity|]. split.
  { rewrite zlen_app. unfold zlen at 1. rewrite LN. lia. }
  split; [exact Hb|]. split; reflexivity.
Qed.

Lemma bin_result_chunk b data bc : glb_chunk kind_bin (z2b 0) data bc -> buf_ByteLength b = zlen data -> data <> [] -> zlen bc < 2 ^ 32 ->
  bin_result b bc = Ok (set_buf_Data data b).
Proof.
  intros (k & Hk & Hm & ->) BL N L. pose proof (zlen_pos data N) as Pd. assert (P32 : 2 ^ 32 = 4294967296) by reflexivity.
  rewrite !zlen_app, word_zlen, kindb_zlen, repeat_zlen in L. set (n := zlen data + Z.of_nat k) in *.
  unfold bin_result, validateBuffer. rewrite BL. replace (zlen data =? 0) with false by lia. cbn [bind].
  set (all := word n ++ kind_bin ++ data ++ repeat (z2b 0) k).
  assert (F8 : firstn 8 all = List.concat (map word [n; glbChunkBIN])).
  { unfold all. rewrite kind_bin_word. reflexivity. }
  assert (S8 : skipn 8 all = data ++ repeat (z2b 0) k). { unfold all. rewrite kind_bin_word. reflexivity. }
  assert (LA : zlen all = 8 + n). { unfold all, n. rewrite !zlen_app, word_zlen, kindb_zlen, repeat_zlen. lia. }
  unfold taken at 1. rewrite zlen_nil, LA. replace (8 <=? 0 + (8 + n)) with true by lia. cbn [app bind]. change (Z.to_nat (8 - 0)) with 8%nat. rewrite F8.
  unfold get_chunkHeader. rewrite <- (app_nil_r (List.concat _)). rewrite (field4_words _ 0 [] n), (field4_words _ 1 [] glbChunkBIN);
    try reflexivity; try (unfold glbChunkBIN; lia). cbn [ch_Type ch_Length]. change (glbChunkBIN =? glbChunkBIN) with true. cbn [negb orb].
  unfold u32. rewrite Z.mod_small by lia. replace (n <? zlen data) with false by lia.
  unfold make_ok. change (2 ^ 48) with 281474976710656. replace ((0 <=? zlen data) && (zlen data <=? 281474976710656)) with true by lia. cbn [negb].
  rewrite S8. unfold taken. rewrite zlen_nil, zlen_app, repeat_zlen. replace (zlen data <=? 0 + (zlen data + Z.of_nat k)) with true by lia. cbn [bind app].
  f_equal. f_equal. rewrite Z.sub_0_r. unfold zlen. rewrite Nat2Z.id, firstn_app, firstn_all, Nat.sub_diag, firstn_O, app_nil_r. reflexivity.
Qed.

Section Encode.
Context (F : float_lib) (X : ext_lib) (U : url_lib).

(** The buffer of the binary chunk. *)
Definition bin_buffer (d : Document) : option Buffer :=
  match doc_Buffers d with
  | Some b :: _ => if str_empty (buf_URI b) then Some b else None
  | _ => None
  end.

Lemma encodeBinary_out prefix indent d text w : marshalJSONDoc F X true prefix indent d = Ok text -> no_faults w ->
  (forall b, bin_buffer d = Some b -> buf_ByteLength b = zlen (buf_Data b)) ->
  20 + up4 (zlen text) + match bin_buffer d with Some b => 8 + up4 (zlen (buf_Data b)) | None => 0 end < 2 ^ 32 ->
  exists out w', encodeBinary F X prefix indent d w = (Ok (match bin_buffer d with Some _ => true | None => false end), w') /\
    no_faults w' /\ wr_out w' = wr_out w ++ out /\ glb_file text (option_map buf_Data (bin_buffer d)) out.
Proof.
  intros M NF BL LT. assert (P32 : 2 ^ 32 = 4294967296) by reflexivity. rewrite P32 in LT.
  pose proof (zlen_nonneg text) as Nt. pose proof (up4_bounds (zlen text)) as [U1 U2].
  unfold encodeBinary. rewrite M. fold (bin_buffer d).
  assert (LB : 0 <= match bin_buffer d with Some b => 8 + up4 (zlen (buf_Data b)) | None => 0 end).
  { destruct (bin_buffer d) as [b|]; [|lia]. pose proof (up4_bounds (zlen (buf_Data b))). pose proof (zlen_nonneg (buf_Data b)). lia. }
  rewrite (pad4_up (zlen text)) by lia. rewrite (u32_small (up4 (zlen text))), (u32_small (zlen text)) by lia.
  rewrite (u32_small (up4 (zlen text) - zlen text)), (u32_small (12 + 8 + up4 (zlen text))) by lia.
  set (k := Z.to_nat (up4 (zlen text) - zlen text)).
  set (hl := match bin_buffer d with Some b => _ | None => _ end).
  assert (EH : hl = 20 + up4 (zlen text) + match bin_buffer d with Some b => 8 + up4 (zlen (buf_Data b)) | None => 0 end).
  { unfold hl. destruct (bin_buffer d) as [b|]; [|lia]. pose proof (up4_bounds (zlen (buf_Data b))). pose proof (zlen_nonneg (buf_Data b)).
    rewrite (BL b eq_refl), (pad4_up (zlen (buf_Data b))) by lia. rewrite !u32_small by (rewrite ?u32_small by lia; lia). lia. }
  clearbody hl.
  set (hdr := put_glbHeader _).
  assert (EHdr : hdr = str_bytes "glTF" ++ word 2 ++ word hl ++ word (up4 (zlen text)) ++ kind_json).
  { unfold hdr, put_glbHeader, put_chunkHeader. cbn [gh_Magic gh_Version gh_Length gh_JSONHeader ch_Length ch_Type]. rewrite !le4_word, magic_word, kind_json_word. reflexivity. }
  destruct (w_write_ok hdr w NF) as (w1 & -> & N1 & O1).
  destruct (w_write_ok text w1 N1) as (w2 & -> & N2 & O2).
  destruct (w_write_ok (repeat (z2b 32) k) w2 N2) as (w3 & -> & N3 & O3).
  assert (KK : zlen text + Z.of_nat k = up4 (zlen text)) by (unfold k; lia).
  assert (LJ : zlen (word (up4 (zlen text)) ++ kind_json ++ text ++ repeat (z2b 32) k) = 8 + up4 (zlen text)).
  { rewrite !zlen_app, word_zlen, kindj_zlen, repeat_zlen. lia. }
  destruct (bin_buffer d) as [b|] eqn:EB; cbn [option_map].
  - specialize (BL b eq_refl). rewrite BL. set (n := zlen (buf_Data b)) in *. pose proof (up4_bounds n) as [V1 V2]. pose proof (zlen_nonneg (buf_Data b)).
    rewrite (pad4_up n) by lia. rewrite (i64_id (up4 n - n)) by (unfold in_i64; change (2 ^ 63) with 9223372036854775808; lia).
    unfold make_ok. change (2 ^ 48) with 281474976710656. replace ((0 <=? up4 n - n) && (up4 n - n <=? 281474976710656)) with true by lia. cbn [negb].
    rewrite (u32_small (up4 n)) by lia. set (bh := put_chunkHeader _).
    assert (EBh : bh = word (up4 n) ++ kind_bin).
    { unfold bh, put_chunkHeader. cbn [ch_Length ch_Type]. rewrite !le4_word, kind_bin_word. reflexivity. }
    destruct (w_write_ok bh w3 N3) as (w4 & -> & N4 & O4).
    destruct (w_write_ok (buf_Data b) w4 N4) as (w5 & -> & N5 & O5).
    set (kb := Z.to_nat (up4 n - n)).
    destruct (w_write_ok (repeat byte0 kb) w5 N5) as (w6 & -> & N6 & O6).
    set (jc := word (up4 (zlen text)) ++ kind_json ++ text ++ repeat (z2b 32) k) in *.
    set (bc := word (up4 n) ++ kind_bin ++ buf_Data b ++ repeat (z2b 0) kb).
    assert (LBc : zlen bc = 8 + up4 n). { unfold bc. rewrite !zlen_app, word_zlen, kindb_zlen, repeat_zlen. unfold kb. lia. }
    exists (str_bytes "glTF" ++ word 2 ++ word hl ++ jc ++ bc), w6. split; [reflexivity|]. split; [exact N6|].
    split. { rewrite O6, O5, O4, O3, O2, O1, EHdr, EBh. unfold jc, bc. change byte0 with (z2b 0). rewrite <- !app_assoc. reflexivity. }
    assert (LO : zlen (str_bytes "glTF" ++ word 2 ++ word hl ++ jc ++ bc) = hl). { rewrite !zlen_app, !word_zlen, LJ, LBc. change (zlen (str_bytes "glTF")) with 4. lia. }
    exists jc, bc. split; [exists k; split; [unfold k; lia|split; [rewrite KK; exact U2|rewrite KK; reflexivity]]|].
    split; [exists kb; split; [unfold kb; lia|]|].
    { fold n. replace (n + Z.of_nat kb) with (up4 n) by (unfold kb; lia). split; [exact V2|reflexivity]. }
    rewrite LO. split; [reflexivity|]. rewrite P32. lia.
  - set (jc := word (up4 (zlen text)) ++ kind_json ++ text ++ repeat (z2b 32) k) in *.
    exists (str_bytes "glTF" ++ word 2 ++ word hl ++ jc ++ []), w3. split; [reflexivity|]. split; [exact N3|].
    split. { rewrite O3, O2, O1, EHdr. unfold jc. rewrite <- !app_assoc. rewrite app_nil_r. reflexivity. }
    assert (LO : zlen (str_bytes "glTF" ++ word 2 ++ word hl ++ jc ++ []) = hl). { rewrite !zlen_app, !word_zlen, LJ, zlen_nil. change (zlen (str_bytes "glTF")) with 4. lia. }
    exists jc, []. split; [exists k; split; [unfold k; lia|split; [rewrite KK; exact U2|rewrite KK; reflexivity]]|].
    split; [reflexivity|]. rewrite LO. split; [reflexivity|]. rewrite P32. lia.
Qed.

(** ** Buffer files *)
(** The URI names a file that is written and found again: [n]. *)
Definition accepted (uri : string) (n : bytes) : Prop :=
  String.prefix octet_prefix uri = false /\ validateBufferURI U (str_bytes uri) = Ok tt /\
  sanitizeURI U (str_bytes uri) = Some n /\ n <> [] /\
  String.prefix octet_prefix (bytes_str n) = false /\ validateBufferURI U n = Ok tt.
Definition storable (b : Buffer) : Prop :=
  buf_ByteLength b = zlen (buf_Data b) /\ buf_Data b <> [] /\
  (buf_URI b = ""%string \/ buf_URI b = data_uri "application/octet-stream" (buf_Data b) \/ exists n, accepted (buf_URI b) n).
Definition stored (o : option Buffer) : Prop := match o with Some b => storable b | None => False end.

(** What Encode writes for the buffers. *)
Definition skipped (b : Buffer) : bool := is_nil (buf_Data b) || str_empty (buf_URI b) || buf_IsEmbeddedResource b.
Definition out_of (o : option Buffer) : list (bytes * bytes) :=
  match o with
  | Some b => if skipped b then [] else match sanitizeURI U (str_bytes (buf_URI b)) with Some n => [(n, buf_Data b)] | None => [] end
  | None => []
  end.
Definition outs (l : list (option Buffer)) : list (bytes * bytes) := flat_map out_of l.
Definition fs_ok (fs : createfs) : Prop := Forall (fun o => o = Creates None None) (cf_script fs).

Lemma create_file_ok n data fs : fs_ok fs -> exists s, create_file n data fs = (None, mkCreateFS ((n, data) :: cf_files fs) (n :: cf_created fs) s) /\
  Forall (fun o => o = Creates None None) s.
Proof.
  unfold fs_ok, create_file. destruct fs as [fl cr [|o s]]; cbn [cf_script cf_files cf_created]; intros H.
  - eexists. split; [reflexivity|constructor].
  - rewrite (Forall_inv H). eexists. split; [reflexivity|exact (Forall_inv_tail H)].
Qed.

Lemma accepted_embedded uri n : accepted uri n -> String.prefix mimetypeApplicationOctet uri = false.
Proof. intros H. exact (proj1 H). Qed.

Lemma encodeBuffers_ok l : forall fs, fs_ok fs -> Forall stored l ->
  exists fs', encodeBuffers U l (Some fs) = (Ok tt, Some fs') /\ fs_ok fs' /\
    cf_files fs' = rev (outs l) ++ cf_files fs /\ cf_created fs' = rev (map fst (outs l)) ++ cf_created fs.
Proof.
  induction l as [|o l IH]; intros fs Hf Hl; [exists fs; sp; [reflexivity|exact Hf|reflexivity|reflexivity]|].
  pose proof (Forall_inv Hl) as Ho. pose proof (Forall_inv_tail Hl) as Hl'. destruct o as [b|]; [|destruct Ho].
  cbn [encodeBuffers outs flat_map out_of]. fold (outs l). fold (skipped b). destruct (skipped b) eqn:S; [exact (IH fs Hf Hl')|].
  unfold skipped in S. apply orb_false_elim in S. destruct S as [S S3]. apply orb_false_elim in S. destruct S as [S1 S2].
  destruct Ho as (_ & _ & [E|[E|(n & A)]]).
  - rewrite E in S2. discriminate.
  - unfold buf_IsEmbeddedResource in S3. rewrite E in S3. discriminate.
  - destruct A as (A1 & A2 & A3 & A4 & A5 & A6). unfold encodeBuffer. rewrite A2, A3.
    destruct (create_file_ok n (buf_Data b) fs Hf) as (s & -> & Hs).
    destruct (IH (mkCreateFS ((n, buf_Data b) :: cf_files fs) (n :: cf_created fs) s) Hs Hl') as (fs' & E1 & E2 & E3 & E4).
    exists fs'. rewrite E1. split; [reflexivity|]. split; [exact E2|]. cbn [app rev map fst]. rewrite E3, E4. cbn [cf_files cf_created].
    rewrite <- !app_assoc. split; reflexivity.
Qed.

(** ** Reading the buffers back *)
Definition file_reader (files : list (bytes * bytes)) (n : bytes) : bytes * option error :=
  match disk_get n files with Some c => (c, None) | None => ([], Some (ErrMsg "file does not exist")) end.
Lemma disk_get_skip n l d : ~ In n (map fst l) -> disk_get n (l ++ d) = disk_get n d.
Proof.
  induction l as [|[p c] l IH]; intros H; [reflexivity|]. cbn [app disk_get map fst] in *. destruct (list_eq_dec ascii_dec p n) as [->|N]; [exfalso; apply H; left; reflexivity|].
  apply IH. intros Q. apply H. right. exact Q.
Qed.
Lemma disk_get_rev n c l d : NoDup (map fst l) -> In (n, c) l -> disk_get n (rev l ++ d) = Some c.
Proof.
  induction l as [|[p c'] l IH]; intros N H; [destruct H|]. cbn [rev map fst] in *. inversion N as [|? ? N1 N2]; subst. rewrite <- app_assoc. cbn [app].
  destruct H as [[= -> ->]|H].
  - rewrite disk_get_skip.
    + cbn [disk_get]. destruct (list_eq_dec ascii_dec n n); [reflexivity|contradiction].
    + rewrite map_rev. intros Q. apply in_rev in Q. contradiction.
  - clear IH. revert H. induction l as [|q l IH] using rev_ind; intros H; [destruct H|].
    rewrite rev_app_distr. cbn [rev app]. destruct q as [q1 q2]. cbn [disk_get]. rewrite map_app in N2. cbn [map fst] in N2.
    apply NoDup_remove in N2. rewrite app_nil_r in N2. destruct N2 as [N2 N3]. destruct (list_eq_dec ascii_dec q1 n) as [->|Nn].
    + apply in_app_or in H. destruct H as [H|[[= <-]|[]]]; [|reflexivity]. exfalso. apply N3. apply (in_map fst) in H. exact H.
    + apply IH.
      * rewrite map_app in N. cbn [map] in N. inversion N as [|? ? M1 M2]; subst. constructor; [intros Q; apply M1; apply in_or_app; left; exact Q|exact N2].
      * intros Q. apply N1. rewrite map_app. apply in_or_app. left. exact Q.
      * exact N2.
      * apply in_app_or in H. destruct H as [H|[[= <- <-]|[]]]; [exact H|contradiction].
Qed.

(** What the JSON says about the buffer. *)
Definition plainly (a : bool) (i : nat) (b : Buffer) : Buffer := norm_Buffer X (embedded_buffer a i b).
Definition cleaned (a : bool) (i : nat) (b : Buffer) : Buffer :=
  if buf_IsEmbeddedResource (plainly a i b) then plainly a i b else set_buf_URI (clean_uri U (buf_URI (plainly a i b))) (plainly a i b).

Lemma embedded_fields a i b : buf_Extensions (embedded_buffer a i b) = buf_Extensions b /\ buf_Extras (embedded_buffer a i b) = buf_Extras b /\
  buf_Name (embedded_buffer a i b) = buf_Name b /\ buf_ByteLength (embedded_buffer a i b) = buf_ByteLength b.
Proof. unfold embedded_buffer. destruct (buf_Data b), (buf_URI b), (a && (i =? 0)%nat); repeat split. Qed.

Lemma restored_cleaned a i b : set_buf_Data (buf_Data b) (cleaned a i b) = restored_buffer X (clean_uri U) a i b.
Proof.
  destruct (embedded_fields a i b) as (E1 & E2 & E3 & E4). unfold cleaned, restored_buffer, plainly, norm_Buffer, buf_IsEmbeddedResource. cbn [buf_URI].
  rewrite E1, E2, E3, E4. change mimetypeApplicationOctet with octet_prefix. destruct (String.prefix octet_prefix _); reflexivity.
Qed.

Lemma clean_uri_empty : clean_uri U "" = ""%string.
Proof. reflexivity. Qed.
Lemma str_empty_iff s : str_empty s = true <-> s = ""%string.
Proof. destruct s; split; intros; try reflexivity; discriminate. Qed.

Lemma data_uri_data data b : buf_URI b = data_uri "application/octet-stream" data -> buf_IsEmbeddedResource b = true /\ buf_marshalData b = Ok data.
Proof.
  intros E. assert (I : buf_IsEmbeddedResource b = true) by (unfold buf_IsEmbeddedResource; rewrite E; reflexivity). split; [exact I|].
  unfold buf_marshalData. rewrite I, E. cbn [negb]. destruct (decode_tail "application/octet-stream" data) as [D L].
  change (zlen (str_bytes mimetypeApplicationOctet)) with (zlen (str_bytes ("data:" ++ "application/octet-stream" ++ ";base64"))).
  cbv zeta. rewrite L. exact D.
Qed.

Lemma decodeBuffer_ok a i b rf : storable b -> (a = true -> i = 0%nat -> buf_URI b <> ""%string) ->
  (forall n, accepted (buf_URI b) n -> rf n = (buf_Data b, None)) ->
  decodeBuffer U (Some rf) (cleaned a i b) = (map fst (out_of (Some b)), Ok (restored_buffer X (clean_uri U) a i b)).
Proof.
  intros (BL & ND & S) NB RF. rewrite <- restored_cleaned. destruct (embedded_fields a i b) as (E1 & E2 & E3 & E4).
  pose proof (zlen_pos _ ND) as PL.
  unfold decodeBuffer, validateBuffer.
  assert (BC : buf_ByteLength (cleaned a i b) = buf_ByteLength b).
  { unfold cleaned. destruct (buf_IsEmbeddedResource (plainly a i b)); unfold plainly, norm_Buffer, set_buf_URI; cbn [buf_ByteLength]; exact E4. }
  rewrite BC, BL. replace (zlen (buf_Data b) =? 0) with false by lia. cbn [out_of]. unfold skipped.
  assert (G : buf_URI b = ""%string \/ buf_URI b = data_uri "application/octet-stream" (buf_Data b) ->
    buf_URI (embedded_buffer a i b) = data_uri "application/octet-stream" (buf_Data b)).
  { unfold embedded_buffer. intros [E|E]; rewrite E.
    - destruct (buf_Data b) eqn:Ed; [congruence|]. rewrite <- Ed. destruct (a && (i =? 0)%nat) eqn:A; [|reflexivity].
      apply andb_prop in A. destruct A as [A1 A2]. apply Nat.eqb_eq in A2. exfalso. exact (NB A1 A2 E).
    - destruct (buf_Data b) eqn:Ed; [congruence|]. rewrite <- Ed. destruct (data_uri "application/octet-stream" (buf_Data b)) eqn:Eu; [discriminate|]. rewrite E, <- Ed. exact Eu. }
  destruct S as [S|[S|(n & S)]].
  1,2: specialize (G (ltac:(tauto))).
  1,2: assert (Em : buf_IsEmbeddedResource (plainly a i b) = true) by (unfold plainly, norm_Buffer, buf_IsEmbeddedResource; cbn [buf_URI]; rewrite G; reflexivity).
  1,2: assert (Ec : cleaned a i b = plainly a i b) by (unfold cleaned; rewrite Em; reflexivity).
  1,2: rewrite Ec; destruct (data_uri_data (buf_Data b) (plainly a i b) ltac:(unfold plainly, norm_Buffer; cbn [buf_URI]; exact G)) as [D1 D2].
  1,2: replace (str_empty (buf_URI (plainly a i b))) with false by (unfold plainly, norm_Buffer; cbn [buf_URI]; rewrite G; reflexivity).
  1,2: rewrite D1, D2; cbn [bind].
  1: rewrite S; cbn [str_empty]; rewrite orb_true_r; reflexivity.
  1: unfold buf_IsEmbeddedResource; rewrite S; rewrite (orb_comm (is_nil _ || _)); reflexivity.
  specialize (RF n S). destruct S as (A1 & A2 & A3 & A4 & A5 & A6).
  assert (Ne : buf_URI b <> ""%string). { intros E. rewrite E in A3. injection A3 as <-. apply A4. reflexivity. }
  assert (Eu : buf_URI (plainly a i b) = buf_URI b).
  { unfold plainly, norm_Buffer. cbn [buf_URI]. unfold embedded_buffer. destruct (buf_Data b); [reflexivity|]. destruct (buf_URI b) eqn:E; [congruence|]. exact E. }
  assert (Em : buf_IsEmbeddedResource (plainly a i b) = false) by (unfold buf_IsEmbeddedResource; rewrite Eu; exact A1).
  assert (Ec : buf_URI (cleaned a i b) = bytes_str n). { unfold cleaned. rewrite Em, Eu. cbn [set_buf_URI buf_URI]. unfold clean_uri. rewrite A3. reflexivity. }
  assert (Em' : buf_IsEmbeddedResource (cleaned a i b) = false) by (unfold buf_IsEmbeddedResource; rewrite Ec; exact A5).
  rewrite Em', Ec, str_bytes_bytes, A6, RF.
  replace (str_empty (bytes_str n)) with false by (destruct n; [congruence|reflexivity]).
  replace (zlen (buf_Data b) <? zlen (buf_Data b)) with false by lia. cbn [bind].
  replace (is_nil (buf_Data b)) with false by (destruct (buf_Data b); [congruence|reflexivity]).
  replace (str_empty (buf_URI b)) with false by (destruct (buf_URI b); [congruence|reflexivity]).
  unfold buf_IsEmbeddedResource. change mimetypeApplicationOctet with octet_prefix. rewrite A1, A3. reflexivity.
Qed.

Lemma decodeBuffers_ok a rf : forall l k, Forall stored l ->
  (a = true -> k = 0%nat -> match l with Some b :: _ => buf_URI b <> ""%string | _ => True end) ->
  (forall n b, In (Some b) l -> accepted (buf_URI b) n -> rf n = (buf_Data b, None)) ->
  decodeBuffers U (Some rf) (map (fun p => option_map (cleaned a (fst p)) (snd p)) (combine (seq k (List.length l)) l)) =
  (map fst (outs l), Ok (map (fun p => option_map (restored_buffer X (clean_uri U) a (fst p)) (snd p)) (combine (seq k (List.length l)) l))).
Proof.
  induction l as [|o l IH]; intros k Hl NB RF; [reflexivity|]. pose proof (Forall_inv Hl) as Ho. pose proof (Forall_inv_tail Hl) as Hl'.
  destruct o as [b|]; [|destruct Ho]. cbn [List.length seq combine map fst snd option_map decodeBuffers outs flat_map].
  rewrite (decodeBuffer_ok a k b rf Ho).
  - rewrite (IH (S k) Hl'); [cbn [bind]; rewrite map_app; reflexivity|discriminate|]. intros n b' H. apply RF. right. exact H.
  - intros A1 A2. exact (NB A1 A2).
  - intros n. apply RF. left. reflexivity.
Qed.

Lemma mapM_clean a : forall l k, Forall stored l ->
  mapM (clean_buffer U) (map (option_map (norm_Buffer X)) (map (fun p => option_map (embedded_buffer a (fst p)) (snd p)) (combine (seq k (List.length l)) l))) =
  Ok (map (fun p => option_map (cleaned a (fst p)) (snd p)) (combine (seq k (List.length l)) l)).
Proof.
  induction l as [|o l IH]; intros k Hl; [reflexivity|]. pose proof (Forall_inv Hl) as Ho. pose proof (Forall_inv_tail Hl) as Hl'.
  destruct o as [b|]; [|destruct Ho]. cbn [List.length seq combine map fst snd option_map mapM]. unfold clean_buffer at 1. cbn [deref bind].
  rewrite (IH (S k) Hl'). cbn [bind]. reflexivity.
Qed.
Lemma mapM_clean_image l : Forall (fun o => o <> None) l -> mapM (clean_image U) l = Ok (map (option_map (restored_image (clean_uri U))) l).
Proof.
  induction l as [|o l IH]; intros H; [reflexivity|]. destruct o as [im|]; [|exfalso; exact (Forall_inv H eq_refl)].
  cbn [mapM map option_map]. unfold clean_image at 1. cbn [deref bind]. rewrite (IH (Forall_inv_tail H)). cbn [bind]. f_equal. f_equal. f_equal.
  unfold restored_image, img_IsEmbeddedResource. change mimetypeImagePNG with "data:image/png;base64"%string. change mimetypeImageJPG with "data:image/jpeg;base64"%string.
  destruct (_ || _); [destruct im; reflexivity|reflexivity].
Qed.

(** Everything after the JSON. *)
Lemma finish_ok a d rf bc : Forall stored (doc_Buffers d) -> Forall (fun o => o <> None) (doc_Images d) ->
  (forall n b, In (Some b) (doc_Buffers d) -> accepted (buf_URI b) n -> rf n = (buf_Data b, None)) ->
  (a = true -> match bin_buffer d with Some b => glb_chunk kind_bin (z2b 0) (buf_Data b) bc /\ zlen bc < 2 ^ 32 | None => True end) ->
  finish U (Some rf) a (norm_Document X (embedded a d)) bc = (map fst (outs (doc_Buffers d)), Ok (restored X (clean_uri U) a d)).
Proof.
  intros SB SI RF HB. unfold finish.
  change (doc_Buffers (norm_Document X (embedded a d))) with
    (map (option_map (norm_Buffer X)) (map (fun p => option_map (embedded_buffer a (fst p)) (snd p)) (combine (seq 0 (List.length (doc_Buffers d))) (doc_Buffers d)))).
  rewrite (mapM_clean a _ 0 SB).
  change (doc_Images (norm_Document X (embedded a d))) with (map (option_map (norm_Image X)) (doc_Images d)).
  rewrite mapM_clean_image by (apply Forall_map; eapply Forall_impl; [|exact SI]; intros [im|] H; [discriminate|congruence]).
  assert (L : load_bytes U (Some rf) a (map (fun p => option_map (cleaned a (fst p)) (snd p)) (combine (seq 0 (List.length (doc_Buffers d))) (doc_Buffers d))) bc =
    (map fst (outs (doc_Buffers d)), Ok (restored_buffers X (clean_uri U) a (doc_Buffers d)))).
  { unfold restored_buffers. destruct a.
    2:{ unfold load_bytes. rewrite (decodeBuffers_ok false rf _ 0 SB); [|discriminate|exact RF]. destruct (doc_Buffers d) as [|[b|] l]; reflexivity. }
    specialize (HB eq_refl). unfold bin_buffer in HB. destruct (doc_Buffers d) as [|o l] eqn:EB; [reflexivity|].
    pose proof (Forall_inv SB) as Ho. pose proof (Forall_inv_tail SB) as Hl. destruct o as [b|]; [|destruct Ho].
    destruct (str_empty (buf_URI b)) eqn:E.
    - apply str_empty_iff in E. cbn [List.length seq combine map fst snd option_map load_bytes]. destruct HB as [HB HB2].
      assert (Ep : plainly true 0 b = norm_Buffer X b). { unfold plainly, embedded_buffer. rewrite E. destruct (buf_Data b); reflexivity. }
      assert (Ec : cleaned true 0 b = norm_Buffer X b).
      { unfold cleaned. rewrite Ep. unfold buf_IsEmbeddedResource, norm_Buffer. cbn [buf_URI]. rewrite E. reflexivity. }
      assert (Eu : buf_URI (cleaned true 0 b) = ""%string) by (rewrite Ec; exact E).
      rewrite Eu. cbn [str_empty andb]. rewrite (bin_result_chunk (cleaned true 0 b) (buf_Data b) bc HB); [|rewrite Ec; exact (proj1 Ho)|exact (proj1 (proj2 Ho))|exact HB2].
      rewrite (decodeBuffers_ok true rf l 1 Hl); [|discriminate|intros n b' H; apply RF; right; exact H].
      cbn [bind outs flat_map out_of]. unfold skipped. rewrite E. cbn [str_empty]. rewrite orb_true_r. cbn [orb app]. rewrite restored_cleaned. reflexivity.
    - assert (N : buf_URI b <> ""%string) by (intros Q; rewrite Q in E; discriminate).
      rewrite <- (decodeBuffers_ok true rf (Some b :: l) 0 SB); [|intros _ _; exact N|exact RF].
      cbn [List.length seq combine map fst snd option_map load_bytes].
      assert (Eu : str_empty (buf_URI (cleaned true 0 b)) = false).
      { destruct (str_empty (buf_URI (cleaned true 0 b))) eqn:Z; [|reflexivity]. exfalso.
        apply str_empty_iff in Z. destruct Ho as (_ & ND & S).
        assert (Q : buf_URI (plainly true 0 b) = buf_URI b). { unfold plainly, norm_Buffer. cbn [buf_URI]. unfold embedded_buffer. destruct (buf_Data b); [congruence|]. destruct (buf_URI b) eqn:Q; [congruence|]. exact Q. }
        unfold cleaned, buf_IsEmbeddedResource in Z. rewrite Q in Z. destruct S as [S|[S|(n & S)]]; [congruence| |].
        - assert (P : String.prefix mimetypeApplicationOctet (buf_URI b) = true) by (rewrite S; reflexivity). rewrite P, Q in Z. congruence.
        - pose proof (accepted_embedded _ _ S) as P. rewrite P in Z. cbn [set_buf_URI buf_URI] in Z. unfold clean_uri in Z. destruct S as (_ & _ & S & S' & _). rewrite S in Z.
          destruct n; [congruence|discriminate]. }
      rewrite Eu. reflexivity. }
  rewrite L. reflexivity.
Qed.

(** ** The whole round trip *)
Definition size_ok (text : bytes) (d : Document) : Prop :=
  20 + up4 (zlen text) + match bin_buffer d with Some b => 8 + up4 (zlen (buf_Data b)) | None => 0 end < 2 ^ 32.
Definition pristine (w : writer) (fs : createfs) : Prop := no_faults w /\ wr_out w = [] /\ fs_ok fs.

Lemma stored_some l : Forall stored l -> Forall (fun o => o <> None) l.
Proof. intros H. eapply Forall_impl; [|exact H]. intros [b|] Hb; [discriminate|destruct Hb]. Qed.

Lemma outs_tl d b : bin_buffer d = Some b -> outs (tl (doc_Buffers d)) = outs (doc_Buffers d).
Proof.
  unfold bin_buffer. destruct (doc_Buffers d) as [|[c|] l]; try discriminate. destruct (str_empty (buf_URI c)) eqn:E; [|discriminate]. intros _.
  cbn [tl outs flat_map out_of]. unfold skipped. rewrite E, orb_true_r. reflexivity.
Qed.

Lemma brace_text t : header_of ("{"%char :: t) = None.
Proof.
  unfold header_of. destruct (zlen ("{"%char :: t) <? 20); [reflexivity|]. replace (gh_Magic _ =? glbHeaderMagic) with false; [reflexivity|].
  symmetry. apply Z.eqb_neq. unfold get_glbHeader, field4. cbn [gh_Magic]. change (4 * 0)%nat with 0%nat.
  change (firstn 4 (skipn 0 (firstn 20 ("{"%char :: t)))) with ("{"%char :: firstn 3 (firstn 19 t)). unfold le_val. fold le_val.
  change (b2z "{"%char) with 123. unfold glbHeaderMagic. generalize (le_val (firstn 3 (firstn 19 t))). intros z. lia.
Qed.

Lemma whole_container v t n rest : text_of v t -> container v -> wf_json n v -> Z.of_nat n <= max_depth -> whole start true (t ++ rest) = Ok v.
Proof. intros. unfold whole. rewrite (scan_container v t n rest) by assumption. reflexivity. Qed.

Lemma obj_brace m t : text_of (JObj m) t -> exists t', t = "{"%char :: t'.
Proof. inversion 1; subst. eexists. reflexivity. Qed.

Theorem encode_decode n asBinary prefix indent d w fs text :
  float_contract F -> wf_Document X n d -> Z.of_nat n + 7 <= 10000 -> ws prefix -> ws indent ->
  Forall stored (doc_Buffers d) -> Forall (fun o => o <> None) (doc_Images d) ->
  pristine w fs ->
  marshalJSONDoc F X asBinary prefix indent d = Ok text -> (asBinary = true -> size_ok text d) ->
  exists w' fs', Encode F X U asBinary prefix indent d w (Some fs) = (Ok tt, w', Some fs') /\
    cf_files fs' = rev (outs (doc_Buffers d)) ++ cf_files fs /\ cf_created fs' = rev (map fst (outs (doc_Buffers d))) ++ cf_created fs /\
    (asBinary = false -> wr_out w' = text) /\
    (asBinary = true -> glb_file text (option_map buf_Data (bin_buffer d)) (wr_out w')) /\
    forall rf r, (forall m c, In (m, c) (outs (doc_Buffers d)) -> rf m = (c, None)) ->
      reads_to_eof r -> stream r = wr_out w' -> (asBinary = false \/ r_aligned r \/ zlen text mod 4 = 0 \/ bin_buffer d = None) ->
      Decode F X U (Some rf) zero_Document (NewReader r) =
      (map fst (outs (doc_Buffers d)), Ok (restored X (clean_uri U) asBinary d)).
Proof.
  intros HF W D Hp Hi SB SI (NF & W0 & FO) M SZ.
  destruct (marshal_tree_spec F X n asBinary d HF W (stored_some _ SB)) as (m & E & Wm & Dm).
  assert (Et : text = printed prefix indent (JObj m)). { unfold marshalJSONDoc in M. rewrite E in M. injection M as <-. reflexivity. }
  pose proof (printed_text prefix indent (JObj m) Hp Hi) as T. rewrite <- Et in T.
  assert (RF : forall rf : bytes -> bytes * option error, (forall m c, In (m, c) (outs (doc_Buffers d)) -> rf m = (c, None)) ->
    forall k b, In (Some b) (doc_Buffers d) -> accepted (buf_URI b) k -> rf k = (buf_Data b, None)).
  { intros rf H k b Hb A. apply H. unfold outs. apply in_flat_map. exists (Some b). split; [exact Hb|]. cbn [out_of].
    rewrite Forall_forall in SB. destruct (SB _ Hb) as (_ & Nd & _). destruct A as (A1 & A2 & A3 & A4 & _).
    unfold skipped, buf_IsEmbeddedResource. change mimetypeApplicationOctet with octet_prefix. rewrite A1, A3.
    replace (is_nil (buf_Data b)) with false by (destruct (buf_Data b); [congruence|reflexivity]).
    replace (str_empty (buf_URI b)) with false; [left; reflexivity|]. destruct (buf_URI b); [|reflexivity]. exfalso. injection A3 as <-. apply A4. reflexivity. }
  assert (WH : forall rest : bytes, whole start true (text ++ rest) = Ok (JObj m)).
  { intros rest. apply (whole_container (JObj m) text (n + 7)); [exact T|exact I|exact Wm|unfold max_depth; lia]. }
  destruct asBinary.
  - specialize (SZ eq_refl).
    destruct (encodeBinary_out prefix indent d text w M NF) as (out & w' & E1 & E2 & E3 & E4).
    { intros b Hb. unfold bin_buffer in Hb. destruct (doc_Buffers d) as [|[c|] l]; try discriminate. destruct (str_empty (buf_URI c)); [|discriminate]. injection Hb as <-.
      exact (proj1 (Forall_inv SB)). }
    { exact SZ. }
    rewrite W0 in E3. cbn [app] in E3.
    assert (EF : exists fs', encodeBuffers U (if match bin_buffer d with Some _ => true | None => false end then tl (doc_Buffers d) else doc_Buffers d) (Some fs) = (Ok tt, Some fs') /\
      cf_files fs' = rev (outs (doc_Buffers d)) ++ cf_files fs /\ cf_created fs' = rev (map fst (outs (doc_Buffers d))) ++ cf_created fs).
    { destruct (bin_buffer d) as [b|] eqn:EB.
      - rewrite <- (outs_tl d b EB). destruct (encodeBuffers_ok (tl (doc_Buffers d)) fs FO) as (fs' & F1 & F2 & F3 & F4); [destruct (doc_Buffers d); [exact SB|exact (Forall_inv_tail SB)]|].
        exists fs'. split; [exact F1|]. split; assumption.
      - destruct (encodeBuffers_ok (doc_Buffers d) fs FO SB) as (fs' & F1 & F2 & F3 & F4). exists fs'. split; [exact F1|]. split; assumption. }
    destruct EF as (fs' & F1 & F3 & F4). exists w', fs'. unfold Encode. rewrite E1, F1. split; [reflexivity|]. split; [exact F3|]. split; [exact F4|].
    split; [discriminate|]. rewrite E3. split; [intros _; exact E4|].
    intros rf r HR RE ST AL.
    destruct (glb_header _ _ _ E4) as (h & k & bc & H1 & H2 & H3 & H4 & H5 & H6 & H7 & H8 & H9 & _).
    pose proof (zlen_nonneg text) as NT.
    rewrite <- ST in H1, H6, H7, H8.
    assert (LO : leftover (json_chunk h (stream r)) = repeat (z2b 32) k).
    { rewrite H6. unfold leftover. rewrite (scan_container (JObj m) text (n + 7) (repeat (z2b 32) k) T I Wm ltac:(unfold max_depth; lia)). reflexivity. }
    rewrite (Decode_glb F X U (Some rf) zero_Document r h RE H1 H2 ltac:(lia)).
    + rewrite H6, WH. cbn [bind]. rewrite Dm, H7. apply finish_ok; [exact SB|exact SI|exact (RF rf HR)|]. intros _. destruct (bin_buffer d) as [b|]; [|exact I].
      split; [exact H9|]. rewrite <- H7. unfold after_chunk. destruct E4 as (_ & _ & _ & _ & _ & LL). rewrite ST.
      unfold zlen in *. rewrite !skipn_length. lia.
    + destruct AL as [AL|[AL|[AL|AL]]]; [discriminate| | |].
      * left. right. rewrite LO, repeat_zlen. split; [exact AL|]. split; [exact H5|]. split; [lia|]. exact H8.
      * left. left. rewrite LO. replace k with 0%nat by lia. reflexivity.
      * right. intros doc. rewrite H6, WH. cbn [bind]. rewrite Dm. intros [= <-].
        change (doc_Buffers (norm_Document X (embedded true d))) with
          (map (option_map (norm_Buffer X)) (map (fun p => option_map (embedded_buffer true (fst p)) (snd p)) (combine (seq 0 (List.length (doc_Buffers d))) (doc_Buffers d)))).
        rewrite (mapM_clean true _ 0 SB). unfold bin_buffer in AL. destruct (doc_Buffers d) as [|o l] eqn:EB; [exact I|].
        pose proof (Forall_inv SB) as Ho. destruct o as [b|]; [|destruct Ho]. destruct (str_empty (buf_URI b)) eqn:Eb; [discriminate|].
        cbn [List.length seq combine map fst snd option_map]. destruct Ho as (_ & Nd & S). unfold cleaned, buf_IsEmbeddedResource.
        assert (Q : buf_URI (plainly true 0 b) = buf_URI b). { unfold plainly, norm_Buffer. cbn [buf_URI]. unfold embedded_buffer. destruct (buf_Data b); [congruence|]. destruct (buf_URI b) eqn:Q; [discriminate|]. exact Q. }
        rewrite Q. destruct S as [S|[S|(c & S)]].
        -- rewrite S in Eb. discriminate.
        -- assert (P : String.prefix mimetypeApplicationOctet (buf_URI b) = true) by (rewrite S; reflexivity). rewrite P, Q, S. discriminate.
        -- pose proof (accepted_embedded _ _ S) as P. rewrite P. cbn [set_buf_URI buf_URI]. unfold clean_uri. destruct S as (_ & _ & S & S' & _). rewrite S. destruct c; [congruence|discriminate].
  - destruct (w_write_ok text w NF) as (w' & E1 & E2 & E3). rewrite W0 in E3. cbn [app] in E3.
    destruct (encodeBuffers_ok (doc_Buffers d) fs FO SB) as (fs' & F1 & F2 & F3 & F4). exists w', fs'. unfold Encode. rewrite M, E1, F1.
    split; [reflexivity|]. split; [exact F3|]. split; [exact F4|]. split; [intros _; exact E3|]. split; [discriminate|].
    intros rf r HR RE ST _. rewrite Decode_text; [|exact RE|].
    + rewrite ST, E3. rewrite <- (app_nil_r text) at 1. rewrite WH. cbn [bind]. rewrite Dm. apply finish_ok; [exact SB|exact SI|exact (RF rf HR)|discriminate].
    + rewrite ST, E3. destruct (obj_brace m text T) as [t' ->]. apply brace_text.
Qed.
End Encode.
