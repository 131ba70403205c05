(** Files carry what accessors and images mean by the rules of glTF. *)
From Verif Require Import Base BaseFacts Types Binary SpecLayout Doc SpecDoc SpecAccessor AccessorProofs SpecImage F64 Base64 Url UrlProofs SpecText SpecPath SpecData JsonText JsonTextProofs Codec SpecJson SpecJsonDoc CodecProofs CodecInv
  DocCodec Marshal SpecMarshal MarshalProofs PropsUri PropsJson Stream StreamProofs File SpecFile DecodeProofs EncodeProofs PlainProofs PropsFile PropsRoundTrip
  SpecGo SpecGoDoc EncodeExact ScanDepth IndentProofs PropsIndent SpecKeep SpecKeepDoc KeepProofs DocKeepProofs KeepTree SpecKeepFile KeepFile PropsKeep DocWithin PropsKeepFile PropsModelerRead PropsAccessor.
Local Open Scope nat_scope.

(** Every accessor that conforms in [d] has a counterpart in [d2] with the same
    elements, format, normalization and bounds, and every image in the buffers
    one with the same bytes. *)
Definition carries (d d2 : Document) : Prop :=
  (forall i a vs, nth_error (doc_Accessors d) i = Some (Some a) -> gltf_elements d a vs ->
   exists a2, nth_error (doc_Accessors d2) i = Some (Some a2) /\ gltf_elements d2 a2 vs /\
     acr_ComponentType a2 = acr_ComponentType a /\ acr_Type a2 = acr_Type a /\ acr_Normalized a2 = acr_Normalized a /\
     acr_Min a2 = acr_Min a /\ acr_Max a2 = acr_Max a /\ (vertex_aligned d a -> vertex_aligned d2 a2)) /\
  (forall i im data, nth_error (doc_Images d) i = Some (Some im) -> image_bytes d im data ->
   exists im2, nth_error (doc_Images d2) i = Some (Some im2) /\ image_bytes d2 im2 data).

Lemma typed_all d : (forall a, In (Some a) (doc_Accessors d) -> at_valid (acr_Type a) = true) -> typed d = true.
Proof. intros H. apply forallb_forall. intros [a|] I; [exact (H a I)|reflexivity]. Qed.

Section Carry.
Context (X : ext_lib) (rep : string -> string) (asBinary : bool).

Lemma nth_map_some {A B} (f : A -> B) l i x : nth_error l i = Some (Some x) -> nth_error (map (option_map f) l) i = Some (Some (f x)).
Proof. intros H. rewrite nth_error_map, H. reflexivity. Qed.

Lemma back_buffers_nth l k b : nth_error l k = Some (Some b) ->
  nth_error (back_buffers X rep asBinary l) k = Some (Some (back_buffer X rep asBinary k b)).
Proof.
  intros H. unfold back_buffers. rewrite nth_error_map.
  assert (G : forall l s k, nth_error l k = Some (Some b) -> nth_error (combine (seq s (List.length l)) l) k = Some (s + k, Some b)).
  { clear. induction l as [|x l IH]; intros s [|k] H; try discriminate; cbn [List.length seq combine nth_error] in *.
    - injection H as ->. rewrite Nat.add_0_r. reflexivity.
    - rewrite (IH (S s) k H). f_equal. f_equal. lia. }
  rewrite (G l 0 k H). reflexivity.
Qed.

Lemma back_stored d i ao c t n vs : gltf_stored d i ao c t n vs -> gltf_stored (back X rep asBinary d) i ao c t n vs.
Proof.
  intros (v & kb & b & vo & vl & st & H1 & H2 & H3 & H).
  exists (kept_BufferView X rep v), kb, (back_buffer X rep asBinary kb b), vo, vl, st.
  split; [apply nth_map_some; exact H1|]. split; [exact H2|]. split; [apply back_buffers_nth; exact H3|]. exact H.
Qed.

Lemma back_unstrided d i : unstrided d i -> unstrided (back X rep asBinary d) i.
Proof.
  intros H v Hv. cbn [back doc_BufferViews kept_Document] in Hv. rewrite nth_error_map in Hv.
  destruct (nth_error (doc_BufferViews d) i) as [[w|]|] eqn:E; cbn in Hv; try discriminate.
  apply (f_equal (fun o => match o with Some (Some x) => x | _ => v end)) in Hv. subst v. exact (H w E).
Qed.

Lemma kept_ct_valid c : ct_valid c = true -> kept_ct c = c.
Proof. destruct c; [reflexivity..|discriminate]. Qed.

Lemma back_elements d a vs : gltf_elements d a vs -> gltf_elements (back X rep asBinary d) (kept_Accessor X rep a) vs.
Proof.
  intros (Hc & Ht & n & base & H1 & H2 & HB & HS). unfold gltf_elements, gltf_base in *.
  cbn [kept_Accessor acr_ComponentType acr_Type acr_Count acr_BufferView acr_ByteOffset acr_Sparse]. rewrite (kept_ct_valid _ Hc).
  split; [exact Hc|]. split; [exact Ht|]. exists n, base. split; [exact H1|]. split; [exact H2|]. split.
  - destruct (acr_BufferView a); [|exact HB]. destruct HB as (i & ao & E1 & E2 & HB). exists i, ao. auto using back_stored.
  - destruct (acr_Sparse a) as [sp|]; [|exact HS]. cbn [option_map].
    destruct HS as (ni & ii & io & vi & vo & idx & vals & S1 & S2 & S3 & S4 & S5 & S6 & S7 & S8 & S9 & S10 & S11 & S12).
    exists ni, ii, io, vi, vo, idx, vals. cbn [kept_Sparse kept_SparseIndices kept_SparseValues spa_Count spa_Indices spa_Values spi_ComponentType spi_BufferView spi_ByteOffset spv_BufferView spv_ByteOffset].
    assert (K : kept_ct (spi_ComponentType (spa_Indices sp)) = spi_ComponentType (spa_Indices sp)).
    { destruct S3 as [->|[->| ->]]; reflexivity. }
    rewrite K. split; [exact S1|]. split; [exact S2|]. split; [exact S3|]. split; [exact S4|]. split; [exact S5|]. split; [apply back_stored; exact S6|].
    split; [apply back_unstrided; exact S7|]. split; [exact S8|]. split; [exact S9|]. split; [apply back_stored; exact S10|]. split; [apply back_unstrided; exact S11|exact S12].
Qed.

Lemma back_aligned d a : ct_valid (acr_ComponentType a) = true -> vertex_aligned d a -> vertex_aligned (back X rep asBinary d) (kept_Accessor X rep a).
Proof.
  intros Hc (i & ao & v & st & H1 & H2 & H3 & H4 & H5 & H6). exists i, ao, (kept_BufferView X rep v), st.
  cbn [kept_Accessor acr_ComponentType acr_Type acr_BufferView acr_ByteOffset]. rewrite (kept_ct_valid _ Hc).
  split; [exact H1|]. split; [exact H2|]. split; [apply nth_map_some; exact H3|]. auto.
Qed.

Lemma back_carries d : carries d (back X rep asBinary d).
Proof.
  split.
  - intros i a vs Ha G. exists (kept_Accessor X rep a). split; [apply nth_map_some; exact Ha|]. split; [apply back_elements; exact G|].
    split; [cbn; apply kept_ct_valid, G|]. do 4 (split; [reflexivity|]). apply back_aligned, G.
  - intros i im data Hi (k & v & kb & b & H1 & H2 & H3 & H4 & H). exists (kept_Image X rep im). split; [apply nth_map_some; exact Hi|].
    exists k, (kept_BufferView X rep v), kb, (back_buffer X rep asBinary kb b). split; [exact H1|]. split; [apply nth_map_some; exact H2|].
    split; [exact H3|]. split; [apply back_buffers_nth; exact H4|]. exact H.
Qed.
End Carry.

Lemma images_carry clean X rep asBinary d : carries d (back_images clean X rep asBinary d).
Proof.
  destruct (back_carries X rep asBinary d) as [C1 C2]. split.
  - intros i a vs H G. destruct (C1 i a vs H G) as (a2 & H2 & G2 & R). exists a2. split; [exact H2|]. split; [exact G2|exact R].
  - intros i im data H G. destruct (C2 i im data H G) as (im2 & H2 & G2). exists (restored_image clean im2). split; [|exact G2].
    cbn [back_images set_doc_Images doc_Images]. apply nth_map_some. exact H2.
Qed.

(** C88: Encode and Decode.  Unless the JSON is nested more than 10000 deep, or
    an accessor has a type that glTF does not know, the file is read and
    carries all the data. *)
Theorem C88_encode_decode F X U asBinary prefix indent d w fs :
  float_contract F -> registry_total X -> go_Document X d -> savable_Document X d ->
  Forall plain_buffer (doc_Buffers d) -> Forall (fun o => o <> None) (doc_Images d) ->
  ws prefix -> ws indent -> no_failures w fs ->
  (forall text, marshalJSONDoc F X asBinary prefix indent d = Ok text -> asBinary = true -> (glb_size text d < 2 ^ 32)%Z) ->
  exists j text w' fs', text_of j text /\
    Encode F X U asBinary prefix indent d w (Some fs) = (Ok tt, w', Some fs') /\
    (if asBinary then glb_file text (option_map buf_Data (glb_buffer d)) (wr_out w') else wr_out w' = text) /\
    forall rf r, (forall name data, In (name, data) (buffer_files (doc_Buffers d)) -> rf name = (data, None)) ->
      reads_to_eof r -> stream r = wr_out w' -> asBinary = false \/ Forall (fun p => (zlen p mod 4 = 0)%Z) (rd_pieces r) ->
      (Z.of_nat (nesting j) <= 10000)%Z ->
      (forall a, In (Some a) (doc_Accessors d) -> at_valid (acr_Type a) = true) ->
      exists d2, snd (Decode F X U (Some rf) zero_Document (NewReader r)) = Ok d2 /\ carries d d2.
Proof.
  intros HF HT G S HB HI Hp Hi NF SZ. destruct repairs_exists as [rep HR].
  destruct (C81_encode_decode_images F X U rep asBinary prefix indent d w fs HF HT HR G S HB HI Hp Hi NF SZ) as (j & text & w' & fs' & T & E & _ & O & D).
  exists j, text, w', fs'. split; [exact T|]. split; [exact E|]. split; [exact O|].
  intros rf r RF RE ST AL N TY. exists (back_images (clean_uri U) X rep asBinary d). split; [|apply images_carry].
  rewrite (D rf r RF RE ST AL), (typed_all d TY). destruct (Z.ltb_spec 10000 (Z.of_nat (nesting j))); [lia|reflexivity].
Qed.
Print Assumptions C88_encode_decode.

(** Save and Open. *)
Theorem C88_save_open F X U dir name asBinary d disk :
  float_contract F -> registry_total X -> go_Document X d -> savable_Document X d ->
  Forall plain_buffer (doc_Buffers d) -> Forall (fun o => o <> None) (doc_Images d) ->
  (forall text, marshalJSONDoc F X asBinary [] [] d = Ok text -> asBinary = true -> (glb_size text d < 2 ^ 32)%Z) ->
  NoDup (map fst (buffer_files (doc_Buffers d))) ->
  (forall m, In m (map fst (buffer_files (doc_Buffers d))) -> dir ++ "/"%char :: m <> name) ->
  exists j text disk', text_of j text /\
    save F X U dir name asBinary d (mkFaults None [] [] None) disk = (Ok tt, disk') /\
    forall rd, (forall c, reads_to_eof (rd c) /\ stream (rd c) = c /\ (asBinary = true -> Forall (fun p => (zlen p mod 4 = 0)%Z) (rd_pieces (rd c)))) ->
    (Z.of_nat (nesting j) <= 10000)%Z ->
    (forall a, In (Some a) (doc_Accessors d) -> at_valid (acr_Type a) = true) ->
    exists d2, snd (Open F X U dir name disk' rd) = Ok d2 /\ carries d d2.
Proof.
  intros HF HT G S HB HI SZ ND NN. destruct repairs_exists as [rep HR].
  destruct (C81_save_open_images F X U rep dir name asBinary d disk HF HT HR G S HB HI SZ ND NN) as (j & text & disk' & T & E & D).
  exists j, text, disk'. split; [exact T|]. split; [exact E|].
  intros rd R N TY. exists (back_images (clean_uri U) X rep asBinary d). split; [|apply images_carry].
  rewrite (D rd R), (typed_all d TY). destruct (Z.ltb_spec 10000 (Z.of_nat (nesting j))); [lia|reflexivity].
Qed.
Print Assumptions C88_save_open.

(** What [carries] promises is exact: an accessor has one value, so the
    elements in [d2] are those in [d]. *)
Theorem C88_exact d d2 : carries d d2 ->
  (forall i a vs a2 vs2, nth_error (doc_Accessors d) i = Some (Some a) -> gltf_elements d a vs ->
    nth_error (doc_Accessors d2) i = Some (Some a2) -> gltf_elements d2 a2 vs2 -> vs2 = vs) /\
  (forall d3, carries d2 d3 -> carries d d3).
Proof.
  intros [C1 C2]. split.
  - intros i a vs a2 vs2 H G H2 G2. destruct (C1 i a vs H G) as (a' & H' & G' & _). rewrite H' in H2.
    apply (f_equal (fun o => match o with Some (Some x) => x | _ => a2 end)) in H2. subst a'. exact (gltf_elements_det _ _ _ _ G2 G').
  - intros d3 [D1 D2]. split.
    + intros i a vs H G. destruct (C1 i a vs H G) as (a2 & H2 & G2 & E1 & E2 & E3 & E4 & E5 & E6).
      destruct (D1 i a2 vs H2 G2) as (a3 & H3 & G3 & F1 & F2 & F3 & F4 & F5 & F6). exists a3. split; [exact H3|]. split; [exact G3|].
      repeat (split; [congruence|]). auto.
    + intros i im data H G. destruct (C2 i im data H G) as (im2 & H2 & G2). exact (D2 i im2 data H2 G2).
Qed.
Print Assumptions C88_exact.

(** ** Example *)
(** Positions with a stride of 16 and an image of four bytes in one buffer. *)
Definition carried : Document :=
  set_doc_Images [Some (mkImage [] VNull "logo" "" "image/png" (Some 1%Z))]
  (set_doc_Accessors [Some float3_acr]
  (rd_doc (repeat 9%Z 4 ++ flat_map (fun x => [x; 0; 0; 0]%Z) [1; 2; 3; 9; 4; 5; 6]%Z) [(4, 28, 16); (0, 4, 0)]%Z)).
Example C88_hypotheses :
  go_Document sample_exts carried /\ savable_Document sample_exts carried /\ Forall plain_buffer (doc_Buffers carried) /\ Forall (fun o => o <> None) (doc_Images carried) /\
  (forall a, In (Some a) (doc_Accessors carried) -> at_valid (acr_Type a) = true) /\
  gltf_elements carried float3_acr [[1; 2; 3]; [4; 5; 6]]%Z /\
  image_bytes carried (mkImage [] VNull "logo" "" "image/png" (Some 1%Z)) (repeat (z2b 9) 4).
Proof.
  assert (G : go_Document sample_exts carried).
  { unfold go_Document, carried. cbn. repeat match goal with |- _ /\ _ => split end; repeat constructor; cbn; unfold in_i64; try (change (2 ^ 63)%Z with 9223372036854775808%Z; lia). }
  split; [exact G|].
  assert (M : exists t, marshalJSONDoc sample_floats sample_exts true [] [] carried = Ok t) by (eexists; vm_compute; reflexivity).
  split. { exact (proj1 (proj1 (C77_succeeds_iff sample_floats sample_exts true [] [] carried sample_float_contract G ltac:(constructor) ltac:(constructor)) M)). }
  split. { constructor; [|constructor]. split; [reflexivity|]. split; [discriminate|left; reflexivity]. }
  split. { repeat constructor; discriminate. }
  split. { intros a [E|[]]. apply (f_equal (fun o => match o with Some x => x | None => a end)) in E. subst a. reflexivity. }
  split.
  - split; [reflexivity|]. split; [reflexivity|]. exists 2, [[1; 2; 3]; [4; 5; 6]]%Z. split; [reflexivity|]. split; [lia|]. split; [|reflexivity].
    exists 0, 0. split; [reflexivity|]. split; [reflexivity|].
    eexists. exists 0. eexists. exists 4, 28, 16. split; [reflexivity|]. split; [reflexivity|]. split; [reflexivity|].
    do 3 (split; [reflexivity|]). vm_compute. repeat split; lia.
  - exists 1. eexists. exists 0. eexists. split; [reflexivity|]. split; [reflexivity|]. split; [reflexivity|]. split; [reflexivity|].
    do 3 (split; [reflexivity|]). exists [], (skipn 4 (map z2b (repeat 9%Z 4 ++ flat_map (fun x => [x; 0; 0; 0]%Z) [1; 2; 3; 9; 4; 5; 6]%Z))). split; reflexivity.
Qed.
Example C88_example : exists disk' doc a im,
  save sample_floats sample_exts sample_url (str_bytes "out") (str_bytes "out/m.glb") true carried (mkFaults None [] [] None) [] = (Ok tt, disk') /\
  snd (Open sample_floats sample_exts sample_url (str_bytes "out") (str_bytes "out/m.glb") disk' (fun c => mkReader [c] ErrEOF false)) = Ok doc /\
  doc_Accessors doc = [Some a] /\ doc_Images doc = [Some im] /\
  gltf_elements doc a [[1; 2; 3]; [4; 5; 6]]%Z /\ image_bytes doc im (repeat (z2b 9) 4).
Proof.
  destruct C88_hypotheses as (G & S & HB & HI & TY & E & I).
  do 4 eexists. split; [vm_compute; reflexivity|]. split; [vm_compute; reflexivity|]. split; [reflexivity|]. split; [reflexivity|].
  split.
  - split; [reflexivity|]. split; [reflexivity|]. exists 2, [[1; 2; 3]; [4; 5; 6]]%Z. split; [reflexivity|]. split; [lia|]. split; [|reflexivity].
    exists 0, 0. split; [reflexivity|]. split; [reflexivity|].
    eexists. exists 0. eexists. exists 4, 28, 16. split; [reflexivity|]. split; [reflexivity|]. split; [reflexivity|].
    do 3 (split; [reflexivity|]). vm_compute. repeat split; lia.
  - exists 1. eexists. exists 0. eexists. split; [reflexivity|]. split; [reflexivity|]. split; [reflexivity|]. split; [reflexivity|].
    do 3 (split; [reflexivity|]). exists [], (skipn 4 (map z2b (repeat 9%Z 4 ++ flat_map (fun x => [x; 0; 0; 0]%Z) [1; 2; 3; 9; 4; 5; 6]%Z))). split; reflexivity.
Qed.
