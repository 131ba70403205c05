(** Data exchanged with other programs: C93. *)
From Verif Require Import Base BaseFacts Types Binary SpecLayout Doc SpecDoc SpecAccessor AccessorProofs SpecImage F64 Base64 Url UrlProofs GoUrl GoUrlProofs SpecText SpecString SpecPath SpecData SpecUrl
  JsonText JsonTextProofs JsonStringProofs ScanSound Codec DocCodec SpecJson SpecJsonDoc CodecProofs CodecInv DocCodecBase DocCodecProofs DocInvBase Marshal SpecMarshal MarshalProofs Stream StreamProofs
  File SpecFile DecodeProofs EncodeProofs PropsUri PropsJson PropsFile PropsRoundTrip SpecSchema SchemaProofs SchemaAccept PropsSchema SpecMeaning MeaningProofs MeaningUnique PropsMeaning ConformProofs PropsConform
  SpecAsset AssetProofs PropsAsset PropsUrl PropsAssetWritten SpecExchange SpecTarget ModelerTargetProofs ModelerRead ModelerWrite PropsModelerWrite PropsModelerRead PropsAccessor PropsAccessorFile.

(** ** Assets have one meaning *)
Lemma container_same v v' t t' n n' bin bin' out : text_of v t -> text_of v' t' -> wf_json n v -> wf_json n' v' -> Z.of_nat n <= 10000 -> Z.of_nat n' <= 10000 ->
  (exists m, v = JObj m) -> (exists m, v' = JObj m) -> container_of t bin out -> container_of t' bin' out ->
  v = v' /\ forall c c', bin = Some c -> bin' = Some c' -> c = c'.
Proof.
  intros T T' W W' D D' (m & ->) (m' & ->) K K'.
  assert (HT : forall t0 (m0 : list (string * json)) n0 before after, text_of (JObj m0) t0 -> wf_json n0 (JObj m0) -> Z.of_nat n0 <= 10000 -> ws before ->
    scan start (before ++ t0 ++ after) = Done (JObj m0) after /\ header_of (before ++ t0 ++ after) = None).
  { intros t0 m0 n0 before after T0 W0 D0 WS. split.
    - unfold start. rewrite (scan_ws before [] LVal (t0 ++ after) WS I). fold start. exact (scan_container _ _ n0 after T0 I W0 D0).
    - inversion T0; subst. apply text_front. exact WS. }
  destruct K as [before after WS|k bin more out Hk Hm Lo Eo].
  - destruct (HT t m n before after T W D WS) as [S1 H1]. split; [|intros; congruence].
    remember (before ++ t ++ after) as out eqn:Eout. destruct K' as [before' after' WS'|k bin more out Hk Hm Lo Eo].
    + destruct (HT t' m' n' before' after' T' W' D' WS') as [S2 _]. congruence.
    + destruct (glb_parts _ _ _ _ _ Hk Hm Lo Eo) as (h & H2 & _). congruence.
  - destruct (glb_parts _ _ _ _ _ Hk Hm Lo Eo) as (h & H1 & _ & _ & H4 & H5 & _). remember out as out' eqn:Eout in K'. destruct K' as [before' after' WS'|k' bin' more' out' Hk' Hm' Lo' Eo'].
    + destruct (HT t' m' n' before' after' T' W' D' WS') as [_ H2]. congruence.
    + subst out'. destruct (glb_parts _ _ _ _ _ Hk' Hm' Lo' Eo') as (h' & H1' & _ & _ & H4' & H5' & _). assert (h' = h) by congruence. subst h'.
      rewrite H4 in H4'. rewrite H5 in H5'. split.
      * pose proof (scan_container _ _ n (repeat (z2b 32) k) T I W D) as S1. rewrite H4' in S1. rewrite (scan_container _ _ n' (repeat (z2b 32) k') T' I W' D') in S1. congruence.
      * intros c c' -> ->. rewrite !app_assoc in H5'.
        assert (LL : zlen out = 20 + (zlen t + Z.of_nat k) + (8 + zlen c + zlen more)).
        { rewrite Eo, !zlen_app, !word_zlen, kindj_zlen, kindb_zlen, repeat_zlen. change (zlen (str_bytes "glTF")) with 4. lia. }
        assert (LL' : zlen out = 20 + (zlen t' + Z.of_nat k') + (8 + zlen c' + zlen more')).
        { rewrite Eo', !zlen_app, !word_zlen, kindj_zlen, kindb_zlen, repeat_zlen. change (zlen (str_bytes "glTF")) with 4. lia. }
        pose proof (zlen_nonneg t). pose proof (zlen_nonneg t'). pose proof (zlen_nonneg c). pose proof (zlen_nonneg c'). pose proof (zlen_nonneg more). pose proof (zlen_nonneg more').
        rewrite <- !app_assoc in H5'. assert (E1 : word (zlen c) = word (zlen c')) by exact (f_equal (firstn 4) H5').
        assert (E2 : zlen c = zlen c'). { rewrite <- (word_val (zlen c)), <- (word_val (zlen c')) by lia. congruence. }
        assert (E3 : c ++ more = c' ++ more') by exact (f_equal (skipn 8) H5').
        apply (f_equal (firstn (List.length c))) in E3. assert (E4 : List.length c = List.length c') by (unfold zlen in E2; lia).
        rewrite firstn_app, firstn_all, Nat.sub_diag, firstn_O, app_nil_r in E3. rewrite E4, firstn_app, firstn_all, Nat.sub_diag, firstn_O, app_nil_r in E3. exact E3.
Qed.
Lemma front_same (a b c e : bytes) : zlen a = zlen b -> a ++ c = b ++ e -> a = b.
Proof.
  intros L E. apply (f_equal (firstn (List.length a))) in E. assert (E4 : List.length a = List.length b) by (unfold zlen in L; lia).
  rewrite firstn_app, firstn_all, Nat.sub_diag, firstn_O, app_nil_r in E. rewrite E4, firstn_app, firstn_all, Nat.sub_diag, firstn_O, app_nil_r in E. exact E.
Qed.
Lemma data_uri_same m a b : data_uri m a = data_uri m b -> a = b.
Proof. intros E. destruct (decode_tail m a) as [H _], (decode_tail m b) as [H' _]. rewrite E in H. congruence. Qed.
Lemma resource_same rf bin bin' i b names names' uri uri' data data' : (forall c c', bin = Some c -> bin' = Some c' -> c = c') ->
  resource rf bin i b names uri data -> resource rf bin' i b names' uri' data' -> zlen data = zlen data' -> names = names' /\ uri = uri' /\ data = data'.
Proof.
  intros B R R' L.
  assert (NR : forall u name, relative (str_bytes u) name -> u <> ""%string /\ forall x, u <> data_uri "application/octet-stream" x).
  { intros u name Q. destruct (relative_facts go_url _ _ Q) as (S & (N & _) & _ & ND). split; [intros ->; apply N; cbn in S; congruence|]. intros x E. subst u. exact (ND _ eq_refl). }
  assert (NA : forall u, absolute_uri (str_bytes u) -> u <> ""%string).
  { intros u A ->. destruct A as (s & h & q & f & A & _). destruct s; discriminate A. }
  destruct R as [b data rest U E|i b data U|i b name data rest U P E|i b data rest A D P E]; inversion R' as [? d2 rest2 U2 E2|? ? d2 U2|? ? name2 d2 rest2 U2 P2 E2|? ? d2 rest2 A2 D2 P2 E2]; subst;
    try (rewrite U in U2; discriminate U2); try (destruct (NR _ _ U) as [? ?]; congruence); try (destruct (NR _ _ U2) as [? ?]; congruence);
    try (destruct (NA _ A) as []; congruence); try (destruct (NA _ A2) as []; congruence).
  - split; [reflexivity|]. split; [reflexivity|]. exact (front_same _ _ _ _ L (B _ _ eq_refl eq_refl)).
  - split; [reflexivity|]. split; [reflexivity|]. apply (data_uri_same "application/octet-stream"); congruence.
  - rewrite U in P2. discriminate P2.
  - assert (name2 = name). { destruct (relative_facts go_url _ _ U) as (S & _), (relative_facts go_url _ _ U2) as (S2 & _). congruence. } subst name2.
    split; [reflexivity|]. split; [reflexivity|]. refine (front_same _ _ rest rest2 L _). congruence.
  - assert (name = str_bytes (buf_URI b)). { destruct (relative_facts go_url _ _ U) as (S & _). rewrite (sanitize_kept _ A2 D2) in S. congruence. } subst name.
    split; [reflexivity|]. split; [apply bytes_str_bytes|]. refine (front_same _ _ rest rest2 L _). congruence.
  - rewrite U2 in P. discriminate P.
  - assert (name2 = str_bytes (buf_URI b)). { destruct (relative_facts go_url _ _ U2) as (S & _). rewrite (sanitize_kept _ A D) in S. congruence. } subst name2.
    split; [reflexivity|]. split; [symmetry; apply bytes_str_bytes|]. refine (front_same _ _ rest rest2 L _). congruence.
  - split; [reflexivity|]. split; [reflexivity|]. refine (front_same _ _ rest rest2 L _). congruence.
Qed.
Lemma resources_same rf bin bin' l : (forall c c', bin = Some c -> bin' = Some c' -> c = c') ->
  forall i names names' l1 l2, resources rf bin i l names l1 -> resources rf bin' i l names' l2 -> names = names' /\ l1 = l2.
Proof.
  intros B. induction l as [|o l IH]; intros i names names' l1 l2 R R'; inversion R as [|? b ? nm uri data ns r RS L RL]; subst; inversion R' as [|? ? ? nm' uri' data' ns' r' RS' L' RL']; subst; [split; reflexivity|].
  destruct (IH _ _ _ _ _ RL RL') as [-> ->]. destruct (resource_same _ _ _ _ _ _ _ _ _ _ _ B RS RS' ltac:(congruence)) as (-> & -> & ->). split; reflexivity.
Qed.

(** A file and the files beside it are an asset in one way only. *)
Theorem C93_determined F X num other num' other' rf out names d names' d' :
  asset F X num other rf out names d -> asset F X num' other' rf out names' d' -> names = names' /\ d = d'.
Proof.
  intros (t & v & bin & d0 & bufs & T & K & (n & W & D) & C & M & R & ->) (t' & v' & bin' & d0' & bufs' & T' & K' & (n' & W' & D') & C' & M' & R' & ->).
  destruct (container_same v v' t t' n n' bin bin' out T T' W W' D D') as [E B]; [inversion C; eexists; reflexivity|inversion C'; eexists; reflexivity|exact K|exact K'|]. subst v'.
  pose proof (f_gltf F X d0 d0' v M M') as EQ.
  assert (EB : map bare (doc_Buffers d0) = map bare (doc_Buffers d0')) by exact (f_equal doc_Buffers EQ).
  apply (resources_bare rf bin _ _ _ _ _ EB) in R. destruct (resources_same rf bin bin' _ B _ _ _ _ _ R R') as [-> ->].
  split; [reflexivity|]. destruct d0, d0'. unfold without_data, with_contents in *. cbn in *. injection EQ. intros. subst. reflexivity.
Qed.
Print Assumptions C93_determined.

(** ** Reading *)
Lemma stored_contents d1 d2 i ao c t n vs : doc_BufferViews d1 = doc_BufferViews d2 -> doc_Buffers d1 = doc_Buffers d2 -> gltf_stored d1 i ao c t n vs -> gltf_stored d2 i ao c t n vs.
Proof. unfold gltf_stored. intros -> ->. exact (fun H => H). Qed.
Lemma elements_contents d1 d2 a vs : doc_BufferViews d1 = doc_BufferViews d2 -> doc_Buffers d1 = doc_Buffers d2 -> gltf_elements d1 a vs -> gltf_elements d2 a vs.
Proof. unfold gltf_elements, gltf_base, gltf_sparse, gltf_stored, unstrided. intros -> ->. exact (fun H => H). Qed.
Lemma library_contents d1 d2 a : doc_BufferViews d1 = doc_BufferViews d2 -> doc_Buffers d1 = doc_Buffers d2 -> library_accessor d1 a -> library_accessor d2 a.
Proof. unfold library_accessor, library_layout. intros -> ->. exact (fun H => H). Qed.
Lemma memory_contents d1 d2 a : doc_BufferViews d1 = doc_BufferViews d2 -> doc_Buffers d1 = doc_Buffers d2 -> in_memory d1 a -> in_memory d2 a.
Proof. unfold in_memory. intros _ ->. exact (fun H => H). Qed.

(** Decode opens the asset, and what it returns has the same accessors, views
    and buffers; so that ReadAccessor and the typed functions give the elements
    of the asset, where the layout is one that the library reads. *)
Theorem C93_read_partial F X rf r names d :
  registry_total X -> asset F X (in_float_range F) unrelated rf (stream r) names d -> reads_to_eof r -> Forall (fun p => zlen p mod 4 = 0) (rd_pieces r) \/ header_of (stream r) = None ->
  exists doc, Decode F X go_url (Some rf) zero_Document (NewReader r) = (names, Ok doc) /\
    doc_Accessors doc = doc_Accessors d /\ doc_BufferViews doc = doc_BufferViews d /\ doc_Buffers doc = doc_Buffers d /\ Forall2 SpecAsset.addressed (doc_Images d) (doc_Images doc) /\
    forall a vs, In (Some a) (doc_Accessors d) -> gltf_elements d a vs ->
      (library_accessor d a -> forall buffer p, (acr_BufferView a = None -> buffer = []) -> (acr_ComponentType a = CUint -> acr_Type a = AMat3 -> buffer = [] /\ p_val p = []) ->
       ReadAccessor doc a buffer p = Ok (mkSlice (SK (acr_ComponentType a) (acr_Type a)) vs)) /\
      (in_memory d a -> forall cv buffer ibuffer pool p, (acr_BufferView a = None -> pool = []) ->
       (acr_ComponentType a = CFloat ->
        (acr_Type a = AVec2 -> ReadTextureCoord cv doc a buffer pool p = Ok vs) /\
        (acr_Type a = AVec3 -> ReadPosition doc a buffer pool p = Ok vs /\ ReadNormal doc a buffer pool p = Ok vs) /\
        (acr_Type a = AVec4 -> ReadWeights cv doc a buffer pool p = Ok vs /\ ReadTangent doc a buffer pool p = Ok vs) /\
        (acr_Type a = AMat4 -> ReadInverseBindMatrices doc a buffer pool p = Ok vs)) /\
       (In (acr_ComponentType a) [CUshort; CUint] -> acr_Type a = AScalar -> exists l, ReadIndices doc a ibuffer pool p = Ok l /\ vs = map (fun x => [x]) l) /\
       (In (acr_ComponentType a) [CUbyte; CUshort] -> acr_Type a = AVec4 -> ReadJoints doc a buffer pool p = Ok vs)).
Proof.
  intros RT (t & v & bin & d0 & bufs & T & K & (n & W & D) & C & M & R & ->) RE AL.
  assert (DL : delivers r v bin).
  { split; [exists t; split; assumption|]. split; [exists n; split; assumption|]. split; [exact RE|]. intros NB. destruct AL as [AL|AL]; [exact AL|].
    remember (stream r) as out eqn:Eout in K. destruct K as [before after WS|k bin more out Hk Hm Lo Eo]; [contradiction|]. destruct (glb_parts _ _ _ _ _ Hk Hm Lo Eo) as (h & H & _). subst out. congruence. }
  destruct (C91_open_partial F X rf r v bin d0 names bufs RT DL C M R) as (ims & E & A).
  exists (with_contents d0 bufs ims). split; [exact E|]. split; [reflexivity|]. split; [reflexivity|]. split; [reflexivity|]. split; [exact A|].
  intros a vs _ G. apply (elements_contents _ (with_contents d0 bufs ims)) in G; [|reflexivity|reflexivity]. split.
  - intros L buffer p. apply C85_read_partial; [exact G|]. apply (library_contents (with_contents d0 bufs (doc_Images d0))); [reflexivity|reflexivity|exact L].
  - intros IM cv buffer ibuffer pool p HP. apply C85_typed; [exact G| |exact HP]. apply (memory_contents (with_contents d0 bufs (doc_Images d0))); [reflexivity|reflexivity|exact IM].
Qed.
Print Assumptions C93_read_partial.

(** ** Writing *)
Section Contents.
Context (X : ext_lib) (asBinary : bool) (d : Document) (bufs : list (option Buffer)) (HB : map (option_map buf_Data) bufs = map (option_map buf_Data) (doc_Buffers d)).
Let d0 := norm_Document X (embedded asBinary d).
Let d' := with_contents d0 bufs (doc_Images d0).
Lemma data_nth k b : nth_error (doc_Buffers d) k = Some (Some b) -> exists b', nth_error bufs k = Some (Some b') /\ buf_Data b' = buf_Data b.
Proof.
  intros H. assert (E : nth_error (map (option_map buf_Data) bufs) k = Some (Some (buf_Data b))) by (rewrite HB, nth_error_map, H; reflexivity).
  rewrite nth_error_map in E. destruct (nth_error bufs k) as [[b'|]|]; try discriminate E. exists b'. split; [reflexivity|]. cbn in E. congruence.
Qed.
Lemma norm_stored i ao c t n vs : gltf_stored d i ao c t n vs -> gltf_stored d' i ao c t n vs.
Proof.
  intros (v & kb & b & vo & vl & st & H1 & H2 & H3 & H). destruct (data_nth kb b H3) as (b' & H3' & ED).
  exists (norm_BufferView X v), kb, b', vo, vl, st.
  split; [exact (nth_map_some (norm_BufferView X) (doc_BufferViews d) i v H1)|]. split; [exact H2|]. split; [exact H3'|]. rewrite ED. exact H.
Qed.
Lemma norm_unstrided i : unstrided d i -> unstrided d' i.
Proof.
  intros H v Hv. change (nth_error (map (option_map (norm_BufferView X)) (doc_BufferViews d)) i = Some (Some v)) in Hv. rewrite nth_error_map in Hv.
  destruct (nth_error (doc_BufferViews d) i) as [[w|]|] eqn:E; cbn in Hv; try discriminate.
  apply (f_equal (fun o => match o with Some (Some x) => x | _ => v end)) in Hv. subst v. exact (H w E).
Qed.
Lemma norm_elements a vs : gltf_elements d a vs -> gltf_elements d' (norm_Accessor X a) vs.
Proof.
  intros (Hc & Ht & n & base & H1 & H2 & Hb & HS). unfold gltf_elements, gltf_base in *.
  cbn [norm_Accessor acr_ComponentType acr_Type acr_Count acr_BufferView acr_ByteOffset acr_Sparse].
  split; [exact Hc|]. split; [exact Ht|]. exists n, base. split; [exact H1|]. split; [exact H2|]. split.
  - destruct (acr_BufferView a); [|exact Hb]. destruct Hb as (i & ao & E1 & E2 & Hb). exists i, ao. auto using norm_stored.
  - destruct (acr_Sparse a) as [sp|]; [|exact HS]. cbn [option_map].
    destruct HS as (ni & ii & io & vi & vo & idx & vals & S1 & S2 & S3 & S4 & S5 & S6 & S7 & S8 & S9 & S10 & S11 & S12).
    exists ni, ii, io, vi, vo, idx, vals. cbn [norm_Sparse norm_SparseIndices norm_SparseValues spa_Count spa_Indices spa_Values spi_ComponentType spi_BufferView spi_ByteOffset spv_BufferView spv_ByteOffset].
    split; [exact S1|]. split; [exact S2|]. split; [exact S3|]. split; [exact S4|]. split; [exact S5|]. split; [apply norm_stored; exact S6|].
    split; [apply norm_unstrided; exact S7|]. split; [exact S8|]. split; [exact S9|]. split; [apply norm_stored; exact S10|]. split; [apply norm_unstrided; exact S11|exact S12].
Qed.
Lemma norm_aligned a : vertex_aligned d a -> vertex_aligned d' (norm_Accessor X a).
Proof.
  intros (i & ao & v & st & H1 & H2 & H3 & H). exists i, ao, (norm_BufferView X v), st.
  split; [exact H1|]. split; [exact H2|]. split; [exact (nth_map_some (norm_BufferView X) (doc_BufferViews d) i v H3)|exact H].
Qed.
Lemma norm_carries : carries d d'.
Proof.
  split.
  - intros i a vs Ha G. exists (norm_Accessor X a). split; [exact (nth_map_some (norm_Accessor X) (doc_Accessors d) i a Ha)|]. split; [apply norm_elements; exact G|].
    do 5 (split; [reflexivity|]). apply norm_aligned.
  - intros i im data Hi (k & v & kb & b & H1 & H2 & H3 & H4 & H). destruct (data_nth kb b H4) as (b' & H4' & ED).
    exists (norm_Image X im). split; [exact (nth_map_some (norm_Image X) (doc_Images d) i im Hi)|].
    exists k, (norm_BufferView X v), kb, b'. split; [exact H1|]. split; [exact (nth_map_some (norm_BufferView X) (doc_BufferViews d) k v H2)|].
    split; [exact H3|]. split; [exact H4'|]. rewrite ED. exact H.
Qed.
End Contents.

(** What Encode writes is an asset, and in the contents that any reader finds,
    every accessor of the document has its elements and every image in a buffer
    its bytes. *)
Definition numeral (s : string) : Prop := json_number (str_bytes s).
Theorem C93_written_partial F X n asBinary prefix indent d w fs files :
  float_contract F -> wf_Document X n d -> Z.of_nat n + 7 <= 10000 -> ready d -> ws prefix -> ws indent -> no_failures w fs ->
  places (doc_Buffers d) files -> NoDup (map fst files) ->
  (forall text, marshalJSONDoc F X asBinary prefix indent d = Ok text -> asBinary = true -> glb_size text d < 2 ^ 32) ->
  exists w' fs' d', Encode F X go_url asBinary prefix indent d w (Some fs) = (Ok tt, w', Some fs') /\
    asset F X numeral (fun _ _ => False) (file_reader (cf_files fs')) (wr_out w') (map fst files) d' /\ carries d d'.
Proof.
  intros HF W D R Hp Hi NF P ND SZ.
  destruct (C92_written_partial F X n asBinary prefix indent d w fs files HF W D R Hp Hi NF P ND SZ) as (w' & fs' & text & v & bin & bufs & E & T & Wv & K & _ & _ & C & M & _ & RS & DS).
  exists w', fs', (with_contents (norm_Document X (embedded asBinary d)) bufs (doc_Images (norm_Document X (embedded asBinary d)))). split; [exact E|]. split; [|exact (norm_carries X asBinary d bufs DS)].
  exists text, v, bin, (norm_Document X (embedded asBinary d)), bufs. split; [exact T|]. split; [exact K|]. split; [exists (n + 7)%nat; split; [exact Wv|lia]|].
  split; [exact C|]. split; [exact M|]. split; [exact RS|reflexivity].
Qed.
Print Assumptions C93_written_partial.

(** Data that the functions of modeler put into a document, whatever calls
    follow: any reader of the encoded document finds the same elements, since
    the asset has one meaning only (C93_determined). *)
Theorem C93_modeler_partial F X n asBinary prefix indent d0 op d1 ops d w fs files :
  run_op d0 op = Ok d1 -> succeeds d0 op -> run_ops d1 ops = Ok d ->
  Forall wf_slice (given op) -> Forall (fun s => els s <> []) (given op) -> writable (op_target op) (given op) ->
  float_contract F -> wf_Document X n d -> Z.of_nat n + 7 <= 10000 -> ready d -> ws prefix -> ws indent -> no_failures w fs ->
  places (doc_Buffers d) files -> NoDup (map fst files) ->
  (forall text, marshalJSONDoc F X asBinary prefix indent d = Ok text -> asBinary = true -> glb_size text d < 2 ^ 32) ->
  exists w' fs', Encode F X go_url asBinary prefix indent d w (Some fs) = (Ok tt, w', Some fs') /\
    (exists names d', asset F X numeral (fun _ _ => False) (file_reader (cf_files fs')) (wr_out w') names d') /\
    forall num other names d', asset F X num other (file_reader (cf_files fs')) (wr_out w') names d' ->
    forall k s, nth_error (given op) k = Some s ->
    exists a, nth_error (doc_Accessors d') (List.length (doc_Accessors d0) + k) = Some (Some a) /\
      kind_ct (sk s) = Some (acr_ComponentType a, acr_Type a) /\ gltf_elements d' a (els s).
Proof.
  intros H HS HO HW HN HWr HF W D R Hp Hi NF P ND SZ.
  destruct (C93_written_partial F X n asBinary prefix indent d w fs files HF W D R Hp Hi NF P ND SZ) as (w' & fs' & dd & E & A & CA).
  exists w', fs'. split; [exact E|]. split; [exists (map fst files), dd; exact A|]. intros num other names d' A' k s Hk.
  destruct (C93_determined _ _ _ _ _ _ _ _ _ _ _ _ A A') as [_ <-].
  destruct (C86_written_partial d0 op d1 ops d H HS HO HW HN HWr k s Hk) as (a & Ha & K & G & _).
  destruct (proj1 CA _ a (els s) Ha G) as (a2 & Ha2 & G2 & K1 & K2 & _). exists a2. split; [exact Ha2|]. split; [rewrite K1, K2; exact K|exact G2].
Qed.
Print Assumptions C93_modeler_partial.

(** ** The other cases *)
(** Three bytes to an element, one after the other: the reader takes the
    elements to be four bytes apart. *)
Definition rgb_tree : json :=
  JObj [("accessors", JArr [JObj [("bufferView", JNum "0"); ("componentType", JNum "5121"); ("count", JNum "2"); ("type", JStr "VEC3")]]);
        ("asset", JObj [("version", JStr "2.0")]);
        ("bufferViews", JArr [JObj [("buffer", JNum "0"); ("byteLength", JNum "8")]]);
        ("buffers", JArr [JObj [("byteLength", JNum "8"); ("uri", JStr "data:application/octet-stream;base64,AQIDBAUGBwg=")]])]%string.
Lemma enumz_in F l s n : parse_int s = Some n -> (n = 0 -> s = "0"%string) -> In n l -> conforms (in_float_range F) unrelated (SEnumZ l) (JNum s).
Proof. intros P Z I. econstructor; [exact (decimal_of_parse s n P Z)|exact I]. Qed.
Ltac confZ := repeat first
  [ apply cf_str | (eapply int_in; [vm_compute; reflexivity|first [discriminate|reflexivity]|lia|unfold in_i64; lia])
  | (eapply enumz_in; [vm_compute; reflexivity|discriminate|cbn; inl]) | (eapply cf_enum; [reflexivity|cbn; inl])
  | (apply cf_list; [cbn; lia|]) | apply Forall_nil | apply Forall_cons | obj2 ].
Theorem C93_read_refuted : exists rf r d doc a,
  asset sample_floats sample_exts (in_float_range sample_floats) unrelated rf (stream r) [] d /\ reads_to_eof r /\ header_of (stream r) = None /\
  nth_error (doc_Accessors d) 0 = Some (Some a) /\ gltf_elements d a [[1; 2; 3]; [4; 5; 6]] /\
  Decode sample_floats sample_exts go_url (Some rf) zero_Document (NewReader r) = ([], Ok doc) /\
  nth_error (doc_Accessors doc) 0 = Some (Some a) /\ ReadAccessor doc a [] fresh_pools = Ok (mkSlice (SK CUbyte AVec3) [[1; 2; 3]; [5; 6; 7]]).
Proof.
  assert (S1 : scan start (print_compact rgb_tree) = Done rgb_tree []) by (vm_compute; reflexivity).
  destruct (scan_sound _ _ _ S1) as (_ & _ & _ & _ & _ & W).
  assert (C1 : conforms (in_float_range sample_floats) unrelated s_gltf rgb_tree) by (unfold rgb_tree; confZ).
  exists (fun _ => ([], Some (ErrMsg "file does not exist"))), (text_reader rgb_tree). do 3 eexists. split; [|split; [|split; [vm_compute; reflexivity|]]].
  - destruct (text_delivers rgb_tree S1 ltac:(vm_compute; discriminate)) as ((t & T & K) & WN & _). exists t, rgb_tree, None. do 2 eexists. split; [exact T|]. split; [exact K|]. split; [exact WN|].
    split; [exact C1|]. split; [|split; [|reflexivity]].
    + apply (rd_Document sample_floats sample_exts (Z.to_nat max_depth) _ _ W); [apply (conforms_mono (in_float_range sample_floats) (fun _ => True) unrelated unrelated); [tauto|tauto|exact C1]|vm_compute; reflexivity].
    + cbn [doc_Buffers]. change (@nil bytes) with (@nil bytes ++ [])%list.
      eapply rl_cons; [eapply (rs_inline _ _ _ _ (map z2b [1; 2; 3; 4; 5; 6; 7; 8])); vm_compute; reflexivity|reflexivity|constructor].
  - split; [repeat constructor; vm_compute; discriminate|reflexivity].
  - split; [reflexivity|]. split; [|split; [vm_compute; reflexivity|split; [reflexivity|vm_compute; reflexivity]]].
    split; [reflexivity|]. split; [reflexivity|]. exists 2%nat. eexists. split; [reflexivity|]. split; [lia|]. split; [|reflexivity].
    exists 0%nat, 0%nat. split; [reflexivity|]. split; [reflexivity|].
    eexists. exists 0%nat. eexists. exists 0%nat, 8%nat, 0%nat. split; [reflexivity|]. split; [reflexivity|]. split; [reflexivity|].
    do 3 (split; [reflexivity|]). split; [vm_compute; lia|]. split; [left; reflexivity|]. split; [reflexivity|]. split; [reflexivity|].
    split; [intros E; exfalso; apply E; reflexivity|]. split; [lia|]. split; [vm_compute; lia|]. vm_compute. reflexivity.
Qed.
Print Assumptions C93_read_refuted.

(** And the same when it is the library that writes: what is in the file is not
    what was given. *)
Ltac doc_wf :=
  unfold wf_Document, wf_Buffer, wf_Asset, wf_Accessor, wf_BufferView; cbn;
  assert (U : forall s, forallb (fun b => b2z b <? 128) (str_bytes s) = true -> utf8_str s) by exact ascii_utf8;
  repeat first [ exact I | apply wf_ext_nil | apply wa_null | apply Forall_nil | apply Forall_cons | (apply U; reflexivity) | reflexivity
      | (unfold in_i64, range; cbn -[Z.pow Z.opp]; rewrite ?p63; lia) | apply conj ].
Ltac doc_ready := unfold ready, r_buffer, r_accessor, r_bufferView, index; cbn; repeat first [exact I|apply Forall_nil|apply Forall_cons|(cbn; lia)|apply conj].
Definition rgb_doc : Document := match WriteAccessor zero_Document TargetNone s_rgb with Ok (d, _) => d | _ => zero_Document end.
Theorem C93_written_refuted : exists w' fs',
  WriteAccessor zero_Document TargetNone s_rgb = Ok (rgb_doc, 0) /\ wf_slice s_rgb /\ sk s_rgb = SK CUbyte AVec3 /\ els s_rgb = [[1; 2; 3]; [4; 5; 6]] /\
  Encode sample_floats sample_exts go_url true [] [] rgb_doc (mkWriter [] []) (Some no_files) = (Ok tt, w', Some fs') /\
  exists d' a, asset sample_floats sample_exts numeral (fun _ _ => False) (file_reader (cf_files fs')) (wr_out w') [] d' /\
    nth_error (doc_Accessors d') 0 = Some (Some a) /\ acr_ComponentType a = CUbyte /\ acr_Type a = AVec3 /\ gltf_elements d' a [[1; 2; 3]; [0; 4; 5]].
Proof.
  assert (D : exists d, rgb_doc = d /\ wf_Document sample_exts 0 d /\ ready d /\ places (doc_Buffers d) [] /\
    exists a, nth_error (doc_Accessors d) 0 = Some (Some a) /\ acr_ComponentType a = CUbyte /\ acr_Type a = AVec3 /\ gltf_elements d a [[1; 2; 3]; [0; 4; 5]]).
  { eexists. split; [vm_compute; reflexivity|]. split; [|split; [|split]].
    - doc_wf.
    - doc_ready.
    - apply pl_inside; [reflexivity|discriminate|left; reflexivity|constructor].
    - eexists. split; [reflexivity|]. split; [reflexivity|]. split; [reflexivity|].
      split; [reflexivity|]. split; [reflexivity|]. exists 2%nat. eexists. split; [reflexivity|]. split; [lia|]. split; [|reflexivity].
      exists 0%nat, 0%nat. split; [reflexivity|]. split; [reflexivity|].
      eexists. exists 0%nat. eexists. exists 0%nat, 8%nat, 0%nat. split; [reflexivity|]. split; [reflexivity|]. split; [reflexivity|].
      do 3 (split; [reflexivity|]). split; [vm_compute; lia|]. split; [left; reflexivity|]. split; [reflexivity|]. split; [reflexivity|].
      split; [intros E; exfalso; apply E; reflexivity|]. split; [lia|]. split; [vm_compute; lia|]. vm_compute. reflexivity. }
  destruct D as (d & ED & W & R & P & a & A1 & A2 & A3 & A4). rewrite <- ED in *.
  destruct (C93_written_partial sample_floats sample_exts 0 true [] [] rgb_doc (mkWriter [] []) no_files [] sample_float_contract W ltac:(cbn; lia) R (Forall_nil _) (Forall_nil _)
    ltac:(split; [constructor|split; [reflexivity|constructor]]) P (NoDup_nil _)) as (w' & fs' & d' & E & A & CA).
  { assert (B : match marshalJSONDoc sample_floats sample_exts true [] [] rgb_doc with Ok t => glb_size t rgb_doc <? 2 ^ 32 | _ => false end = true) by (vm_compute; reflexivity).
    intros text E _. rewrite E in B. apply Z.ltb_lt. exact B. }
  exists w', fs'. split; [vm_compute; reflexivity|]. split; [exists CUbyte, AVec3; split; [reflexivity|wf_tac]|]. split; [reflexivity|]. split; [reflexivity|]. split; [exact E|].
  destruct (proj1 CA 0%nat a _ A1 A4) as (a2 & Ha2 & G2 & K1 & K2 & _). exists d', a2. split; [exact A|]. split; [exact Ha2|]. split; [congruence|]. split; [congruence|exact G2].
Qed.
Print Assumptions C93_written_refuted.

(** Positions and texture coordinates of bytes, interleaved, in a document that
    already has data, then indices: whoever reads the GLB finds the
    coordinates, and so does the library. *)
Definition vertex_doc : Document := match run_op (doc1 6) (OpInterleaved [s_pos; s_uv]) with Ok d => d | _ => zero_Document end.
Definition mesh_doc : Document := match run_ops vertex_doc [OpIndices s_u16] with Ok d => d | _ => zero_Document end.
Example C93_example : exists w' fs' names d',
  Encode sample_floats sample_exts go_url true [] [] mesh_doc (mkWriter [] []) (Some no_files) = (Ok tt, w', Some fs') /\
  asset sample_floats sample_exts numeral (fun _ _ => False) (file_reader (cf_files fs')) (wr_out w') names d' /\
  (exists a, nth_error (doc_Accessors d') 1 = Some (Some a) /\ gltf_elements d' a [[1; 2]; [3; 255]]) /\
  exists doc a, Decode sample_floats sample_exts go_url (Some (file_reader (cf_files fs'))) zero_Document (NewReader (mkReader [wr_out w'] ErrEOF false)) = ([], Ok doc) /\
    nth_error (doc_Accessors doc) 1 = Some (Some a) /\ ReadAccessor doc a [] fresh_pools = Ok (mkSlice (SK CUbyte AVec2) [[1; 2]; [3; 255]]).
Proof.
  assert (D : exists d, mesh_doc = d /\ wf_Document sample_exts 0 d /\ ready d /\ places (doc_Buffers d) []).
  { eexists. split; [vm_compute; reflexivity|]. split; [|split].
    - doc_wf.
    - doc_ready.
    - apply pl_inside; [reflexivity|discriminate|left; reflexivity|constructor]. }
  destruct D as (d & ED & W & R & P). rewrite <- ED in *.
  assert (WR : writable TargetArrayBuffer [s_pos; s_uv]).
  { refine (conj eq_refl (conj _ (conj _ _))); [vm_compute; lia|repeat constructor; discriminate|]. intros [|[|k]] s c t N K; [| |destruct k; discriminate]; injection N as <-; cbn in K; injection K as <- <-; reflexivity. }
  destruct (C93_modeler_partial sample_floats sample_exts 0 true [] [] (doc1 6) (OpInterleaved [s_pos; s_uv]) vertex_doc [OpIndices s_u16] mesh_doc (mkWriter [] []) no_files []) as (w' & fs' & E & (names & d' & A) & G).
  - vm_compute. reflexivity.
  - do 2 eexists. vm_compute. reflexivity.
  - vm_compute. reflexivity.
  - constructor; [apply s_pos_wf|]. constructor; [apply s_uv_wf|constructor].
  - repeat constructor; discriminate.
  - exact WR.
  - exact sample_float_contract.
  - exact W.
  - cbn; lia.
  - exact R.
  - constructor.
  - constructor.
  - split; [constructor|split; [reflexivity|constructor]].
  - exact P.
  - constructor.
  - assert (B : match marshalJSONDoc sample_floats sample_exts true [] [] mesh_doc with Ok t => glb_size t mesh_doc <? 2 ^ 32 | _ => false end = true) by (vm_compute; reflexivity).
    intros text E _. rewrite E in B. apply Z.ltb_lt. exact B.
  - exists w', fs', names, d'. split; [exact E|]. split; [exact A|]. split.
    + destruct (G _ _ _ _ A 1%nat s_uv eq_refl) as (a & Ha & _ & GE). exists a. split; [exact Ha|exact GE].
    + assert (B : match Encode sample_floats sample_exts go_url true [] [] mesh_doc (mkWriter [] []) (Some no_files) with
        | (Ok tt, w', Some fs') => match Decode sample_floats sample_exts go_url (Some (file_reader (cf_files fs'))) zero_Document (NewReader (mkReader [wr_out w'] ErrEOF false)) with
          | ([], Ok doc) => match nth_error (doc_Accessors doc) 1 with Some (Some a) => ReadAccessor doc a [] fresh_pools = Ok (mkSlice (SK CUbyte AVec2) [[1; 2]; [3; 255]]) | _ => False end
          | _ => False end
        | _ => False end) by (vm_compute; reflexivity).
      rewrite E in B. destruct (Decode _ _ _ _ _ _) as [[|] [doc| |]]; try contradiction.
      exists doc. destruct (nth_error (doc_Accessors doc) 1) as [[a|]|] eqn:EA; try contradiction. exists a. split; [reflexivity|]. split; [reflexivity|exact B].
Qed.
