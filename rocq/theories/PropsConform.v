(** Files that conform to the schema of glTF 2.0: C90. *)
From Verif Require Import Base BaseFacts Types Doc F64 Base64 Url SpecText SpecString JsonText JsonStringProofs ScanSound Codec DocCodec SpecJson SpecJsonDoc
  Binary SpecLayout BinaryProofs SpecDoc ModelerRead ModelerReadProofs ModelerSparseProofs ModelerReadSpecProofs PropsModelerRead
  CodecProofs CodecInv DocCodecBase DocCodecProofs DocInvBase Marshal SpecMarshal MarshalProofs Stream StreamProofs File SpecFile DecodeProofs EncodeProofs PropsJson PropsFile
  SpecSchema SchemaProofs SchemaAccept PropsSchema SpecMeaning MeaningProofs MeaningUnique PropsMeaning ConformProofs.

(** The JSON [v] conforms to the schema, members that it does not define
    aside, and [r] delivers a file with it: text or GLB. *)
Definition conforming (r : reader) (v : json) : Prop :=
  carries (stream r) v /\ (exists n, wf_json n v /\ Z.of_nat n <= 10000) /\
  conforms (fun _ => True) unrelated s_gltf v /\ reads_to_eof r.

Lemma ready_loaded d doc : loaded d doc -> ready d -> ready doc.
Proof.
  intros (bufs & ims & -> & B & M) R. destruct d. unfold ready in *. cbn in *.
  assert (HB : Forall (present r_buffer) doc_Buffers -> Forall (present r_buffer) bufs).
  { clear -B. induction B as [|a b l l' (x & u & bs & -> & ->) B IH]; intros H; constructor; [|exact (IH (Forall_inv_tail H))].
    apply Forall_inv in H. destruct x; exact H. }
  assert (HM : Forall (present r_image) doc_Images -> Forall (present r_image) ims).
  { clear -M. induction M as [|a b l l' (x & u & -> & ->) M IH]; intros H; constructor; [|exact (IH (Forall_inv_tail H))].
    apply Forall_inv in H. destruct x; exact H. }
  tauto.
Qed.

(** The document has what the schema asks for: no null entries, no negative
    indices, offsets or counts, no empty required lists. *)
Theorem C90_ready F X U fsys r v names doc :
  conforming r v -> Decode F X U fsys zero_Document (NewReader r) = (names, Ok doc) -> ready doc.
Proof.
  intros (K & (n & W & D) & C & R) E. destruct (C67_read F X U fsys r names doc n v K W D C R E) as (d & M & L).
  exact (ready_loaded d doc L (gv_gltf F X n v d W C M)).
Qed.
Print Assumptions C90_ready.

(** What Decode finds in the JSON, whatever happens to the buffers. *)
Lemma found F X U fsys r v names isB d b :
  conforming r v -> Decode F X U fsys zero_Document (NewReader r) = (names, Panic) ->
  decodeDocument F X zero_Document (NewReader r) = (Ok (isB, d), b) -> m_gltf F X d v.
Proof.
  intros ((t & rest & T & K) & (n & W & D) & C & R) E DD.
  assert (exists m, v = JObj m) as [m ->] by (inversion C; eexists; reflexivity).
  apply (rd_Document F X n _ _ W C). destruct K as [S|(h & H & S)].
  - pose proof (decodeDocument_text F X zero_Document r R) as Q. rewrite DD in Q. cbn [fst] in Q. rewrite S in Q.
    rewrite (whole_container _ _ n rest T I W D) in Q. cbn [bind] in Q.
    assert (B : header_of (t ++ rest) = None) by (inversion T; subst; apply brace_text). specialize (Q B).
    destruct (dec (c_Document F X) zero_Document (JObj m)) as [y| |]; cbn [bind] in Q; [|discriminate..]. injection Q as -> ->. reflexivity.
  - assert (N : 0 <= ch_Length (gh_JSONHeader h)).
    { unfold header_of in H. destruct (zlen (stream r) <? 20); [discriminate|]. destruct (_ =? _); [|discriminate]. injection H as <-. apply le_val_range. }
    destruct (validateGLBHeader h) as [[]|e|] eqn:V.
    + pose proof (decodeDocument_glb F X zero_Document r h R H V N) as Q. rewrite DD in Q. destruct Q as (Q1 & Q2 & Q3 & _).
      unfold json_chunk in Q3. rewrite S, (whole_container _ _ n rest T I W D) in Q3. cbn [bind] in Q3.
      destruct (dec (c_Document F X) zero_Document (JObj m)) as [y| |]; cbn [bind] in Q3; [|discriminate..]. injection Q3 as _ ->. reflexivity.
    + pose proof (Decode_bad F X U fsys zero_Document r h e R H V) as Q. congruence.
    + unfold validateGLBHeader in V. destruct (_ || _); discriminate.
Qed.

(** Decode does not panic on such files, as long as no buffer is declared
    longer than the address space. *)
Theorem C90_decode_partial F X U fsys r v :
  registry_total X -> conforming r v ->
  (forall d b, m_gltf F X d v -> In (Some b) (doc_Buffers d) -> buf_ByteLength b <= 2 ^ 48) ->
  snd (Decode F X U fsys zero_Document (NewReader r)) <> Panic.
Proof.
  intros RT K L E. destruct (Decode F X U fsys zero_Document (NewReader r)) as [names rr] eqn:DE. cbn [snd] in E. subst rr.
  destruct (C34_safe_partial F X U fsys zero_Document (NewReader r) names RT DE) as (isB & d & b & DD & Q).
  pose proof (found F X U fsys r v names isB d b K DE DD) as M. destruct K as (_ & (n & W & _) & C & _).
  pose proof (gv_gltf F X n v d W C M) as R. unfold ready in R. destruct R as (_ & _ & RB & _ & _ & RI & _). rewrite Forall_forall in RB, RI.
  destruct Q as [Q|[Q|(x & I & Q)]]; [exact (RB _ Q)|exact (RI _ Q)|]. specialize (RB _ I). cbn in RB. unfold r_buffer in RB. specialize (L d x M I). lia.
Qed.
Print Assumptions C90_decode_partial.

(** ** Reading *)
Definition in_memory (d : Document) : Prop :=
  forall b, In (Some b) (doc_Buffers d) -> zlen (buf_Data b) < 2 ^ 63.
(** Buffer views are read or refused, unless the end of the view is not an
    int. *)
Theorem C90_view_partial d v :
  ready d -> In (Some v) (doc_BufferViews d) -> bvw_ByteOffset v + bvw_ByteLength v < 2 ^ 63 -> ReadBufferView d (Some v) <> Panic.
Proof.
  intros R I S. unfold ready in R. destruct R as (_ & _ & RB & RV & _). rewrite Forall_forall in RB, RV. specialize (RV _ I). cbn in RV. destruct RV as (V1 & V2 & V3 & _).
  unfold index in V1. destruct (C17_exact_partial d v V1 V2 ltac:(lia) S) as [(b & _ & _ & E)|(_ & e & E)]; [|rewrite E; discriminate..].
  intros N. apply nth_error_In in N. exact (RB _ N).
Qed.
Print Assumptions C90_view_partial.

(** What the schema does not say about the view of an accessor: the accessor
    starts within it, the sums fit an int, and signed bytes fill it. *)
Definition room (d : Document) (c : ComponentType) (t : AccessorType) (i off count : Z) : Prop :=
  forall v, nth_error (doc_BufferViews d) (Z.to_nat i) = Some (Some v) ->
    bvw_ByteOffset v + bvw_ByteLength v < 2 ^ 63 /\ off <= bvw_ByteLength v /\
    (ct_valid c = true -> at_valid t = true -> fits c t (eff_stride c t (Z.to_nat (bvw_ByteStride v))) (Z.to_nat count)) /\
    (c = CByte /\ t = AScalar -> bvw_ByteLength v - off <= count).
Lemma room_safe d c t i off count : ready d -> in_memory d -> index i -> 0 <= off -> room d c t i off count -> view_safe d c t i off count.
Proof.
  intros R M Hi Ho H. unfold ready in R. destruct R as (_ & _ & RB & RV & _). rewrite Forall_forall in RB, RV. split; [exact Hi|]. intros vo N.
  pose proof (nth_error_In _ _ N) as I. specialize (RV _ I). destruct vo as [v|]; [|destruct RV]. cbn in RV. destruct RV as (V1 & V2 & V3 & V4 & _). unfold index in V1.
  destruct (H v N) as (H1 & H2 & H3 & H4). exists v. split; [reflexivity|]. repeat (split; [first [assumption|lia]|]).
  intros bo NB. pose proof (nth_error_In _ _ NB) as IB. specialize (RB _ IB). destruct bo as [b|]; [|destruct RB]. exists b. split; [reflexivity|exact (M b IB)].
Qed.
Theorem C90_accessor_partial d a buf p :
  ready d -> in_memory d -> In (Some a) (doc_Accessors d) ->
  (buf = [] /\ p_val p = [] \/ ~ (acr_ComponentType a = CUint /\ acr_Type a = AMat3)) ->
  acr_Count a * Z.of_nat (mem_size (acr_ComponentType a) (acr_Type a)) <= max_alloc ->
  (forall i, acr_BufferView a = Some i -> room d (acr_ComponentType a) (acr_Type a) i (acr_ByteOffset a) (acr_Count a)) ->
  (forall sp, acr_Sparse a = Some sp ->
     let si := spa_Indices sp in let sv := spa_Values sp in
     spa_Count sp <= acr_Count a /\ spa_Count sp * 4 <= max_alloc /\
     room d (spi_ComponentType si) AScalar (spi_BufferView si) (spi_ByteOffset si) (spa_Count sp) /\
     room d (acr_ComponentType a) (acr_Type a) (spv_BufferView sv) (spv_ByteOffset sv) (spa_Count sp) /\
     forall idx, ReadIndices d (index_accessor sp) [] [] fresh_pools = Ok idx -> Forall (fun x => 0 <= x < acr_Count a) idx) ->
  ReadAccessor d a buf p <> Panic.
Proof.
  intros R M I HU HC HV HS. pose proof R as R'. unfold ready in R'. destruct R' as (RA & _). rewrite Forall_forall in RA. specialize (RA _ I). cbn in RA.
  destruct RA as (A1 & A2 & A3 & A4). apply C16_no_panic_partial; [exact HU|split; [lia|exact HC]| |].
  - intros i E. rewrite E in A1. exact (room_safe d _ _ i _ _ R M A1 A2 (HV i E)).
  - intros sp E. rewrite E in A4. cbn in A4. destruct A4 as (S1 & S2 & S3 & S4 & S5 & S6). destruct (HS sp E) as (H0 & H00 & H1 & H2 & H3).
    cbv zeta. split; [|split; [split; [lia|nia]|split; [|split; [|exact H3]]]].
    + split; [lia|]. clear -S1 S4 H00. unfold max_alloc in *. destruct (spi_ComponentType (spa_Indices sp)); cbn [mem_size] in *; cbn [In] in S4; try (intuition discriminate); cbn; lia.
    + exact (room_safe d _ _ _ _ _ R M S2 S3 H1).
    + exact (room_safe d _ _ _ _ _ R M S5 S6 H2).
Qed.
Print Assumptions C90_accessor_partial.

(** ** Files that are refused or crash *)
Definition whole_tree (off : string) : json :=
  JObj [("asset", JObj [("version", JStr "2.0")]);
        ("buffers", JArr [JObj [("byteLength", JNum "3"); ("uri", JStr "data:application/octet-stream;base64,YWJj")]]);
        ("bufferViews", JArr [JObj [("buffer", JNum "0"); ("byteLength", JNum "3")]]);
        ("accessors", JArr [JObj [("bufferView", JNum "0"); ("byteOffset", JNum off); ("componentType", JNum "5121"); ("count", JNum "2"); ("type", JStr "SCALAR")]])]%string.
Definition long_tree : json :=
  JObj [("asset", JObj [("version", JStr "2.0")]); ("buffers", JArr [JObj [("byteLength", JNum "281474976710657")]])]%string.
Lemma int_ok lo s n : parse_int s = Some n -> (n = 0 -> s = "0"%string) -> lo <= n -> in_i64 n -> ok (SInt lo) (JNum s).
Proof. intros P Z L I. econstructor; [exact (decimal_of_parse s n P Z)|exact L|exact I]. Qed.
Lemma enumz_ok l s n : parse_int s = Some n -> n <> 0 -> In n l -> ok (SEnumZ l) (JNum s).
Proof. intros P Z I. econstructor; [apply (decimal_of_parse s n P); intros E; destruct (Z E)|exact I]. Qed.
Ltac inp := (left; reflexivity) + (right; inp).
Ltac obj2 := apply cf_obj;
  [ cbn; repeat (apply NoDup_cons; [cbn; intuition discriminate|]); apply NoDup_nil
  | repeat (apply Forall_cons; [solve [eexists; split; [cbn; inp|vm_compute; reflexivity]]|]); apply Forall_nil
  | repeat (apply Forall_cons; [member|]); try apply Forall_nil; cbn [snd] ].
Ltac conf := repeat first
  [ apply cf_str | (eapply int_ok; [vm_compute; reflexivity|first [discriminate|reflexivity]|lia|unfold in_i64; lia])
  | (eapply enumz_ok; [vm_compute; reflexivity|discriminate|cbn; inl]) | (eapply cf_enum; [reflexivity|cbn; inl])
  | (apply cf_list; [cbn; lia|]) | apply Forall_nil | apply Forall_cons | obj2 ].
Lemma whole_tree_ok : ok s_gltf (whole_tree "1") /\ ok s_gltf (whole_tree "4").
Proof. split; unfold whole_tree; conf. Qed.
Lemma long_tree_ok : ok s_gltf long_tree.
Proof. unfold long_tree; conf. Qed.
Definition text_reader (v : json) : reader := mkReader [print_compact v] ErrEOF false.
Lemma text_conforming v : scan start (print_compact v) = Done v [] -> print_compact v <> [] -> ok s_gltf v -> conforming (text_reader v) v.
Proof.
  intros SC NE C. destruct (scan_sound _ _ _ SC) as (_ & _ & _ & _ & _ & W). split; [|split; [|split; [exact C|]]].
  - exists (print_compact v), []. split; [apply print_compact_text|]. left. rewrite app_nil_r. exact (app_nil_r (print_compact v)).
  - exists (Z.to_nat max_depth). split; [exact W|unfold max_depth; lia].
  - split; [repeat constructor; exact NE|reflexivity].
Qed.

(** A conforming GLB makes Decode panic: its buffer is declared to have
    2^48 + 1 bytes, and the chunk is compared with the lowest 32 bits. *)
Definition glb_reader (v : json) : reader :=
  let t := print_compact v ++ repeat (z2b 32) (3 - (List.length (print_compact v) + 3) mod 4) in
  mkReader [str_bytes "glTF" ++ le_bytes 4 2 ++ le_bytes 4 (zlen t + 32) ++ le_bytes 4 (zlen t) ++ str_bytes "JSON" ++ t ++
            le_bytes 4 4 ++ str_bytes "BIN" ++ [z2b 0] ++ str_bytes "abcd"] ErrEOF false.
Theorem C90_decode_refuted :
  exists r v, conforming r v /\ registry_total sample_exts /\
    snd (Decode sample_floats sample_exts sample_url None zero_Document (NewReader r)) = Panic.
Proof.
  exists (glb_reader long_tree), long_tree. split; [|split; [exact sample_registry_total|vm_compute; reflexivity]].
  assert (SC : scan start (print_compact long_tree) = Done long_tree []) by (vm_compute; reflexivity).
  destruct (scan_sound _ _ _ SC) as (_ & _ & _ & _ & _ & W). split; [|split; [|split; [exact long_tree_ok|]]].
  - exists (print_compact long_tree), (repeat (z2b 32) (3 - (List.length (print_compact long_tree) + 3) mod 4)). split; [apply print_compact_text|].
    right. eexists. split; vm_compute; reflexivity.
  - exists (Z.to_nat max_depth). split; [exact W|unfold max_depth; lia].
  - split; [repeat constructor; vm_compute; discriminate|reflexivity].
Qed.
Print Assumptions C90_decode_refuted.

(** A conforming file whose accessor begins behind its view makes ReadAccessor
    panic. *)
Theorem C90_read_refuted :
  exists r v doc a, conforming r v /\ Decode sample_floats sample_exts sample_url None zero_Document (NewReader r) = ([], Ok doc) /\
    In (Some a) (doc_Accessors doc) /\ ReadAccessor doc a [] fresh_pools = Panic.
Proof.
  exists (text_reader (whole_tree "4")), (whole_tree "4"). do 2 eexists. split; [|split; [vm_compute; reflexivity|split; [left; reflexivity|vm_compute; reflexivity]]].
  apply text_conforming; [vm_compute; reflexivity|vm_compute; discriminate|exact (proj2 whole_tree_ok)].
Qed.
Print Assumptions C90_read_refuted.

(** The same file with the accessor within the view is decoded and read; the
    hypotheses of the theorems hold. *)
Example C90_example :
  let r := text_reader (whole_tree "1") in
  conforming r (whole_tree "1") /\
  exists doc a, Decode sample_floats sample_exts sample_url None zero_Document (NewReader r) = ([], Ok doc) /\ in_memory doc /\
    In (Some a) (doc_Accessors doc) /\ acr_BufferView a = Some 0 /\ acr_Sparse a = None /\
    room doc (acr_ComponentType a) (acr_Type a) 0 (acr_ByteOffset a) (acr_Count a) /\
    ReadAccessor doc a [] fresh_pools = Ok (mkSlice (SK CUbyte AScalar) [[98]; [99]]).
Proof.
  cbv zeta. split; [apply text_conforming; [vm_compute; reflexivity|vm_compute; discriminate|exact (proj1 whole_tree_ok)]|].
  do 2 eexists. split; [vm_compute; reflexivity|]. split; [|split; [left; reflexivity|split; [reflexivity|split; [reflexivity|split; [|vm_compute; reflexivity]]]]].
  - intros b [E|[]]. injection E as <-. reflexivity.
  - intros v E. cbn in E. injection E as <-. cbn. split; [lia|]. split; [lia|]. split; [|intros [? ?]; discriminate].
    intros _ _. vm_compute. repeat split; discriminate.
Qed.
