(** Decode into a document that is not empty: what its parts become. *)
From Verif Require Import Base BaseFacts Types Doc F64 Base64 Url SpecText JsonText Codec SpecJson DocCodec Marshal Stream File CodecProofs DocCodecBase DocCodecProofs EncodeProofs Reload DocReload.

Section Params.
Context (F : float_lib) (X : ext_lib) (U : url_lib).

(** What a JSON value does to a whole document. *)
Definition doc_class (f : Document -> Document) : Prop := struct_class (fields_Document F X) (fun _ => tt) f.
Definition buf_class (f : Buffer -> Buffer) : Prop := struct_class (fields_Buffer F X) buf_Data f.
Definition img_class (f : Image -> Image) : Prop := struct_class (fields_Image F X) (fun _ => tt) f.
Lemma document_fields :
  Forall st_field (fields_Document F X) /\ Forall lens (fields_Document F X) /\ ForallOrdPairs indep (fields_Document F X) /\ Forall (keeps (fun _ : Document => tt)) (fields_Document F X).
Proof.
  split; [|split; [lens_tac|split; [indep_tac|keeps_tac]]].
  unfold fields_Document. repeat apply Forall_cons; try apply Forall_nil; cbn [st_field];
    repeat first [apply st_str | apply st_int | apply st_any | apply st_ext | apply st_ptr | apply st_slice
      | apply st_Accessor | apply st_Animation | apply st_Asset | apply st_Buffer | apply st_BufferView | apply st_Camera | apply st_Image | apply st_Material
      | apply st_Mesh | apply st_Node | apply st_Sampler | apply st_Scene | apply st_Skin | apply st_Texture].
Qed.
Lemma document_way j :
  (exists f, doc_class f /\ forall x, dec (c_Document F X) x j = Ok (f x)) \/ (exists e, forall x, dec (c_Document F X) x j = Err e) \/ (forall x, dec (c_Document F X) x j = Panic).
Proof. destruct document_fields as (H1 & H2 & H3 & H4). exact (class_struct (fields_Document F X) (fun _ => tt) H1 H2 H3 H4 j). Qed.
Lemma buffer_class f : act (c_Buffer F X) f -> buf_class f.
Proof.
  apply (class_act (fields_Buffer F X) buf_Data); [|lens_tac|indep_tac|keeps_tac|reflexivity].
  unfold fields_Buffer. repeat apply Forall_cons; try apply Forall_nil; cbn [st_field]; first [apply st_str | apply st_int | apply st_any | apply st_ext].
Qed.
Lemma image_class f : act (c_Image F X) f -> img_class f.
Proof.
  apply (class_act (fields_Image F X) (fun _ => tt)); [|lens_tac|indep_tac|keeps_tac|reflexivity].
  unfold fields_Image. repeat apply Forall_cons; try apply Forall_nil; cbn [st_field]; first [apply st_str | apply st_any | apply st_ext | apply st_ptr; apply st_int].
Qed.

(** The moves of one field. *)
Ltac moves_tac A :=
  repeat match type of A with
  | Forall _ [] => clear A
  | Forall _ (_ :: _) => let H := fresh "M" in pose proof (Forall_inv A) as H; cbn [moves] in H; destruct H as (? & ? & H); apply Forall_inv_tail in A
  end.
Lemma str_flat f : act c_str f -> flat f.
Proof.
  apply act_ind_class; [intros; left; assumption|intros ? a ?; right; exists a; assumption| |exact flat_comp].
  intros j g Hg. cbn [c_str dec] in Hg. destruct (str_of_json j) as [[s|]|e|]; cbn [bind] in Hg; [right; exists s|left| |]; try (intros x; specialize (Hg x); congruence); specialize (Hg ""%string); discriminate.
Qed.
Lemma twice {A} (c : codec A) w x : stable c -> act c w -> w (w x) = w x.
Proof. intros [_ H] W. exact (settles_twice c w H W x). Qed.

(** A buffer that had its URI replaced, but not if it was the old one, and its
    data. *)
Lemma buffer_again v u d z : buf_class v -> (buf_URI (v z) = buf_URI z -> u = buf_URI z) ->
  exists d', v (set_buf_Data d (set_buf_URI u (v z))) = set_buf_Data d' (v z) /\ (d' = d \/ d' = buf_Data (v z)).
Proof.
  intros [M (r & Fr & Mr)] HU. unfold fields_Buffer in M. moves_tac M.
  exists (buf_Data (v (set_buf_Data d (set_buf_URI u (v z))))). split.
  - apply ext_Buffer; cbn [buf_Extensions buf_Extras buf_Name buf_URI buf_ByteLength buf_Data set_buf_Data set_buf_URI]; [| | | | |reflexivity].
    + rewrite M0. cbn [buf_Extensions set_buf_Data set_buf_URI]. rewrite M0. apply (twice (c_ext X)); [apply st_ext|assumption].
    + rewrite M1. cbn [buf_Extras set_buf_Data set_buf_URI]. rewrite M1. apply (twice (c_any F)); [apply st_any|assumption].
    + rewrite M2. cbn [buf_Name set_buf_Data set_buf_URI]. rewrite M2. apply (twice c_str); [apply st_str|assumption].
    + rewrite !M3. cbn [buf_URI set_buf_Data set_buf_URI]. rewrite M3 in HU. match goal with H : act c_str ?w |- ?w u = _ => destruct (str_flat w H) as [E|[a E]] end.
      * rewrite !E in *. exact (HU eq_refl).
      * rewrite !E. reflexivity.
    + rewrite M4. cbn [buf_ByteLength set_buf_Data set_buf_URI]. rewrite M4. apply (twice c_int); [apply st_int|assumption].
  - rewrite Mr. cbn [buf_Data set_buf_Data]. destruct Fr as [E|[a E]]; [left; rewrite E; reflexivity|right; rewrite Mr, !E; reflexivity].
Qed.
Lemma image_again v u z : img_class v -> (img_URI (v z) = img_URI z -> u = img_URI z) ->
  v (set_img_URI u (v z)) = v z.
Proof.
  intros [M _] HU. unfold fields_Image in M. moves_tac M. apply ext_Image.
  - rewrite M0. cbn [img_Extensions set_img_URI]. rewrite M0. apply (twice (c_ext X)); [apply st_ext|assumption].
  - rewrite M1. cbn [img_Extras set_img_URI]. rewrite M1. apply (twice (c_any F)); [apply st_any|assumption].
  - rewrite M2. cbn [img_Name set_img_URI]. rewrite M2. apply (twice c_str); [apply st_str|assumption].
  - rewrite !M3. cbn [img_URI set_img_URI]. rewrite M3 in HU. match goal with H : act c_str ?w |- ?w u = _ => destruct (str_flat w H) as [E|[a E]] end.
    + rewrite !E in *. exact (HU eq_refl).
    + rewrite !E. reflexivity.
  - rewrite M4. cbn [img_MimeType set_img_URI]. rewrite M4. apply (twice c_str); [apply st_str|assumption].
  - rewrite M5. cbn [img_BufferView set_img_URI]. rewrite M5. apply (twice (c_ptr 0 c_int)); [apply st_ptr, st_int|assumption].
Qed.

(** ** Buffers *)
Notation p_Buffer := (c_ptr zero_Buffer (c_Buffer F X)).
Notation p_Image := (c_ptr zero_Image (c_Image F X)).
Definition clean_b (b : Buffer) : Buffer := if buf_IsEmbeddedResource b then b else set_buf_URI (clean_uri U (buf_URI b)) b.
Definition clean_i (im : Image) : Image := if img_IsEmbeddedResource im then im else set_img_URI (clean_uri U (img_URI im)) im.
Definition still_b (o : option Buffer) : Prop := match o with Some b => clean_b b = b | None => True end.
Definition still_i (o : option Image) : Prop := match o with Some im => clean_i im = im | None => True end.
Lemma clean_b_uri b : clean_b b = set_buf_URI (buf_URI (clean_b b)) b.
Proof. unfold clean_b. destruct (buf_IsEmbeddedResource b); destruct b; reflexivity. Qed.
Lemma clean_i_uri b : clean_i b = set_img_URI (img_URI (clean_i b)) b.
Proof. unfold clean_i. destruct (img_IsEmbeddedResource b); destruct b; reflexivity. Qed.
Lemma clean_b_data d b : clean_b (set_buf_Data d b) = set_buf_Data d (clean_b b).
Proof. unfold clean_b. change (buf_IsEmbeddedResource (set_buf_Data d b)) with (buf_IsEmbeddedResource b). destruct (buf_IsEmbeddedResource b); destruct b; reflexivity. Qed.
Lemma clean_b_same b z : buf_URI b = buf_URI z -> clean_b z = z -> buf_URI (clean_b b) = buf_URI z.
Proof.
  intros E S. unfold clean_b in *. assert (EE : buf_IsEmbeddedResource b = buf_IsEmbeddedResource z) by (unfold buf_IsEmbeddedResource; rewrite E; reflexivity).
  rewrite EE. destruct (buf_IsEmbeddedResource z); [exact E|]. cbn [buf_URI set_buf_URI]. rewrite E. apply (f_equal buf_URI) in S. exact S.
Qed.
Lemma clean_i_same b z : img_URI b = img_URI z -> clean_i z = z -> img_URI (clean_i b) = img_URI z.
Proof.
  intros E S. unfold clean_i in *. assert (EE : img_IsEmbeddedResource b = img_IsEmbeddedResource z) by (unfold img_IsEmbeddedResource; rewrite E; reflexivity).
  rewrite EE. destruct (img_IsEmbeddedResource z); [exact E|]. cbn [img_URI set_img_URI]. rewrite E. apply (f_equal img_URI) in S. exact S.
Qed.
Lemma zero_still_b : clean_b zero_Buffer = zero_Buffer.
Proof. reflexivity. Qed.
Lemma zero_still_i : clean_i zero_Image = zero_Image.
Proof. reflexivity. Qed.
Lemma ok_some {A} (a b : A) : Some a = Some b -> a = b.
Proof. congruence. Qed.
Lemma ok_inj1 {A} (a b : A) : Ok a = Ok b -> a = b.
Proof. congruence. Qed.
Lemma clean_all_b l : forall r, mapM (clean_buffer U) l = Ok r -> r = map (option_map clean_b) l /\ Forall (fun o => o <> None) l.
Proof.
  induction l as [|[b|] l IH]; intros r; cbn [mapM]; [intros [= <-]; split; [reflexivity|constructor]| |discriminate].
  cbn [clean_buffer deref bind]. destruct (mapM (clean_buffer U) l) as [r'| |] eqn:E; try discriminate. cbn [bind]. intros G. destruct (IH r' eq_refl) as [-> N]. split; [|constructor; [discriminate|exact N]].
  cbn [map option_map]. symmetry. apply ok_inj1. exact G.
Qed.
Lemma clean_all_i l : forall r, mapM (clean_image U) l = Ok r -> r = map (option_map clean_i) l /\ Forall (fun o => o <> None) l.
Proof.
  induction l as [|[b|] l IH]; intros r; cbn [mapM]; [intros [= <-]; split; [reflexivity|constructor]| |discriminate].
  cbn [clean_image deref bind]. destruct (mapM (clean_image U) l) as [r'| |] eqn:E; try discriminate. cbn [bind]. intros G. destruct (IH r' eq_refl) as [-> N]. split; [|constructor; [discriminate|exact N]].
  cbn [map option_map]. symmetry. apply ok_inj1. exact G.
Qed.
Lemma all_clean_b l : Forall (fun o => o <> None) l -> mapM (clean_buffer U) l = Ok (map (option_map clean_b) l).
Proof. induction 1 as [|[b|] l N _ IH]; [reflexivity| |contradiction]. cbn [mapM clean_buffer deref bind map option_map]. rewrite IH. reflexivity. Qed.
Lemma all_clean_i l : Forall (fun o => o <> None) l -> mapM (clean_image U) l = Ok (map (option_map clean_i) l).
Proof. induction 1 as [|[b|] l N _ IH]; [reflexivity| |contradiction]. cbn [mapM clean_image deref bind map option_map]. rewrite IH. reflexivity. Qed.

(** Three lists of buffers: as given, with data, and with the old or the new data. *)
Definition again1 (o0 o1 o2 : option Buffer) : Prop :=
  match o0, o1, o2 with
  | Some b0, Some b1, Some b2 => exists d d', b1 = set_buf_Data d b0 /\ b2 = set_buf_Data d' b0 /\ (d' = d \/ d' = buf_Data b0)
  | _, _, _ => False
  end.
Fixpoint again (l0 l1 l2 : list (option Buffer)) : Prop :=
  match l0, l1, l2 with
  | [], [], [] => True
  | o0 :: l0, o1 :: l1, o2 :: l2 => again1 o0 o1 o2 /\ again l0 l1 l2
  | _, _, _ => False
  end.
Definition datas (o0 o1 : option Buffer) : Prop := match o0, o1 with Some b0, Some b1 => exists d, b1 = set_buf_Data d b0 | _, _ => False end.
Lemma set_data_data d d' b : set_buf_Data d (set_buf_Data d' b) = set_buf_Data d b.
Proof. destruct b; reflexivity. Qed.
Lemma set_data_same b : set_buf_Data (buf_Data b) b = b.
Proof. destruct b; reflexivity. Qed.
Lemma ok_inj2 {A B} (t t' : A) (a b : B) : (t, Ok a) = (t', Ok b) -> t = t' /\ a = b.
Proof. intros E. split; congruence. Qed.
Lemma decodeBuffer_again fsys b t b1 : decodeBuffer U fsys b = (t, Ok b1) ->
  exists d, b1 = set_buf_Data d b /\ forall d', d' = d \/ d' = buf_Data b -> decodeBuffer U fsys (set_buf_Data d' b) = (t, Ok b1).
Proof.
  unfold decodeBuffer. intros E.
  assert (V : forall d', validateBuffer (set_buf_Data d' b) = validateBuffer b) by reflexivity.
  assert (M : forall d', buf_marshalData (set_buf_Data d' b) = buf_marshalData b) by reflexivity.
  destruct (validateBuffer b); try discriminate. destruct (str_empty (buf_URI b)) eqn:E1; try discriminate. destruct (buf_IsEmbeddedResource b) eqn:E2.
  - destruct (buf_marshalData b) as [d| |] eqn:E3; try discriminate. cbn [bind] in E. apply ok_inj2 in E. destruct E as [<- <-]. exists d. split; [reflexivity|]. intros d' _.
    rewrite V. change (buf_URI (set_buf_Data d' b)) with (buf_URI b). change (buf_IsEmbeddedResource (set_buf_Data d' b)) with (buf_IsEmbeddedResource b). rewrite E1, E2, M. cbn [bind]. rewrite set_data_data. reflexivity.
  - destruct (validateBufferURI U (str_bytes (buf_URI b))) eqn:E3; try discriminate. destruct fsys as [rf|].
    + cbv zeta in E. destruct (rf (str_bytes (buf_URI b))) as [dd ee] eqn:E4.
      destruct (if buf_ByteLength b <? zlen dd then _ else _) as [d2| |] eqn:E5; try discriminate. cbn [bind] in E. destruct ee; try discriminate. apply ok_inj2 in E. destruct E as [<- <-].
      exists d2. split; [reflexivity|]. intros d' _. rewrite V. change (buf_URI (set_buf_Data d' b)) with (buf_URI b). change (buf_IsEmbeddedResource (set_buf_Data d' b)) with (buf_IsEmbeddedResource b).
      change (buf_ByteLength (set_buf_Data d' b)) with (buf_ByteLength b). rewrite E1, E2, E3. cbv zeta. rewrite E4, E5. cbn [bind]. rewrite set_data_data. reflexivity.
    + apply ok_inj2 in E. destruct E as [<- <-]. exists (buf_Data b). split; [symmetry; apply set_data_same|]. intros d' D. assert (d' = buf_Data b) as -> by (destruct D; assumption). rewrite set_data_same.
      specialize (V (buf_Data b)). rewrite set_data_same in V. rewrite V, E1, E2, E3. reflexivity.
Qed.
Lemma decodeBuffers_again fsys l : forall t l1, decodeBuffers U fsys l = (t, Ok l1) ->
  Forall2 datas l l1 /\ forall l2, again l l1 l2 -> decodeBuffers U fsys l2 = (t, Ok l1).
Proof.
  induction l as [|[b|] l IH]; intros t l1; cbn [decodeBuffers].
  - intros E. apply ok_inj2 in E. destruct E as [<- <-]. split; [constructor|]. intros [|o2 l2]; [reflexivity|contradiction].
  - destruct (decodeBuffer U fsys b) as [t0 [b1| |]] eqn:E0; try discriminate. destruct (decodeBuffers U fsys l) as [t' [l1'| |]]; try discriminate. cbn [bind]. intros E. apply ok_inj2 in E. destruct E as [<- <-].
    destruct (IH t' l1' eq_refl) as [D1 D2]. destruct (decodeBuffer_again fsys b t0 b1 E0) as (d & -> & R). split; [constructor; [exists d; reflexivity|exact D1]|].
    intros [|[b2|] l2]; cbn [again again1]; try tauto. intros [(d0 & d' & Ed & -> & O) A]. cbn [decodeBuffers].
    assert (R' : decodeBuffer U fsys (set_buf_Data d' b) = (t0, Ok (set_buf_Data d b))).
    { apply R. destruct O as [->|O]; [left|right; exact O]. apply (f_equal buf_Data) in Ed. symmetry. exact Ed. }
    rewrite R', (D2 l2 A). reflexivity.
  - discriminate.
Qed.
Lemma decodeBinaryBuffer_again b s b1 : fst (decodeBinaryBuffer b s) = Ok b1 ->
  exists d, b1 = set_buf_Data d b /\ forall d', fst (decodeBinaryBuffer (set_buf_Data d' b) s) = Ok b1.
Proof.
  unfold decodeBinaryBuffer. intros E. change (forall d', validateBuffer (set_buf_Data d' b) = validateBuffer b) with (forall d' : bytes, validateBuffer b = validateBuffer b) in *.
  assert (V : forall d', validateBuffer (set_buf_Data d' b) = validateBuffer b) by reflexivity. destruct (validateBuffer b); try discriminate.
  destruct (read_chunkHeader s) as [[h| |] s1] eqn:E1; try discriminate.
  destruct (negb (ch_Type h =? glbChunkBIN) || (ch_Length h <? u32 (buf_ByteLength b))) eqn:E2; try discriminate. destruct (negb (make_ok (buf_ByteLength b))) eqn:E3; try discriminate.
  destruct (ReadFull (buf_ByteLength b) s1) as [[d| |] s2] eqn:E4; try discriminate. cbn [bind fst] in E. apply ok_inj1 in E. subst b1. exists d. split; [reflexivity|]. intros d'.
  rewrite V. change (buf_ByteLength (set_buf_Data d' b)) with (buf_ByteLength b). rewrite E2, E3, E4. cbn [bind fst]. rewrite set_data_data. reflexivity.
Qed.
Lemma load_again fsys bin l s t l1 : load_buffers U fsys bin l s = (t, Ok l1) ->
  Forall2 datas l l1 /\ forall l2, again l l1 l2 -> load_buffers U fsys bin l2 s = (t, Ok l1).
Proof.
  intros E.
  assert (P : load_buffers U fsys bin l s = decodeBuffers U fsys l -> (forall l2, again l l1 l2 -> load_buffers U fsys bin l2 s = decodeBuffers U fsys l2) ->
    Forall2 datas l l1 /\ forall l2, again l l1 l2 -> load_buffers U fsys bin l2 s = (t, Ok l1)).
  { intros P1 P2. rewrite P1 in E. destruct (decodeBuffers_again fsys l t l1 E) as [D1 D2]. split; [exact D1|]. intros l2 A. rewrite (P2 l2 A). exact (D2 l2 A). }
  destruct l as [|[b|] l]; [apply P; [reflexivity|]; intros [|]; [reflexivity|destruct l1; contradiction]| |discriminate].
  destruct (bin && str_empty (buf_URI b)) eqn:EB.
  - cbn [load_buffers] in E. rewrite EB in E. destruct (fst (decodeBinaryBuffer b s)) as [b1| |] eqn:E0; try discriminate.
    destruct (decodeBuffers U fsys l) as [t' [l1'| |]] eqn:E1; try discriminate. cbn [bind] in E. apply ok_inj2 in E. destruct E as [<- <-].
    destruct (decodeBinaryBuffer_again b s b1 E0) as (d & -> & R). destruct (decodeBuffers_again fsys l t' l1' E1) as [D1 D2]. split; [constructor; [exists d; reflexivity|exact D1]|].
    intros [|[b2|] l2]; cbn [again again1]; try tauto. intros [(d0 & d' & _ & -> & _) A]. cbn [load_buffers]. change (buf_URI (set_buf_Data d' b)) with (buf_URI b). rewrite EB, R, (D2 l2 A). reflexivity.
  - apply P; [cbn [load_buffers]; rewrite EB; reflexivity|]. intros [|[b2|] l2]; destruct l1 as [|[b1|] l1]; cbn [again again1]; try tauto. intros [(d0 & d' & _ & -> & _) _]. cbn [load_buffers].
    change (buf_URI (set_buf_Data d' b)) with (buf_URI b). rewrite EB. reflexivity.
Qed.

(** ** What a value does to the buffers and images it made *)
Lemma again_data l0 l1 : Forall2 datas l0 l1 -> again l0 l1 l0 /\ again l0 l1 l1.
Proof.
  induction 1 as [|[b0|] [b1|] l0 l1 D _ [IH1 IH2]]; try contradiction; [split; exact I|]. destruct D as [d ->]. split; (split; [|assumption]); cbn [again1].
  - exists d, (buf_Data b0). split; [reflexivity|]. split; [symmetry; apply set_data_same|right; reflexivity].
  - exists d, d. split; [reflexivity|]. split; [reflexivity|left; reflexivity].
Qed.
Lemma ptr_buffer_again w o b0 d : act p_Buffer w -> still_b o -> w o = Some b0 ->
  exists b2, w (Some (set_buf_Data d (clean_b b0))) = Some b2 /\ again1 (Some (clean_b b0)) (Some (set_buf_Data d (clean_b b0))) (Some (clean_b b2)).
Proof.
  intros W S E. destruct (ptr_act zero_Buffer (c_Buffer F X) (st_Buffer F X) w W) as [C|[[a C]|(v & V & C)]].
  - rewrite C in E. subst o. cbn [still_b] in S. rewrite C, S. eexists. split; [reflexivity|]. rewrite clean_b_data, S. exists d, d. split; [reflexivity|]. split; [reflexivity|left; reflexivity].
  - rewrite C in *. subst a. eexists. split; [reflexivity|]. exists d, (buf_Data (clean_b b0)). split; [reflexivity|]. split; [symmetry; apply set_data_same|right; reflexivity].
  - rewrite C in *. apply ok_some in E. assert (Z : clean_b (or_zero zero_Buffer o) = or_zero zero_Buffer o) by (destruct o; [exact S|exact zero_still_b]).
    set (z := or_zero zero_Buffer o) in *. subst b0. cbn [or_zero].
    destruct (buffer_again v (buf_URI (clean_b (v z))) d z (buffer_class v V) (fun E => clean_b_same _ _ E Z)) as (d' & Q & O). rewrite <- clean_b_uri in Q. rewrite Q.
    eexists. split; [reflexivity|]. rewrite clean_b_data. exists d, d'. split; [reflexivity|]. split; [reflexivity|]. destruct O as [O|O]; [left; exact O|right]. rewrite O. unfold clean_b. destruct (buf_IsEmbeddedResource _); reflexivity.
Qed.
Lemma elems_buffers_again ws : forall l l1, Forall (act p_Buffer) ws -> Forall still_b l -> Forall (fun o => o <> None) (elems None ws l) ->
  Forall2 datas (map (option_map clean_b) (elems None ws l)) l1 ->
  Forall (fun o => o <> None) (elems None ws l1) /\ again (map (option_map clean_b) (elems None ws l)) l1 (map (option_map clean_b) (elems None ws l1)).
Proof.
  induction ws as [|w ws IH]; intros l l1 W S N D; cbn [elems map] in *.
  - inversion D; subst. split; [constructor|exact I].
  - inversion D as [|x o1 y l1' D1 D2]; subst. cbn [elems map again]. pose proof (Forall_inv N) as N0. destruct (w match l with a :: _ => a | [] => None end) as [b0|] eqn:E; [|contradiction].
    destruct o1 as [b1|]; [|contradiction]. destruct D1 as [d ->].
    destruct (ptr_buffer_again w _ b0 d (Forall_inv W) (match S in Forall _ l return still_b (match l with a :: _ => a | [] => None end) with Forall_nil _ => I | Forall_cons _ h _ => h end) E) as (b2 & -> & A).
    assert (S' : Forall still_b (match l with _ :: l' => l' | [] => [] end)) by (destruct S; [constructor|assumption]).
    destruct (IH _ _ (Forall_inv_tail W) S' (Forall_inv_tail N) D2) as [N' A']. split; [constructor; [discriminate|exact N']|]. split; [exact A|exact A'].
Qed.
Lemma buffers_again w l l1 : act (c_slice None p_Buffer) w -> Forall still_b l -> Forall (fun o => o <> None) (w l) ->
  Forall2 datas (map (option_map clean_b) (w l)) l1 -> Forall (fun o => o <> None) (w l1) /\ again (map (option_map clean_b) (w l)) l1 (map (option_map clean_b) (w l1)).
Proof.
  intros W S N D. destruct (slice_act None p_Buffer w (st_ptr _ _ (st_Buffer F X)) W) as [C|[[a C]|(ws & V & C)]].
  - rewrite C in *. rewrite !C.
    assert (SS : map (option_map clean_b) l = l).
    { clear -S. induction S as [|[b|] l H _ IH]; [reflexivity| |]; cbn [map option_map]; rewrite IH; [rewrite H|]; reflexivity. }
    rewrite SS in *.
    assert (S1 : map (option_map clean_b) l1 = l1 /\ Forall (fun o => o <> None) l1).
    { clear -S D. revert S. induction D as [|[b|] [b1|] l l1 H _ IH]; intros S; try contradiction; [split; [reflexivity|constructor]|]. destruct H as [d ->]. destruct (IH (Forall_inv_tail S)) as [I1 I2].
      split; [|constructor; [discriminate|exact I2]]. cbn [map option_map]. rewrite I1, clean_b_data. pose proof (Forall_inv S) as H. cbn [still_b] in H. rewrite H. reflexivity. }
    destruct S1 as [-> S2]. split; [exact S2|]. apply again_data. exact D.
  - rewrite C in *. rewrite !C. split; [exact N|]. apply again_data. exact D.
  - rewrite C in *. rewrite !C. exact (elems_buffers_again ws l l1 V S N D).
Qed.
Lemma ptr_image_again w o i0 : act p_Image w -> still_i o -> w o = Some i0 -> option_map clean_i (w (Some (clean_i i0))) = Some (clean_i i0).
Proof.
  intros W S E. destruct (ptr_act zero_Image (c_Image F X) (st_Image F X) w W) as [C|[[a C]|(v & V & C)]].
  - rewrite C in *. subst o. cbn [still_i] in S. cbn [option_map]. rewrite !S. reflexivity.
  - rewrite C in *. subst a. reflexivity.
  - rewrite C in *. apply ok_some in E. assert (Z : clean_i (or_zero zero_Image o) = or_zero zero_Image o) by (destruct o; [exact S|exact zero_still_i]).
    set (z := or_zero zero_Image o) in *. subst i0. cbn [or_zero option_map]. f_equal. f_equal.
    pose proof (image_again v (img_URI (clean_i (v z))) z (image_class v V) (fun E => clean_i_same _ _ E Z)) as Q. rewrite <- clean_i_uri in Q. exact Q.
Qed.
Lemma images_again w l : act (c_slice None p_Image) w -> Forall still_i l -> Forall (fun o => o <> None) (w l) ->
  Forall (fun o => o <> None) (w (map (option_map clean_i) (w l))) /\ map (option_map clean_i) (w (map (option_map clean_i) (w l))) = map (option_map clean_i) (w l).
Proof.
  intros W S N. destruct (slice_act None p_Image w (st_ptr _ _ (st_Image F X)) W) as [C|[[a C]|(ws & V & C)]].
  - rewrite !C in *. assert (SS : map (option_map clean_i) l = l).
    { clear -S. induction S as [|[b|] l H _ IH]; [reflexivity| |]; cbn [map option_map]; rewrite IH; [rewrite H|]; reflexivity. }
    rewrite !SS. split; [exact N|reflexivity].
  - rewrite !C in *. split; [exact N|reflexivity].
  - rewrite !C in *. clear C. revert l S N. induction V as [|u us Hu _ IH]; intros l S N; [split; [constructor|reflexivity]|]. cbn [elems map] in *. pose proof (Forall_inv N) as N0.
    destruct (u match l with a :: _ => a | [] => None end) as [i0|] eqn:E; [|contradiction].
    assert (S' : Forall still_i (match l with _ :: l' => l' | [] => [] end)) by (destruct S; [constructor|assumption]).
    destruct (IH _ S' (Forall_inv_tail N)) as [I1 I2].
    pose proof (ptr_image_again u _ i0 Hu (match S in Forall _ l return still_i (match l with a :: _ => a | [] => None end) with Forall_nil _ => I | Forall_cons _ h _ => h end) E) as P.
    cbn [option_map]. rewrite I2, P. split; [constructor; [|exact I1]|reflexivity]. intros Q. rewrite Q in P. discriminate.
Qed.

(** ** Documents *)
Lemma doc_again f bufs ims x : doc_class f ->
  let y := set_doc_Images ims (set_doc_Buffers bufs (f x)) in f y = set_doc_Images (doc_Images (f y)) (set_doc_Buffers (doc_Buffers (f y)) (f x)).
Proof.
  intros [M _] y. subst y. unfold fields_Document in M. moves_tac M.
  Ltac same := match goal with M : forall x, ?g (?f x) = ?w (?g x), W : act ?c ?w |- ?g (?f ?y) = ?r =>
    change r with (g (f x)); rewrite (M y); change (g y) with (g (f x)); rewrite (M x); apply (twice c); [|exact W];
    repeat first [apply st_str | apply st_int | apply st_any | apply st_ext | apply st_ptr | apply st_slice
      | apply st_Accessor | apply st_Animation | apply st_Asset | apply st_Buffer | apply st_BufferView | apply st_Camera | apply st_Image | apply st_Material
      | apply st_Mesh | apply st_Node | apply st_Sampler | apply st_Scene | apply st_Skin | apply st_Texture] end.
  apply ext_Document; first [reflexivity | same].
Qed.
Lemma document_buffers f : doc_class f -> exists wb wi, act (c_slice None p_Buffer) wb /\ act (c_slice None p_Image) wi /\
  (forall x, doc_Buffers (f x) = wb (doc_Buffers x)) /\ (forall x, doc_Images (f x) = wi (doc_Images x)).
Proof. intros [M _]. unfold fields_Document in M. moves_tac M. do 2 eexists. split; [|split; [|split; [exact M7|exact M10]]]; assumption. Qed.
Lemma set_parts i b i' b' d : set_doc_Images i (set_doc_Buffers b (set_doc_Images i' (set_doc_Buffers b' d))) = set_doc_Images i (set_doc_Buffers b d).
Proof. destruct d; reflexivity. Qed.
Lemma decode_again fsys old b t y : Forall still_b (doc_Buffers old) -> Forall still_i (doc_Images old) ->
  Decode F X U fsys old b = (t, Ok y) -> Decode F X U fsys y b = (t, Ok y).
Proof.
  intros SB SI. unfold Decode, decodeDocument. destruct (readGLBHeader b) as [[h| |] b1]; try discriminate. cbv zeta.
  destruct (read_json _) as [v s]. destruct v as [v| |]; try discriminate. cbn [bind].
  destruct (document_way v) as [(f & Cf & E)|[[e E]|E]]; rewrite !E; try discriminate. cbn [bind].
  destruct (document_buffers f Cf) as (wb & wi & Wb & Wi & Eb & Ei).
  destruct (mapM (clean_buffer U) (doc_Buffers (f old))) as [bufs| |] eqn:E1; destruct (mapM (clean_image U) (doc_Images (f old))) as [ims| |] eqn:E2; try discriminate.
  destruct (load_buffers U fsys _ bufs (src_buf s)) as [t0 [bufs1| |]] eqn:E3; try discriminate. cbn [bind]. intros Q. apply ok_inj2 in Q. destruct Q as [<- <-].
  apply clean_all_b in E1. destruct E1 as [-> N1]. apply clean_all_i in E2. destruct E2 as [-> N2]. rewrite Eb in N1, E3. rewrite Ei in N2.
  destruct (load_again _ _ _ _ _ _ E3) as [D R].
  destruct (buffers_again wb (doc_Buffers old) bufs1 Wb SB N1 D) as [N3 A]. destruct (images_again wi (doc_Images old) Wi SI N2) as [N4 A4].
  pose proof (doc_again f bufs1 (map (option_map clean_i) (doc_Images (f old))) old Cf) as DA. cbv zeta in DA.
  set (y := set_doc_Images _ (set_doc_Buffers bufs1 (f old))) in *.
  assert (Yb : doc_Buffers (f y) = wb bufs1) by (rewrite Eb; reflexivity).
  assert (Yi : doc_Images (f y) = wi (map (option_map clean_i) (wi (doc_Images old)))) by (rewrite Ei; unfold y; cbn [doc_Images set_doc_Images]; rewrite Ei; reflexivity).
  rewrite Yb, Yi, (all_clean_b _ N3), (all_clean_i _ N4), A4, (R _ A). cbn [bind]. rewrite DA, set_parts. unfold y. rewrite (Ei old). reflexivity.
Qed.
(** The outcome does not depend on the rest of the document. *)
Lemma decode_depends fsys old old' b : doc_Buffers old = doc_Buffers old' -> doc_Images old = doc_Images old' ->
  fst (Decode F X U fsys old b) = fst (Decode F X U fsys old' b) /\
  match snd (Decode F X U fsys old b), snd (Decode F X U fsys old' b) with
  | Ok y, Ok y' => doc_Buffers y = doc_Buffers y' /\ doc_Images y = doc_Images y'
  | Err e, Err e' => e = e'
  | Panic, Panic => True
  | _, _ => False
  end.
Proof.
  intros HB HI. unfold Decode, decodeDocument. destruct (readGLBHeader b) as [[h| |] b1]; [|split; reflexivity|split; [reflexivity|exact I]]. cbv zeta.
  destruct (read_json _) as [v s]. destruct v as [v| |]; [|split; reflexivity|split; [reflexivity|exact I]]. cbn [bind].
  destruct (document_way v) as [(f & Cf & E)|[[e E]|E]]; rewrite !E; [|split; reflexivity|split; [reflexivity|exact I]]. cbn [bind].
  destruct (document_buffers f Cf) as (wb & wi & _ & _ & Eb & Ei). rewrite !Eb, !Ei, HB, HI.
  destruct (mapM (clean_buffer U) (wb (doc_Buffers old'))) as [bufs|eb|]; destruct (mapM (clean_image U) (wi (doc_Images old'))) as [ims|ei|]; try (split; [reflexivity|first [reflexivity|exact I]]).
  destruct (load_buffers U fsys _ bufs (src_buf s)) as [t0 [bufs1| |]]; cbn [bind fst snd]; (split; [reflexivity|]); [split; reflexivity|reflexivity|exact I].
Qed.
End Params.
