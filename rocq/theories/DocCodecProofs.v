(** JSON round trips of the document types.  GENERATED by
    tools/gen_codec.py; do not edit. *)
From Verif Require Import Base BaseFacts Types Doc F64 SpecText JsonText Codec DocCodec SpecJson SpecJsonDoc CodecProofs DocCodecBase.

Section Params.
Context (F : float_lib) (X : ext_lib) (HF : float_contract F) (n : nat).

Lemma ext_Asset y z : ast_Extensions y = ast_Extensions z -> ast_Extras y = ast_Extras z -> ast_Copyright y = ast_Copyright z -> ast_Generator y = ast_Generator z -> ast_Version y = ast_Version z -> ast_MinVersion y = ast_MinVersion z -> y = z.
Proof. destruct y, z; cbn; intros; subst; reflexivity. Qed.
Lemma fields_rt_fields_Asset x : wf_Asset X n x -> ast_Version x <> ""%string -> forall pre, Forall (skipped (fields_Asset F X) (n + 1)) pre ->
  exists m, enc_fields (fields_Asset F X) x = Ok m /\ wf_json (n + 2) (JObj (pre ++ m)) /\
    dec_struct (fields_Asset F X) default_Asset (JObj (pre ++ m)) = Ok (norm_Asset X x).
Proof.
  intros W NV. unfold wf_Asset in W. decompose [and] W.
  replace (n + 2)%nat with (S (n + 1)) by lia.
  apply rt_fields.
  - plain_tac.
  - lens_tac.
  - indep_tac.
  - repeat apply Forall_cons; [..|apply Forall_nil].
    + apply (fspec_intro _ _ _ _ _ _ _ _ _ (wf_ext X n) (norm_ext X)); [apply (rt_mono _ (S n)); [apply rt_ext|lia]|field_tac|omit_tac].
    + apply (fspec_intro _ _ _ _ _ _ _ _ _ (wf_any n) (fun v => v)); [apply (rt_mono _ n); [apply rt_any; exact HF|lia]|field_tac|omit_tac].
    + apply (fspec_intro _ _ _ _ _ _ _ _ _ (utf8_str) (fun v => v)); [apply (rt_mono _ n); [apply rt_str|lia]|field_tac|omit_tac].
    + apply (fspec_intro _ _ _ _ _ _ _ _ _ (utf8_str) (fun v => v)); [apply (rt_mono _ n); [apply rt_str|lia]|field_tac|omit_tac].
    + apply (fspec_intro _ _ _ _ _ _ _ _ _ (utf8_str) (fun v => v)); [apply (rt_mono _ n); [apply rt_str|lia]|field_tac|omit_tac].
    + apply (fspec_intro _ _ _ _ _ _ _ _ _ (utf8_str) (fun v => v)); [apply (rt_mono _ n); [apply rt_str|lia]|field_tac|omit_tac].
  - intros y A K. unfold fields_Asset in A, K. agree_tac A. apply ext_Asset; try assumption.
Qed.
Lemma fields_rt_out_Asset x : wf_Asset X n x -> ast_Version x <> ""%string -> forall pre, Forall (skipped (fields_Asset F X) (n + 1)) pre ->
  exists m, enc_fields (out_Asset F X) x = Ok m /\ wf_json (n + 2) (JObj (pre ++ m)) /\
    dec_struct (fields_Asset F X) default_Asset (JObj (pre ++ m)) = Ok (norm_Asset X x).
Proof.
  intros W NV. unfold wf_Asset in W. decompose [and] W.
  replace (n + 2)%nat with (S (n + 1)) by lia.
  apply rt_fields.
  - plain_tac.
  - lens_tac.
  - indep_tac.
  - repeat apply Forall_cons; [..|apply Forall_nil].
    + apply (fspec_intro _ _ _ _ _ _ _ _ _ (utf8_str) (fun v => v)); [apply (rt_mono _ n); [apply rt_str|lia]|field_tac|omit_tac].
    + apply (fspec_intro _ _ _ _ _ _ _ _ _ (wf_ext X n) (norm_ext X)); [apply (rt_mono _ (S n)); [apply rt_ext|lia]|field_tac|omit_tac].
    + apply (fspec_intro _ _ _ _ _ _ _ _ _ (wf_any n) (fun v => v)); [apply (rt_mono _ n); [apply rt_any; exact HF|lia]|field_tac|omit_tac].
    + apply (fspec_intro _ _ _ _ _ _ _ _ _ (utf8_str) (fun v => v)); [apply (rt_mono _ n); [apply rt_str|lia]|field_tac|omit_tac].
    + apply (fspec_intro _ _ _ _ _ _ _ _ _ (utf8_str) (fun v => v)); [apply (rt_mono _ n); [apply rt_str|lia]|field_tac|omit_tac].
    + apply (fspec_intro _ _ _ _ _ _ _ _ _ (utf8_str) (fun v => v)); [apply (rt_mono _ n); [apply rt_str|lia]|field_tac|omit_tac].
  - intros y A K. unfold out_Asset in A, K. agree_tac A. apply ext_Asset; try assumption.
Qed.
Lemma rt_Asset : forall old, rt (c_Asset F X) (n + 2) old (wf_Asset X n) (norm_Asset X).
Proof.
  intros old x W. cbn [c_Asset enc dec]. unfold enc_Asset. destruct (str_empty (ast_Version x)) eqn:E.
  - apply String.eqb_eq in E.
    destruct (fields_rt_out_Asset (set_ast_Version "2.0" x)) with (pre := @nil (string * json)) as (m & Em & Wm & Dm).
    + unfold wf_Asset in *. cbn. decompose [and] W. repeat (split; [first [assumption | apply ascii_utf8; reflexivity]|]); assumption.
    + discriminate.
    + apply Forall_nil.
    + exists (JObj m). unfold enc_struct. rewrite Em. split; [reflexivity|]. split; [exact Wm|].
      cbn [app] in Dm. rewrite Dm. f_equal. destruct x; cbn in *; subst; reflexivity.
  - apply String.eqb_neq in E.
    destruct (fields_rt_fields_Asset x W E [] (Forall_nil _)) as (m & Em & Wm & Dm).
    exists (JObj m). unfold enc_struct. rewrite Em. split; [reflexivity|]. split; [exact Wm|exact Dm].
Qed.
Lemma rt_ptr_Asset : forall old, rt (c_ptr zero_Asset (c_Asset F X)) (n + 2) old (opt (wf_Asset X n)) (option_map (norm_Asset X)).
Proof.
  intros old. apply rt_ptr.
  - intros o Ho. apply rt_Asset.
  - intros x j W E. cbn in E. unfold enc_Asset in E. destruct (str_empty (ast_Version x)); exact (enc_struct_nonnull _ _ _ E).
Qed.

Lemma ext_SparseValues y z : spv_Extensions y = spv_Extensions z -> spv_Extras y = spv_Extras z -> spv_BufferView y = spv_BufferView z -> spv_ByteOffset y = spv_ByteOffset z -> y = z.
Proof. destruct y, z; cbn; intros; subst; reflexivity. Qed.
Lemma fields_rt_fields_SparseValues x : wf_SparseValues X n x -> forall pre, Forall (skipped (fields_SparseValues F X) (n + 1)) pre ->
  exists m, enc_fields (fields_SparseValues F X) x = Ok m /\ wf_json (n + 2) (JObj (pre ++ m)) /\
    dec_struct (fields_SparseValues F X) zero_SparseValues (JObj (pre ++ m)) = Ok (norm_SparseValues X x).
Proof.
  intros W. unfold wf_SparseValues in W. decompose [and] W.
  replace (n + 2)%nat with (S (n + 1)) by lia.
  apply rt_fields.
  - plain_tac.
  - lens_tac.
  - indep_tac.
  - repeat apply Forall_cons; [..|apply Forall_nil].
    + apply (fspec_intro _ _ _ _ _ _ _ _ _ (wf_ext X n) (norm_ext X)); [apply (rt_mono _ (S n)); [apply rt_ext|lia]|field_tac|omit_tac].
    + apply (fspec_intro _ _ _ _ _ _ _ _ _ (wf_any n) (fun v => v)); [apply (rt_mono _ n); [apply rt_any; exact HF|lia]|field_tac|omit_tac].
    + apply (fspec_intro _ _ _ _ _ _ _ _ _ (in_i64) (fun v => v)); [apply (rt_mono _ n); [apply rt_int|lia]|field_tac|omit_tac].
    + apply (fspec_intro _ _ _ _ _ _ _ _ _ (in_i64) (fun v => v)); [apply (rt_mono _ n); [apply rt_int|lia]|field_tac|omit_tac].
  - intros y A K. unfold fields_SparseValues in A, K. agree_tac A. apply ext_SparseValues; try assumption.
Qed.
Lemma rt_SparseValues : forall old, old = zero_SparseValues -> rt (c_SparseValues F X) (n + 2) old (wf_SparseValues X n) (norm_SparseValues X).
Proof.
  intros old -> x W. destruct (fields_rt_fields_SparseValues x W [] (Forall_nil _)) as (m & Em & Wm & Dm).
  exists (JObj m). cbn [c_SparseValues c_struct enc dec]. unfold enc_struct. rewrite Em. split; [reflexivity|]. split; [exact Wm|exact Dm].
Qed.
Lemma rt_ptr_SparseValues : forall old, old = None -> rt (c_ptr zero_SparseValues (c_SparseValues F X)) (n + 2) old (opt (wf_SparseValues X n)) (option_map (norm_SparseValues X)).
Proof.
  intros old ->. apply rt_ptr.
  - intros o Ho. apply rt_SparseValues. destruct Ho as [Ho|[_ Ho]]; [discriminate|exact Ho].
  - intros x j W E. exact (enc_struct_nonnull _ _ _ E).
Qed.

Lemma ext_SparseIndices y z : spi_Extensions y = spi_Extensions z -> spi_Extras y = spi_Extras z -> spi_BufferView y = spi_BufferView z -> spi_ByteOffset y = spi_ByteOffset z -> spi_ComponentType y = spi_ComponentType z -> y = z.
Proof. destruct y, z; cbn; intros; subst; reflexivity. Qed.
Lemma fields_rt_fields_SparseIndices x : wf_SparseIndices X n x -> forall pre, Forall (skipped (fields_SparseIndices F X) (n + 1)) pre ->
  exists m, enc_fields (fields_SparseIndices F X) x = Ok m /\ wf_json (n + 2) (JObj (pre ++ m)) /\
    dec_struct (fields_SparseIndices F X) zero_SparseIndices (JObj (pre ++ m)) = Ok (norm_SparseIndices X x).
Proof.
  intros W. unfold wf_SparseIndices in W. decompose [and] W.
  replace (n + 2)%nat with (S (n + 1)) by lia.
  apply rt_fields.
  - plain_tac.
  - lens_tac.
  - indep_tac.
  - repeat apply Forall_cons; [..|apply Forall_nil].
    + apply (fspec_intro _ _ _ _ _ _ _ _ _ (wf_ext X n) (norm_ext X)); [apply (rt_mono _ (S n)); [apply rt_ext|lia]|field_tac|omit_tac].
    + apply (fspec_intro _ _ _ _ _ _ _ _ _ (wf_any n) (fun v => v)); [apply (rt_mono _ n); [apply rt_any; exact HF|lia]|field_tac|omit_tac].
    + apply (fspec_intro _ _ _ _ _ _ _ _ _ (in_i64) (fun v => v)); [apply (rt_mono _ n); [apply rt_int|lia]|field_tac|omit_tac].
    + apply (fspec_intro _ _ _ _ _ _ _ _ _ (in_i64) (fun v => v)); [apply (rt_mono _ n); [apply rt_int|lia]|field_tac|omit_tac].
    + apply (fspec_intro _ _ _ _ _ _ _ _ _ ((fun v => ct_valid v = true)) (fun v => v)); [apply (rt_mono _ n); [apply rt_ct|lia]|field_tac|omit_tac].
  - intros y A K. unfold fields_SparseIndices in A, K. agree_tac A. apply ext_SparseIndices; try assumption.
Qed.
Lemma rt_SparseIndices : forall old, old = zero_SparseIndices -> rt (c_SparseIndices F X) (n + 2) old (wf_SparseIndices X n) (norm_SparseIndices X).
Proof.
  intros old -> x W. destruct (fields_rt_fields_SparseIndices x W [] (Forall_nil _)) as (m & Em & Wm & Dm).
  exists (JObj m). cbn [c_SparseIndices c_struct enc dec]. unfold enc_struct. rewrite Em. split; [reflexivity|]. split; [exact Wm|exact Dm].
Qed.
Lemma rt_ptr_SparseIndices : forall old, old = None -> rt (c_ptr zero_SparseIndices (c_SparseIndices F X)) (n + 2) old (opt (wf_SparseIndices X n)) (option_map (norm_SparseIndices X)).
Proof.
  intros old ->. apply rt_ptr.
  - intros o Ho. apply rt_SparseIndices. destruct Ho as [Ho|[_ Ho]]; [discriminate|exact Ho].
  - intros x j W E. exact (enc_struct_nonnull _ _ _ E).
Qed.

Lemma ext_Sparse y z : spa_Extensions y = spa_Extensions z -> spa_Extras y = spa_Extras z -> spa_Count y = spa_Count z -> spa_Indices y = spa_Indices z -> spa_Values y = spa_Values z -> y = z.
Proof. destruct y, z; cbn; intros; subst; reflexivity. Qed.
Lemma fields_rt_fields_Sparse x : wf_Sparse X n x -> forall pre, Forall (skipped (fields_Sparse F X) (n + 2)) pre ->
  exists m, enc_fields (fields_Sparse F X) x = Ok m /\ wf_json (n + 3) (JObj (pre ++ m)) /\
    dec_struct (fields_Sparse F X) zero_Sparse (JObj (pre ++ m)) = Ok (norm_Sparse X x).
Proof.
  intros W. unfold wf_Sparse in W. decompose [and] W.
  replace (n + 3)%nat with (S (n + 2)) by lia.
  apply rt_fields.
  - plain_tac.
  - lens_tac.
  - indep_tac.
  - repeat apply Forall_cons; [..|apply Forall_nil].
    + apply (fspec_intro _ _ _ _ _ _ _ _ _ (wf_ext X n) (norm_ext X)); [apply (rt_mono _ (S n)); [apply rt_ext|lia]|field_tac|omit_tac].
    + apply (fspec_intro _ _ _ _ _ _ _ _ _ (wf_any n) (fun v => v)); [apply (rt_mono _ n); [apply rt_any; exact HF|lia]|field_tac|omit_tac].
    + apply (fspec_intro _ _ _ _ _ _ _ _ _ (in_i64) (fun v => v)); [apply (rt_mono _ n); [apply rt_int|lia]|field_tac|omit_tac].
    + apply (fspec_intro _ _ _ _ _ _ _ _ _ (wf_SparseIndices X n) (norm_SparseIndices X)); [apply (rt_mono _ (n + 2)); [apply rt_SparseIndices; reflexivity|lia]|field_tac|omit_tac].
    + apply (fspec_intro _ _ _ _ _ _ _ _ _ (wf_SparseValues X n) (norm_SparseValues X)); [apply (rt_mono _ (n + 2)); [apply rt_SparseValues; reflexivity|lia]|field_tac|omit_tac].
  - intros y A K. unfold fields_Sparse in A, K. agree_tac A. apply ext_Sparse; try assumption.
Qed.
Lemma rt_Sparse : forall old, old = zero_Sparse -> rt (c_Sparse F X) (n + 3) old (wf_Sparse X n) (norm_Sparse X).
Proof.
  intros old -> x W. destruct (fields_rt_fields_Sparse x W [] (Forall_nil _)) as (m & Em & Wm & Dm).
  exists (JObj m). cbn [c_Sparse c_struct enc dec]. unfold enc_struct. rewrite Em. split; [reflexivity|]. split; [exact Wm|exact Dm].
Qed.
Lemma rt_ptr_Sparse : forall old, old = None -> rt (c_ptr zero_Sparse (c_Sparse F X)) (n + 3) old (opt (wf_Sparse X n)) (option_map (norm_Sparse X)).
Proof.
  intros old ->. apply rt_ptr.
  - intros o Ho. apply rt_Sparse. destruct Ho as [Ho|[_ Ho]]; [discriminate|exact Ho].
  - intros x j W E. exact (enc_struct_nonnull _ _ _ E).
Qed.

Lemma ext_Accessor y z : acr_Extensions y = acr_Extensions z -> acr_Extras y = acr_Extras z -> acr_Name y = acr_Name z -> acr_BufferView y = acr_BufferView z -> acr_ByteOffset y = acr_ByteOffset z -> acr_ComponentType y = acr_ComponentType z -> acr_Normalized y = acr_Normalized z -> acr_Count y = acr_Count z -> acr_Type y = acr_Type z -> acr_Max y = acr_Max z -> acr_Min y = acr_Min z -> acr_Sparse y = acr_Sparse z -> y = z.
Proof. destruct y, z; cbn; intros; subst; reflexivity. Qed.
Lemma fields_rt_fields_Accessor x : wf_Accessor X n x -> forall pre, Forall (skipped (fields_Accessor F X) (n + 3)) pre ->
  exists m, enc_fields (fields_Accessor F X) x = Ok m /\ wf_json (n + 4) (JObj (pre ++ m)) /\
    dec_struct (fields_Accessor F X) zero_Accessor (JObj (pre ++ m)) = Ok (norm_Accessor X x).
Proof.
  intros W. unfold wf_Accessor in W. decompose [and] W.
  replace (n + 4)%nat with (S (n + 3)) by lia.
  apply rt_fields.
  - plain_tac.
  - lens_tac.
  - indep_tac.
  - repeat apply Forall_cons; [..|apply Forall_nil].
    + apply (fspec_intro _ _ _ _ _ _ _ _ _ (wf_ext X n) (norm_ext X)); [apply (rt_mono _ (S n)); [apply rt_ext|lia]|field_tac|omit_tac].
    + apply (fspec_intro _ _ _ _ _ _ _ _ _ (wf_any n) (fun v => v)); [apply (rt_mono _ n); [apply rt_any; exact HF|lia]|field_tac|omit_tac].
    + apply (fspec_intro _ _ _ _ _ _ _ _ _ (utf8_str) (fun v => v)); [apply (rt_mono _ n); [apply rt_str|lia]|field_tac|omit_tac].
    + apply (fspec_intro _ _ _ _ _ _ _ _ _ (opt in_i64) (option_map (fun v => v))); [apply (rt_mono _ n); [apply rt_oint|lia]|field_tac|omit_tac].
    + apply (fspec_intro _ _ _ _ _ _ _ _ _ (in_i64) (fun v => v)); [apply (rt_mono _ n); [apply rt_int|lia]|field_tac|omit_tac].
    + apply (fspec_intro _ _ _ _ _ _ _ _ _ ((fun v => ct_valid v = true)) (fun v => v)); [apply (rt_mono _ n); [apply rt_ct|lia]|field_tac|omit_tac].
    + apply (fspec_intro _ _ _ _ _ _ _ _ _ (fun _ => True) (fun v => v)); [apply (rt_mono _ n); [apply rt_bool|lia]|field_tac|omit_tac].
    + apply (fspec_intro _ _ _ _ _ _ _ _ _ (in_i64) (fun v => v)); [apply (rt_mono _ n); [apply rt_int|lia]|field_tac|omit_tac].
    + apply (fspec_intro _ _ _ _ _ _ _ _ _ ((fun v => at_valid v = true)) (fun v => v)); [apply (rt_mono _ n); [apply rt_at|lia]|field_tac|omit_tac].
    + apply (fspec_intro _ _ _ _ _ _ _ _ _ (Forall float_ok) (map (fun v => v))); [apply (rt_mono _ (S n)); [apply (rt_slice 0 (c_f64 F) n float_ok (fun v => v)), rt_f64, HF|lia]|field_tac|omit_tac].
    + apply (fspec_intro _ _ _ _ _ _ _ _ _ (Forall float_ok) (map (fun v => v))); [apply (rt_mono _ (S n)); [apply (rt_slice 0 (c_f64 F) n float_ok (fun v => v)), rt_f64, HF|lia]|field_tac|omit_tac].
    + apply (fspec_intro _ _ _ _ _ _ _ _ _ (opt (wf_Sparse X n)) (option_map (norm_Sparse X))); [apply (rt_mono _ (n + 3)); [apply (rt_ptr_Sparse); reflexivity|lia]|field_tac|omit_tac].
  - intros y A K. unfold fields_Accessor in A, K. agree_tac A. apply ext_Accessor; try assumption.
Qed.
Lemma rt_Accessor : forall old, old = zero_Accessor -> rt (c_Accessor F X) (n + 4) old (wf_Accessor X n) (norm_Accessor X).
Proof.
  intros old -> x W. destruct (fields_rt_fields_Accessor x W [] (Forall_nil _)) as (m & Em & Wm & Dm).
  exists (JObj m). cbn [c_Accessor c_struct enc dec]. unfold enc_struct. rewrite Em. split; [reflexivity|]. split; [exact Wm|exact Dm].
Qed.
Lemma rt_ptr_Accessor : forall old, old = None -> rt (c_ptr zero_Accessor (c_Accessor F X)) (n + 4) old (opt (wf_Accessor X n)) (option_map (norm_Accessor X)).
Proof.
  intros old ->. apply rt_ptr.
  - intros o Ho. apply rt_Accessor. destruct Ho as [Ho|[_ Ho]]; [discriminate|exact Ho].
  - intros x j W E. exact (enc_struct_nonnull _ _ _ E).
Qed.

Lemma ext_Buffer y z : buf_Extensions y = buf_Extensions z -> buf_Extras y = buf_Extras z -> buf_Name y = buf_Name z -> buf_URI y = buf_URI z -> buf_ByteLength y = buf_ByteLength z -> buf_Data y = buf_Data z -> y = z.
Proof. destruct y, z; cbn; intros; subst; reflexivity. Qed.
Lemma fields_rt_fields_Buffer x : wf_Buffer X n x -> forall pre, Forall (skipped (fields_Buffer F X) (n + 1)) pre ->
  exists m, enc_fields (fields_Buffer F X) x = Ok m /\ wf_json (n + 2) (JObj (pre ++ m)) /\
    dec_struct (fields_Buffer F X) zero_Buffer (JObj (pre ++ m)) = Ok (norm_Buffer X x).
Proof.
  intros W. unfold wf_Buffer in W. decompose [and] W.
  replace (n + 2)%nat with (S (n + 1)) by lia.
  apply rt_fields.
  - plain_tac.
  - lens_tac.
  - indep_tac.
  - repeat apply Forall_cons; [..|apply Forall_nil].
    + apply (fspec_intro _ _ _ _ _ _ _ _ _ (wf_ext X n) (norm_ext X)); [apply (rt_mono _ (S n)); [apply rt_ext|lia]|field_tac|omit_tac].
    + apply (fspec_intro _ _ _ _ _ _ _ _ _ (wf_any n) (fun v => v)); [apply (rt_mono _ n); [apply rt_any; exact HF|lia]|field_tac|omit_tac].
    + apply (fspec_intro _ _ _ _ _ _ _ _ _ (utf8_str) (fun v => v)); [apply (rt_mono _ n); [apply rt_str|lia]|field_tac|omit_tac].
    + apply (fspec_intro _ _ _ _ _ _ _ _ _ (utf8_str) (fun v => v)); [apply (rt_mono _ n); [apply rt_str|lia]|field_tac|omit_tac].
    + apply (fspec_intro _ _ _ _ _ _ _ _ _ (in_i64) (fun v => v)); [apply (rt_mono _ n); [apply rt_int|lia]|field_tac|omit_tac].
  - intros y A K. unfold fields_Buffer in A, K. agree_tac A. apply ext_Buffer; try assumption. rewrite K by keeps_tac. reflexivity.
Qed.
Lemma rt_Buffer : forall old, old = zero_Buffer -> rt (c_Buffer F X) (n + 2) old (wf_Buffer X n) (norm_Buffer X).
Proof.
  intros old -> x W. destruct (fields_rt_fields_Buffer x W [] (Forall_nil _)) as (m & Em & Wm & Dm).
  exists (JObj m). cbn [c_Buffer c_struct enc dec]. unfold enc_struct. rewrite Em. split; [reflexivity|]. split; [exact Wm|exact Dm].
Qed.
Lemma rt_ptr_Buffer : forall old, old = None -> rt (c_ptr zero_Buffer (c_Buffer F X)) (n + 2) old (opt (wf_Buffer X n)) (option_map (norm_Buffer X)).
Proof.
  intros old ->. apply rt_ptr.
  - intros o Ho. apply rt_Buffer. destruct Ho as [Ho|[_ Ho]]; [discriminate|exact Ho].
  - intros x j W E. exact (enc_struct_nonnull _ _ _ E).
Qed.

Lemma ext_BufferView y z : bvw_Extensions y = bvw_Extensions z -> bvw_Extras y = bvw_Extras z -> bvw_Buffer y = bvw_Buffer z -> bvw_ByteOffset y = bvw_ByteOffset z -> bvw_ByteLength y = bvw_ByteLength z -> bvw_ByteStride y = bvw_ByteStride z -> bvw_Target y = bvw_Target z -> bvw_Name y = bvw_Name z -> y = z.
Proof. destruct y, z; cbn; intros; subst; reflexivity. Qed.
Lemma fields_rt_fields_BufferView x : wf_BufferView X n x -> forall pre, Forall (skipped (fields_BufferView F X) (n + 1)) pre ->
  exists m, enc_fields (fields_BufferView F X) x = Ok m /\ wf_json (n + 2) (JObj (pre ++ m)) /\
    dec_struct (fields_BufferView F X) zero_BufferView (JObj (pre ++ m)) = Ok (norm_BufferView X x).
Proof.
  intros W. unfold wf_BufferView in W. decompose [and] W.
  replace (n + 2)%nat with (S (n + 1)) by lia.
  apply rt_fields.
  - plain_tac.
  - lens_tac.
  - indep_tac.
  - repeat apply Forall_cons; [..|apply Forall_nil].
    + apply (fspec_intro _ _ _ _ _ _ _ _ _ (wf_ext X n) (norm_ext X)); [apply (rt_mono _ (S n)); [apply rt_ext|lia]|field_tac|omit_tac].
    + apply (fspec_intro _ _ _ _ _ _ _ _ _ (wf_any n) (fun v => v)); [apply (rt_mono _ n); [apply rt_any; exact HF|lia]|field_tac|omit_tac].
    + apply (fspec_intro _ _ _ _ _ _ _ _ _ (in_i64) (fun v => v)); [apply (rt_mono _ n); [apply rt_int|lia]|field_tac|omit_tac].
    + apply (fspec_intro _ _ _ _ _ _ _ _ _ (in_i64) (fun v => v)); [apply (rt_mono _ n); [apply rt_int|lia]|field_tac|omit_tac].
    + apply (fspec_intro _ _ _ _ _ _ _ _ _ (in_i64) (fun v => v)); [apply (rt_mono _ n); [apply rt_int|lia]|field_tac|omit_tac].
    + apply (fspec_intro _ _ _ _ _ _ _ _ _ (in_i64) (fun v => v)); [apply (rt_mono _ n); [apply rt_int|lia]|field_tac|omit_tac].
    + apply (fspec_intro _ _ _ _ _ _ _ _ _ (range 65536) (fun v => v)); [apply (rt_mono _ n); [apply rt_tgt|lia]|field_tac|omit_tac].
    + apply (fspec_intro _ _ _ _ _ _ _ _ _ (utf8_str) (fun v => v)); [apply (rt_mono _ n); [apply rt_str|lia]|field_tac|omit_tac].
  - intros y A K. unfold fields_BufferView in A, K. agree_tac A. apply ext_BufferView; try assumption.
Qed.
Lemma rt_BufferView : forall old, old = zero_BufferView -> rt (c_BufferView F X) (n + 2) old (wf_BufferView X n) (norm_BufferView X).
Proof.
  intros old -> x W. destruct (fields_rt_fields_BufferView x W [] (Forall_nil _)) as (m & Em & Wm & Dm).
  exists (JObj m). cbn [c_BufferView c_struct enc dec]. unfold enc_struct. rewrite Em. split; [reflexivity|]. split; [exact Wm|exact Dm].
Qed.
Lemma rt_ptr_BufferView : forall old, old = None -> rt (c_ptr zero_BufferView (c_BufferView F X)) (n + 2) old (opt (wf_BufferView X n)) (option_map (norm_BufferView X)).
Proof.
  intros old ->. apply rt_ptr.
  - intros o Ho. apply rt_BufferView. destruct Ho as [Ho|[_ Ho]]; [discriminate|exact Ho].
  - intros x j W E. exact (enc_struct_nonnull _ _ _ E).
Qed.

Lemma ext_Scene y z : scn_Extensions y = scn_Extensions z -> scn_Extras y = scn_Extras z -> scn_Name y = scn_Name z -> scn_Nodes y = scn_Nodes z -> y = z.
Proof. destruct y, z; cbn; intros; subst; reflexivity. Qed.
Lemma fields_rt_fields_Scene x : wf_Scene X n x -> forall pre, Forall (skipped (fields_Scene F X) (n + 1)) pre ->
  exists m, enc_fields (fields_Scene F X) x = Ok m /\ wf_json (n + 2) (JObj (pre ++ m)) /\
    dec_struct (fields_Scene F X) zero_Scene (JObj (pre ++ m)) = Ok (norm_Scene X x).
Proof.
  intros W. unfold wf_Scene in W. decompose [and] W.
  replace (n + 2)%nat with (S (n + 1)) by lia.
  apply rt_fields.
  - plain_tac.
  - lens_tac.
  - indep_tac.
  - repeat apply Forall_cons; [..|apply Forall_nil].
    + apply (fspec_intro _ _ _ _ _ _ _ _ _ (wf_ext X n) (norm_ext X)); [apply (rt_mono _ (S n)); [apply rt_ext|lia]|field_tac|omit_tac].
    + apply (fspec_intro _ _ _ _ _ _ _ _ _ (wf_any n) (fun v => v)); [apply (rt_mono _ n); [apply rt_any; exact HF|lia]|field_tac|omit_tac].
    + apply (fspec_intro _ _ _ _ _ _ _ _ _ (utf8_str) (fun v => v)); [apply (rt_mono _ n); [apply rt_str|lia]|field_tac|omit_tac].
    + apply (fspec_intro _ _ _ _ _ _ _ _ _ (Forall in_i64) (map (fun v => v))); [apply (rt_mono _ (S n)); [apply (rt_slice 0 c_int n in_i64 (fun v => v)), rt_int|lia]|field_tac|omit_tac].
  - intros y A K. unfold fields_Scene in A, K. agree_tac A. apply ext_Scene; try assumption.
Qed.
Lemma rt_Scene : forall old, old = zero_Scene -> rt (c_Scene F X) (n + 2) old (wf_Scene X n) (norm_Scene X).
Proof.
  intros old -> x W. destruct (fields_rt_fields_Scene x W [] (Forall_nil _)) as (m & Em & Wm & Dm).
  exists (JObj m). cbn [c_Scene c_struct enc dec]. unfold enc_struct. rewrite Em. split; [reflexivity|]. split; [exact Wm|exact Dm].
Qed.
Lemma rt_ptr_Scene : forall old, old = None -> rt (c_ptr zero_Scene (c_Scene F X)) (n + 2) old (opt (wf_Scene X n)) (option_map (norm_Scene X)).
Proof.
  intros old ->. apply rt_ptr.
  - intros o Ho. apply rt_Scene. destruct Ho as [Ho|[_ Ho]]; [discriminate|exact Ho].
  - intros x j W E. exact (enc_struct_nonnull _ _ _ E).
Qed.

Lemma ext_Node y z : nod_Extensions y = nod_Extensions z -> nod_Extras y = nod_Extras z -> nod_Name y = nod_Name z -> nod_Camera y = nod_Camera z -> nod_Children y = nod_Children z -> nod_Skin y = nod_Skin z -> nod_Matrix y = nod_Matrix z -> nod_Mesh y = nod_Mesh z -> nod_Rotation y = nod_Rotation z -> nod_Scale y = nod_Scale z -> nod_Translation y = nod_Translation z -> nod_Weights y = nod_Weights z -> y = z.
Proof. destruct y, z; cbn; intros; subst; reflexivity. Qed.
Lemma fields_rt_out_Node x : wf_Node X n x -> forall pre, Forall (skipped (fields_Node F X) (n + 1)) pre ->
  exists m, enc_fields (out_Node F X) x = Ok m /\ wf_json (n + 2) (JObj (pre ++ m)) /\
    dec_struct (fields_Node F X) default_Node (JObj (pre ++ m)) = Ok (norm_Node X x).
Proof.
  intros W. unfold wf_Node in W. decompose [and] W.
  replace (n + 2)%nat with (S (n + 1)) by lia.
  apply rt_fields.
  - plain_tac.
  - lens_tac.
  - indep_tac.
  - repeat apply Forall_cons; [..|apply Forall_nil].
    + apply (fspec_intro _ _ _ _ _ _ _ _ _ (farray 16) (fun v => v)); [apply (rt_mono _ (S n)); [apply (rt_array 0 (c_f64 F) n 16); [intros; apply rt_f64, HF|reflexivity]|lia]|field_tac|omit_tac].
    + apply (fspec_intro _ _ _ _ _ _ _ _ _ (farray 4) (fun v => v)); [apply (rt_mono _ (S n)); [apply (rt_array 0 (c_f64 F) n 4); [intros; apply rt_f64, HF|reflexivity]|lia]|field_tac|omit_tac].
    + apply (fspec_intro _ _ _ _ _ _ _ _ _ (farray 3) (fun v => v)); [apply (rt_mono _ (S n)); [apply (rt_array 0 (c_f64 F) n 3); [intros; apply rt_f64, HF|reflexivity]|lia]|field_tac|omit_tac].
    + apply (fspec_intro _ _ _ _ _ _ _ _ _ (farray 3) (fun v => v)); [apply (rt_mono _ (S n)); [apply (rt_array 0 (c_f64 F) n 3); [intros; apply rt_f64, HF|reflexivity]|lia]|field_tac|omit_tac].
    + apply (fspec_intro _ _ _ _ _ _ _ _ _ (wf_ext X n) (norm_ext X)); [apply (rt_mono _ (S n)); [apply rt_ext|lia]|field_tac|omit_tac].
    + apply (fspec_intro _ _ _ _ _ _ _ _ _ (wf_any n) (fun v => v)); [apply (rt_mono _ n); [apply rt_any; exact HF|lia]|field_tac|omit_tac].
    + apply (fspec_intro _ _ _ _ _ _ _ _ _ (utf8_str) (fun v => v)); [apply (rt_mono _ n); [apply rt_str|lia]|field_tac|omit_tac].
    + apply (fspec_intro _ _ _ _ _ _ _ _ _ (opt in_i64) (option_map (fun v => v))); [apply (rt_mono _ n); [apply rt_oint|lia]|field_tac|omit_tac].
    + apply (fspec_intro _ _ _ _ _ _ _ _ _ (Forall in_i64) (map (fun v => v))); [apply (rt_mono _ (S n)); [apply (rt_slice 0 c_int n in_i64 (fun v => v)), rt_int|lia]|field_tac|omit_tac].
    + apply (fspec_intro _ _ _ _ _ _ _ _ _ (opt in_i64) (option_map (fun v => v))); [apply (rt_mono _ n); [apply rt_oint|lia]|field_tac|omit_tac].
    + apply (fspec_intro _ _ _ _ _ _ _ _ _ (opt in_i64) (option_map (fun v => v))); [apply (rt_mono _ n); [apply rt_oint|lia]|field_tac|omit_tac].
    + apply (fspec_intro _ _ _ _ _ _ _ _ _ (Forall float_ok) (map (fun v => v))); [apply (rt_mono _ (S n)); [apply (rt_slice 0 (c_f64 F) n float_ok (fun v => v)), rt_f64, HF|lia]|field_tac|omit_tac].
  - intros y A K. unfold out_Node in A, K. agree_tac A. apply ext_Node; try assumption.
Qed.
Lemma rt_Node : forall old, rt (c_Node F X) (n + 2) old (wf_Node X n) (norm_Node X).
Proof.
  intros old x W. destruct (fields_rt_out_Node x W [] (Forall_nil _)) as (m & Em & Wm & Dm).
  exists (JObj m). cbn [c_Node c_struct enc dec]. unfold enc_struct. rewrite Em. split; [reflexivity|]. split; [exact Wm|exact Dm].
Qed.
Lemma rt_ptr_Node : forall old, rt (c_ptr zero_Node (c_Node F X)) (n + 2) old (opt (wf_Node X n)) (option_map (norm_Node X)).
Proof.
  intros old. apply rt_ptr.
  - intros o Ho. apply rt_Node.
  - intros x j W E. exact (enc_struct_nonnull _ _ _ E).
Qed.

Lemma ext_Skin y z : skn_Extensions y = skn_Extensions z -> skn_Extras y = skn_Extras z -> skn_Name y = skn_Name z -> skn_InverseBindMatrices y = skn_InverseBindMatrices z -> skn_Skeleton y = skn_Skeleton z -> skn_Joints y = skn_Joints z -> y = z.
Proof. destruct y, z; cbn; intros; subst; reflexivity. Qed.
Lemma fields_rt_fields_Skin x : wf_Skin X n x -> forall pre, Forall (skipped (fields_Skin F X) (n + 1)) pre ->
  exists m, enc_fields (fields_Skin F X) x = Ok m /\ wf_json (n + 2) (JObj (pre ++ m)) /\
    dec_struct (fields_Skin F X) zero_Skin (JObj (pre ++ m)) = Ok (norm_Skin X x).
Proof.
  intros W. unfold wf_Skin in W. decompose [and] W.
  replace (n + 2)%nat with (S (n + 1)) by lia.
  apply rt_fields.
  - plain_tac.
  - lens_tac.
  - indep_tac.
  - repeat apply Forall_cons; [..|apply Forall_nil].
    + apply (fspec_intro _ _ _ _ _ _ _ _ _ (wf_ext X n) (norm_ext X)); [apply (rt_mono _ (S n)); [apply rt_ext|lia]|field_tac|omit_tac].
    + apply (fspec_intro _ _ _ _ _ _ _ _ _ (wf_any n) (fun v => v)); [apply (rt_mono _ n); [apply rt_any; exact HF|lia]|field_tac|omit_tac].
    + apply (fspec_intro _ _ _ _ _ _ _ _ _ (utf8_str) (fun v => v)); [apply (rt_mono _ n); [apply rt_str|lia]|field_tac|omit_tac].
    + apply (fspec_intro _ _ _ _ _ _ _ _ _ (opt in_i64) (option_map (fun v => v))); [apply (rt_mono _ n); [apply rt_oint|lia]|field_tac|omit_tac].
    + apply (fspec_intro _ _ _ _ _ _ _ _ _ (opt in_i64) (option_map (fun v => v))); [apply (rt_mono _ n); [apply rt_oint|lia]|field_tac|omit_tac].
    + apply (fspec_intro _ _ _ _ _ _ _ _ _ (opt (Forall in_i64)) (option_map (map (fun v => v)))); [apply (rt_mono _ (S n)); [apply (rt_oslice 0 c_int n in_i64 (fun v => v)), rt_int|lia]|field_tac|omit_tac].
  - intros y A K. unfold fields_Skin in A, K. agree_tac A. apply ext_Skin; try assumption.
Qed.
Lemma rt_Skin : forall old, old = zero_Skin -> rt (c_Skin F X) (n + 2) old (wf_Skin X n) (norm_Skin X).
Proof.
  intros old -> x W. destruct (fields_rt_fields_Skin x W [] (Forall_nil _)) as (m & Em & Wm & Dm).
  exists (JObj m). cbn [c_Skin c_struct enc dec]. unfold enc_struct. rewrite Em. split; [reflexivity|]. split; [exact Wm|exact Dm].
Qed.
Lemma rt_ptr_Skin : forall old, old = None -> rt (c_ptr zero_Skin (c_Skin F X)) (n + 2) old (opt (wf_Skin X n)) (option_map (norm_Skin X)).
Proof.
  intros old ->. apply rt_ptr.
  - intros o Ho. apply rt_Skin. destruct Ho as [Ho|[_ Ho]]; [discriminate|exact Ho].
  - intros x j W E. exact (enc_struct_nonnull _ _ _ E).
Qed.

Lemma ext_Orthographic y z : ort_Extensions y = ort_Extensions z -> ort_Extras y = ort_Extras z -> ort_Xmag y = ort_Xmag z -> ort_Ymag y = ort_Ymag z -> ort_Zfar y = ort_Zfar z -> ort_Znear y = ort_Znear z -> y = z.
Proof. destruct y, z; cbn; intros; subst; reflexivity. Qed.
Lemma fields_rt_fields_Orthographic x : wf_Orthographic X n x -> forall pre, Forall (skipped (fields_Orthographic F X) (n + 1)) pre ->
  exists m, enc_fields (fields_Orthographic F X) x = Ok m /\ wf_json (n + 2) (JObj (pre ++ m)) /\
    dec_struct (fields_Orthographic F X) zero_Orthographic (JObj (pre ++ m)) = Ok (norm_Orthographic X x).
Proof.
  intros W. unfold wf_Orthographic in W. decompose [and] W.
  replace (n + 2)%nat with (S (n + 1)) by lia.
  apply rt_fields.
  - plain_tac.
  - lens_tac.
  - indep_tac.
  - repeat apply Forall_cons; [..|apply Forall_nil].
    + apply (fspec_intro _ _ _ _ _ _ _ _ _ (wf_ext X n) (norm_ext X)); [apply (rt_mono _ (S n)); [apply rt_ext|lia]|field_tac|omit_tac].
    + apply (fspec_intro _ _ _ _ _ _ _ _ _ (wf_any n) (fun v => v)); [apply (rt_mono _ n); [apply rt_any; exact HF|lia]|field_tac|omit_tac].
    + apply (fspec_intro _ _ _ _ _ _ _ _ _ (float_ok) (fun v => v)); [apply (rt_mono _ n); [apply rt_f64; exact HF|lia]|field_tac|omit_tac].
    + apply (fspec_intro _ _ _ _ _ _ _ _ _ (float_ok) (fun v => v)); [apply (rt_mono _ n); [apply rt_f64; exact HF|lia]|field_tac|omit_tac].
    + apply (fspec_intro _ _ _ _ _ _ _ _ _ (float_ok) (fun v => v)); [apply (rt_mono _ n); [apply rt_f64; exact HF|lia]|field_tac|omit_tac].
    + apply (fspec_intro _ _ _ _ _ _ _ _ _ (float_ok) (fun v => v)); [apply (rt_mono _ n); [apply rt_f64; exact HF|lia]|field_tac|omit_tac].
  - intros y A K. unfold fields_Orthographic in A, K. agree_tac A. apply ext_Orthographic; try assumption.
Qed.
Lemma rt_Orthographic : forall old, old = zero_Orthographic -> rt (c_Orthographic F X) (n + 2) old (wf_Orthographic X n) (norm_Orthographic X).
Proof.
  intros old -> x W. destruct (fields_rt_fields_Orthographic x W [] (Forall_nil _)) as (m & Em & Wm & Dm).
  exists (JObj m). cbn [c_Orthographic c_struct enc dec]. unfold enc_struct. rewrite Em. split; [reflexivity|]. split; [exact Wm|exact Dm].
Qed.
Lemma rt_ptr_Orthographic : forall old, old = None -> rt (c_ptr zero_Orthographic (c_Orthographic F X)) (n + 2) old (opt (wf_Orthographic X n)) (option_map (norm_Orthographic X)).
Proof.
  intros old ->. apply rt_ptr.
  - intros o Ho. apply rt_Orthographic. destruct Ho as [Ho|[_ Ho]]; [discriminate|exact Ho].
  - intros x j W E. exact (enc_struct_nonnull _ _ _ E).
Qed.

Lemma ext_Perspective y z : per_Extensions y = per_Extensions z -> per_Extras y = per_Extras z -> per_AspectRatio y = per_AspectRatio z -> per_Yfov y = per_Yfov z -> per_Zfar y = per_Zfar z -> per_Znear y = per_Znear z -> y = z.
Proof. destruct y, z; cbn; intros; subst; reflexivity. Qed.
Lemma fields_rt_fields_Perspective x : wf_Perspective X n x -> forall pre, Forall (skipped (fields_Perspective F X) (n + 1)) pre ->
  exists m, enc_fields (fields_Perspective F X) x = Ok m /\ wf_json (n + 2) (JObj (pre ++ m)) /\
    dec_struct (fields_Perspective F X) zero_Perspective (JObj (pre ++ m)) = Ok (norm_Perspective X x).
Proof.
  intros W. unfold wf_Perspective in W. decompose [and] W.
  replace (n + 2)%nat with (S (n + 1)) by lia.
  apply rt_fields.
  - plain_tac.
  - lens_tac.
  - indep_tac.
  - repeat apply Forall_cons; [..|apply Forall_nil].
    + apply (fspec_intro _ _ _ _ _ _ _ _ _ (wf_ext X n) (norm_ext X)); [apply (rt_mono _ (S n)); [apply rt_ext|lia]|field_tac|omit_tac].
    + apply (fspec_intro _ _ _ _ _ _ _ _ _ (wf_any n) (fun v => v)); [apply (rt_mono _ n); [apply rt_any; exact HF|lia]|field_tac|omit_tac].
    + apply (fspec_intro _ _ _ _ _ _ _ _ _ (opt float_ok) (option_map (fun v => v))); [apply (rt_mono _ n); [apply (rt_of64 F HF)|lia]|field_tac|omit_tac].
    + apply (fspec_intro _ _ _ _ _ _ _ _ _ (float_ok) (fun v => v)); [apply (rt_mono _ n); [apply rt_f64; exact HF|lia]|field_tac|omit_tac].
    + apply (fspec_intro _ _ _ _ _ _ _ _ _ (opt float_ok) (option_map (fun v => v))); [apply (rt_mono _ n); [apply (rt_of64 F HF)|lia]|field_tac|omit_tac].
    + apply (fspec_intro _ _ _ _ _ _ _ _ _ (float_ok) (fun v => v)); [apply (rt_mono _ n); [apply rt_f64; exact HF|lia]|field_tac|omit_tac].
  - intros y A K. unfold fields_Perspective in A, K. agree_tac A. apply ext_Perspective; try assumption.
Qed.
Lemma rt_Perspective : forall old, old = zero_Perspective -> rt (c_Perspective F X) (n + 2) old (wf_Perspective X n) (norm_Perspective X).
Proof.
  intros old -> x W. destruct (fields_rt_fields_Perspective x W [] (Forall_nil _)) as (m & Em & Wm & Dm).
  exists (JObj m). cbn [c_Perspective c_struct enc dec]. unfold enc_struct. rewrite Em. split; [reflexivity|]. split; [exact Wm|exact Dm].
Qed.
Lemma rt_ptr_Perspective : forall old, old = None -> rt (c_ptr zero_Perspective (c_Perspective F X)) (n + 2) old (opt (wf_Perspective X n)) (option_map (norm_Perspective X)).
Proof.
  intros old ->. apply rt_ptr.
  - intros o Ho. apply rt_Perspective. destruct Ho as [Ho|[_ Ho]]; [discriminate|exact Ho].
  - intros x j W E. exact (enc_struct_nonnull _ _ _ E).
Qed.

Lemma ext_Camera y z : cam_Extensions y = cam_Extensions z -> cam_Extras y = cam_Extras z -> cam_Name y = cam_Name z -> cam_Orthographic y = cam_Orthographic z -> cam_Perspective y = cam_Perspective z -> y = z.
Proof. destruct y, z; cbn; intros; subst; reflexivity. Qed.
Lemma fields_rt_fields_Camera x : wf_Camera X n x -> forall pre, Forall (skipped (fields_Camera F X) (n + 2)) pre ->
  exists m, enc_fields (fields_Camera F X) x = Ok m /\ wf_json (n + 3) (JObj (pre ++ m)) /\
    dec_struct (fields_Camera F X) zero_Camera (JObj (pre ++ m)) = Ok (norm_Camera X x).
Proof.
  intros W. unfold wf_Camera in W. decompose [and] W.
  replace (n + 3)%nat with (S (n + 2)) by lia.
  apply rt_fields.
  - plain_tac.
  - lens_tac.
  - indep_tac.
  - repeat apply Forall_cons; [..|apply Forall_nil].
    + apply (fspec_intro _ _ _ _ _ _ _ _ _ (wf_ext X n) (norm_ext X)); [apply (rt_mono _ (S n)); [apply rt_ext|lia]|field_tac|omit_tac].
    + apply (fspec_intro _ _ _ _ _ _ _ _ _ (wf_any n) (fun v => v)); [apply (rt_mono _ n); [apply rt_any; exact HF|lia]|field_tac|omit_tac].
    + apply (fspec_intro _ _ _ _ _ _ _ _ _ (utf8_str) (fun v => v)); [apply (rt_mono _ n); [apply rt_str|lia]|field_tac|omit_tac].
    + apply (fspec_intro _ _ _ _ _ _ _ _ _ (opt (wf_Orthographic X n)) (option_map (norm_Orthographic X))); [apply (rt_mono _ (n + 2)); [apply (rt_ptr_Orthographic); reflexivity|lia]|field_tac|omit_tac].
    + apply (fspec_intro _ _ _ _ _ _ _ _ _ (opt (wf_Perspective X n)) (option_map (norm_Perspective X))); [apply (rt_mono _ (n + 2)); [apply (rt_ptr_Perspective); reflexivity|lia]|field_tac|omit_tac].
  - intros y A K. unfold fields_Camera in A, K. agree_tac A. apply ext_Camera; try assumption.
Qed.
Lemma rt_Camera : forall old, old = zero_Camera -> rt (c_Camera F X) (n + 3) old (wf_Camera X n) (norm_Camera X).
Proof.
  intros old -> x W. cbn [c_Camera enc dec]. unfold enc_Camera.
  assert (C : cam_Orthographic x <> None \/ cam_Perspective x <> None) by (unfold wf_Camera in W; decompose [and] W; assumption).
  assert (S : forall s, s = "perspective"%string \/ s = "orthographic"%string ->
    Forall (skipped (fields_Camera F X) (n + 2)) [("type"%string, JStr s)]).
  { intros s Hs. constructor; [|constructor]. split; [vm_compute; reflexivity|]. split; [apply ascii_utf8; reflexivity|].
    split; [reflexivity|]. cbn [snd]. constructor. replace s with (quote_str s) by (destruct Hs as [-> | ->]; vm_compute; reflexivity).
    apply quote_str_body. }
  destruct (cam_Perspective x); [|destruct (cam_Orthographic x)].
  - destruct (fields_rt_fields_Camera x W _ (S _ (or_introl eq_refl))) as (m & Em & Wm & Dm).
    eexists. rewrite Em. split; [reflexivity|]. split; [exact Wm|exact Dm].
  - destruct (fields_rt_fields_Camera x W _ (S _ (or_intror eq_refl))) as (m & Em & Wm & Dm).
    eexists. rewrite Em. split; [reflexivity|]. split; [exact Wm|exact Dm].
  - destruct C as [C|C]; contradiction.
Qed.
Lemma rt_ptr_Camera : forall old, old = None -> rt (c_ptr zero_Camera (c_Camera F X)) (n + 3) old (opt (wf_Camera X n)) (option_map (norm_Camera X)).
Proof.
  intros old ->. apply rt_ptr.
  - intros o Ho. apply rt_Camera. destruct Ho as [Ho|[_ Ho]]; [discriminate|exact Ho].
  - intros x j W E. cbn in E. unfold enc_Camera in E. destruct (cam_Perspective x), (cam_Orthographic x), (enc_fields (fields_Camera F X) x); cbn in E; try discriminate E; injection E as <-; discriminate.
Qed.

Lemma ext_Primitive y z : pri_Extensions y = pri_Extensions z -> pri_Extras y = pri_Extras z -> pri_Attributes y = pri_Attributes z -> pri_Indices y = pri_Indices z -> pri_Material y = pri_Material z -> pri_Mode y = pri_Mode z -> pri_Targets y = pri_Targets z -> y = z.
Proof. destruct y, z; cbn; intros; subst; reflexivity. Qed.
Lemma fields_rt_fields_Primitive x : wf_Primitive X n x -> forall pre, Forall (skipped (fields_Primitive F X) (n + 2)) pre ->
  exists m, enc_fields (fields_Primitive F X) x = Ok m /\ wf_json (n + 3) (JObj (pre ++ m)) /\
    dec_struct (fields_Primitive F X) zero_Primitive (JObj (pre ++ m)) = Ok (norm_Primitive X x).
Proof.
  intros W. unfold wf_Primitive in W. decompose [and] W.
  replace (n + 3)%nat with (S (n + 2)) by lia.
  apply rt_fields.
  - plain_tac.
  - lens_tac.
  - indep_tac.
  - repeat apply Forall_cons; [..|apply Forall_nil].
    + apply (fspec_intro _ _ _ _ _ _ _ _ _ (wf_ext X n) (norm_ext X)); [apply (rt_mono _ (S n)); [apply rt_ext|lia]|field_tac|omit_tac].
    + apply (fspec_intro _ _ _ _ _ _ _ _ _ (wf_any n) (fun v => v)); [apply (rt_mono _ n); [apply rt_any; exact HF|lia]|field_tac|omit_tac].
    + apply (fspec_intro _ _ _ _ _ _ _ _ _ (opt wf_attrs) (fun v => v)); [apply (rt_mono _ (S n)); [apply (rt_attrs n); reflexivity|lia]|field_tac|omit_tac].
    + apply (fspec_intro _ _ _ _ _ _ _ _ _ (opt in_i64) (option_map (fun v => v))); [apply (rt_mono _ n); [apply rt_oint|lia]|field_tac|omit_tac].
    + apply (fspec_intro _ _ _ _ _ _ _ _ _ (opt in_i64) (option_map (fun v => v))); [apply (rt_mono _ n); [apply rt_oint|lia]|field_tac|omit_tac].
    + apply (fspec_intro _ _ _ _ _ _ _ _ _ (range 7) (fun v => v)); [apply (rt_mono _ n); [apply rt_mode|lia]|field_tac|omit_tac].
    + apply (fspec_intro _ _ _ _ _ _ _ _ _ (Forall (opt wf_attrs)) (map (fun v => v))); [apply (rt_mono _ (S (S n))); [apply (rt_slice None c_attrs (S n) (opt wf_attrs) (fun v => v)), rt_attrs; reflexivity|lia]|field_tac|omit_tac].
  - intros y A K. unfold fields_Primitive in A, K. agree_tac A. apply ext_Primitive; try assumption.
Qed.
Lemma rt_Primitive : forall old, old = zero_Primitive -> rt (c_Primitive F X) (n + 3) old (wf_Primitive X n) (norm_Primitive X).
Proof.
  intros old -> x W. destruct (fields_rt_fields_Primitive x W [] (Forall_nil _)) as (m & Em & Wm & Dm).
  exists (JObj m). cbn [c_Primitive c_struct enc dec]. unfold enc_struct. rewrite Em. split; [reflexivity|]. split; [exact Wm|exact Dm].
Qed.
Lemma rt_ptr_Primitive : forall old, old = None -> rt (c_ptr zero_Primitive (c_Primitive F X)) (n + 3) old (opt (wf_Primitive X n)) (option_map (norm_Primitive X)).
Proof.
  intros old ->. apply rt_ptr.
  - intros o Ho. apply rt_Primitive. destruct Ho as [Ho|[_ Ho]]; [discriminate|exact Ho].
  - intros x j W E. exact (enc_struct_nonnull _ _ _ E).
Qed.

Lemma ext_Mesh y z : msh_Extensions y = msh_Extensions z -> msh_Extras y = msh_Extras z -> msh_Name y = msh_Name z -> msh_Primitives y = msh_Primitives z -> msh_Weights y = msh_Weights z -> y = z.
Proof. destruct y, z; cbn; intros; subst; reflexivity. Qed.
Lemma fields_rt_fields_Mesh x : wf_Mesh X n x -> forall pre, Forall (skipped (fields_Mesh F X) (n + 4)) pre ->
  exists m, enc_fields (fields_Mesh F X) x = Ok m /\ wf_json (n + 5) (JObj (pre ++ m)) /\
    dec_struct (fields_Mesh F X) zero_Mesh (JObj (pre ++ m)) = Ok (norm_Mesh X x).
Proof.
  intros W. unfold wf_Mesh in W. decompose [and] W.
  replace (n + 5)%nat with (S (n + 4)) by lia.
  apply rt_fields.
  - plain_tac.
  - lens_tac.
  - indep_tac.
  - repeat apply Forall_cons; [..|apply Forall_nil].
    + apply (fspec_intro _ _ _ _ _ _ _ _ _ (wf_ext X n) (norm_ext X)); [apply (rt_mono _ (S n)); [apply rt_ext|lia]|field_tac|omit_tac].
    + apply (fspec_intro _ _ _ _ _ _ _ _ _ (wf_any n) (fun v => v)); [apply (rt_mono _ n); [apply rt_any; exact HF|lia]|field_tac|omit_tac].
    + apply (fspec_intro _ _ _ _ _ _ _ _ _ (utf8_str) (fun v => v)); [apply (rt_mono _ n); [apply rt_str|lia]|field_tac|omit_tac].
    + apply (fspec_intro _ _ _ _ _ _ _ _ _ (opt (Forall (opt (wf_Primitive X n)))) (option_map (map (option_map (norm_Primitive X))))); [apply (rt_mono _ (S (n + 3))); [apply (rt_oslice None _ _ (opt (wf_Primitive X n)) (option_map (norm_Primitive X))), (rt_ptr_Primitive); reflexivity|lia]|field_tac|omit_tac].
    + apply (fspec_intro _ _ _ _ _ _ _ _ _ (Forall float_ok) (map (fun v => v))); [apply (rt_mono _ (S n)); [apply (rt_slice 0 (c_f64 F) n float_ok (fun v => v)), rt_f64, HF|lia]|field_tac|omit_tac].
  - intros y A K. unfold fields_Mesh in A, K. agree_tac A. apply ext_Mesh; try assumption.
Qed.
Lemma rt_Mesh : forall old, old = zero_Mesh -> rt (c_Mesh F X) (n + 5) old (wf_Mesh X n) (norm_Mesh X).
Proof.
  intros old -> x W. destruct (fields_rt_fields_Mesh x W [] (Forall_nil _)) as (m & Em & Wm & Dm).
  exists (JObj m). cbn [c_Mesh c_struct enc dec]. unfold enc_struct. rewrite Em. split; [reflexivity|]. split; [exact Wm|exact Dm].
Qed.
Lemma rt_ptr_Mesh : forall old, old = None -> rt (c_ptr zero_Mesh (c_Mesh F X)) (n + 5) old (opt (wf_Mesh X n)) (option_map (norm_Mesh X)).
Proof.
  intros old ->. apply rt_ptr.
  - intros o Ho. apply rt_Mesh. destruct Ho as [Ho|[_ Ho]]; [discriminate|exact Ho].
  - intros x j W E. exact (enc_struct_nonnull _ _ _ E).
Qed.

Lemma ext_TextureInfo y z : txi_Extensions y = txi_Extensions z -> txi_Extras y = txi_Extras z -> txi_Index y = txi_Index z -> txi_TexCoord y = txi_TexCoord z -> y = z.
Proof. destruct y, z; cbn; intros; subst; reflexivity. Qed.
Lemma fields_rt_fields_TextureInfo x : wf_TextureInfo X n x -> forall pre, Forall (skipped (fields_TextureInfo F X) (n + 1)) pre ->
  exists m, enc_fields (fields_TextureInfo F X) x = Ok m /\ wf_json (n + 2) (JObj (pre ++ m)) /\
    dec_struct (fields_TextureInfo F X) zero_TextureInfo (JObj (pre ++ m)) = Ok (norm_TextureInfo X x).
Proof.
  intros W. unfold wf_TextureInfo in W. decompose [and] W.
  replace (n + 2)%nat with (S (n + 1)) by lia.
  apply rt_fields.
  - plain_tac.
  - lens_tac.
  - indep_tac.
  - repeat apply Forall_cons; [..|apply Forall_nil].
    + apply (fspec_intro _ _ _ _ _ _ _ _ _ (wf_ext X n) (norm_ext X)); [apply (rt_mono _ (S n)); [apply rt_ext|lia]|field_tac|omit_tac].
    + apply (fspec_intro _ _ _ _ _ _ _ _ _ (wf_any n) (fun v => v)); [apply (rt_mono _ n); [apply rt_any; exact HF|lia]|field_tac|omit_tac].
    + apply (fspec_intro _ _ _ _ _ _ _ _ _ (in_i64) (fun v => v)); [apply (rt_mono _ n); [apply rt_int|lia]|field_tac|omit_tac].
    + apply (fspec_intro _ _ _ _ _ _ _ _ _ (in_i64) (fun v => v)); [apply (rt_mono _ n); [apply rt_int|lia]|field_tac|omit_tac].
  - intros y A K. unfold fields_TextureInfo in A, K. agree_tac A. apply ext_TextureInfo; try assumption.
Qed.
Lemma rt_TextureInfo : forall old, old = zero_TextureInfo -> rt (c_TextureInfo F X) (n + 2) old (wf_TextureInfo X n) (norm_TextureInfo X).
Proof.
  intros old -> x W. destruct (fields_rt_fields_TextureInfo x W [] (Forall_nil _)) as (m & Em & Wm & Dm).
  exists (JObj m). cbn [c_TextureInfo c_struct enc dec]. unfold enc_struct. rewrite Em. split; [reflexivity|]. split; [exact Wm|exact Dm].
Qed.
Lemma rt_ptr_TextureInfo : forall old, old = None -> rt (c_ptr zero_TextureInfo (c_TextureInfo F X)) (n + 2) old (opt (wf_TextureInfo X n)) (option_map (norm_TextureInfo X)).
Proof.
  intros old ->. apply rt_ptr.
  - intros o Ho. apply rt_TextureInfo. destruct Ho as [Ho|[_ Ho]]; [discriminate|exact Ho].
  - intros x j W E. exact (enc_struct_nonnull _ _ _ E).
Qed.

Lemma ext_NormalTexture y z : ntx_Extensions y = ntx_Extensions z -> ntx_Extras y = ntx_Extras z -> ntx_Index y = ntx_Index z -> ntx_TexCoord y = ntx_TexCoord z -> ntx_Scale y = ntx_Scale z -> y = z.
Proof. destruct y, z; cbn; intros; subst; reflexivity. Qed.
Lemma fields_rt_fields_NormalTexture x : wf_NormalTexture X n x -> forall pre, Forall (skipped (fields_NormalTexture F X) (n + 1)) pre ->
  exists m, enc_fields (fields_NormalTexture F X) x = Ok m /\ wf_json (n + 2) (JObj (pre ++ m)) /\
    dec_struct (fields_NormalTexture F X) default_NormalTexture (JObj (pre ++ m)) = Ok (norm_NormalTexture X x).
Proof.
  intros W. unfold wf_NormalTexture in W. decompose [and] W.
  replace (n + 2)%nat with (S (n + 1)) by lia.
  apply rt_fields.
  - plain_tac.
  - lens_tac.
  - indep_tac.
  - repeat apply Forall_cons; [..|apply Forall_nil].
    + apply (fspec_intro _ _ _ _ _ _ _ _ _ (wf_ext X n) (norm_ext X)); [apply (rt_mono _ (S n)); [apply rt_ext|lia]|field_tac|omit_tac].
    + apply (fspec_intro _ _ _ _ _ _ _ _ _ (wf_any n) (fun v => v)); [apply (rt_mono _ n); [apply rt_any; exact HF|lia]|field_tac|omit_tac].
    + apply (fspec_intro _ _ _ _ _ _ _ _ _ (opt in_i64) (option_map (fun v => v))); [apply (rt_mono _ n); [apply rt_oint|lia]|field_tac|omit_tac].
    + apply (fspec_intro _ _ _ _ _ _ _ _ _ (in_i64) (fun v => v)); [apply (rt_mono _ n); [apply rt_int|lia]|field_tac|omit_tac].
    + apply (fspec_intro _ _ _ _ _ _ _ _ _ (opt float_ok) (option_map (fun v => v))); [apply (rt_mono _ n); [apply (rt_of64 F HF)|lia]|field_tac|omit_tac].
  - intros y A K. unfold fields_NormalTexture in A, K. agree_tac A. apply ext_NormalTexture; try assumption.
Qed.
Lemma rt_NormalTexture : forall old, rt (c_NormalTexture F X) (n + 2) old (wf_NormalTexture X n) (norm_NormalTexture X).
Proof.
  intros old x W. destruct (fields_rt_fields_NormalTexture x W [] (Forall_nil _)) as (m & Em & Wm & Dm).
  exists (JObj m). cbn [c_NormalTexture c_struct enc dec]. unfold enc_struct. rewrite Em. split; [reflexivity|]. split; [exact Wm|exact Dm].
Qed.
Lemma rt_ptr_NormalTexture : forall old, rt (c_ptr zero_NormalTexture (c_NormalTexture F X)) (n + 2) old (opt (wf_NormalTexture X n)) (option_map (norm_NormalTexture X)).
Proof.
  intros old. apply rt_ptr.
  - intros o Ho. apply rt_NormalTexture.
  - intros x j W E. exact (enc_struct_nonnull _ _ _ E).
Qed.

Lemma ext_OcclusionTexture y z : otx_Extensions y = otx_Extensions z -> otx_Extras y = otx_Extras z -> otx_Index y = otx_Index z -> otx_TexCoord y = otx_TexCoord z -> otx_Strength y = otx_Strength z -> y = z.
Proof. destruct y, z; cbn; intros; subst; reflexivity. Qed.
Lemma fields_rt_fields_OcclusionTexture x : wf_OcclusionTexture X n x -> forall pre, Forall (skipped (fields_OcclusionTexture F X) (n + 1)) pre ->
  exists m, enc_fields (fields_OcclusionTexture F X) x = Ok m /\ wf_json (n + 2) (JObj (pre ++ m)) /\
    dec_struct (fields_OcclusionTexture F X) default_OcclusionTexture (JObj (pre ++ m)) = Ok (norm_OcclusionTexture X x).
Proof.
  intros W. unfold wf_OcclusionTexture in W. decompose [and] W.
  replace (n + 2)%nat with (S (n + 1)) by lia.
  apply rt_fields.
  - plain_tac.
  - lens_tac.
  - indep_tac.
  - repeat apply Forall_cons; [..|apply Forall_nil].
    + apply (fspec_intro _ _ _ _ _ _ _ _ _ (wf_ext X n) (norm_ext X)); [apply (rt_mono _ (S n)); [apply rt_ext|lia]|field_tac|omit_tac].
    + apply (fspec_intro _ _ _ _ _ _ _ _ _ (wf_any n) (fun v => v)); [apply (rt_mono _ n); [apply rt_any; exact HF|lia]|field_tac|omit_tac].
    + apply (fspec_intro _ _ _ _ _ _ _ _ _ (opt in_i64) (option_map (fun v => v))); [apply (rt_mono _ n); [apply rt_oint|lia]|field_tac|omit_tac].
    + apply (fspec_intro _ _ _ _ _ _ _ _ _ (in_i64) (fun v => v)); [apply (rt_mono _ n); [apply rt_int|lia]|field_tac|omit_tac].
    + apply (fspec_intro _ _ _ _ _ _ _ _ _ (opt float_ok) (option_map (fun v => v))); [apply (rt_mono _ n); [apply (rt_of64 F HF)|lia]|field_tac|omit_tac].
  - intros y A K. unfold fields_OcclusionTexture in A, K. agree_tac A. apply ext_OcclusionTexture; try assumption.
Qed.
Lemma rt_OcclusionTexture : forall old, rt (c_OcclusionTexture F X) (n + 2) old (wf_OcclusionTexture X n) (norm_OcclusionTexture X).
Proof.
  intros old x W. destruct (fields_rt_fields_OcclusionTexture x W [] (Forall_nil _)) as (m & Em & Wm & Dm).
  exists (JObj m). cbn [c_OcclusionTexture c_struct enc dec]. unfold enc_struct. rewrite Em. split; [reflexivity|]. split; [exact Wm|exact Dm].
Qed.
Lemma rt_ptr_OcclusionTexture : forall old, rt (c_ptr zero_OcclusionTexture (c_OcclusionTexture F X)) (n + 2) old (opt (wf_OcclusionTexture X n)) (option_map (norm_OcclusionTexture X)).
Proof.
  intros old. apply rt_ptr.
  - intros o Ho. apply rt_OcclusionTexture.
  - intros x j W E. exact (enc_struct_nonnull _ _ _ E).
Qed.

Lemma ext_PBRMetallicRoughness y z : pbr_Extensions y = pbr_Extensions z -> pbr_Extras y = pbr_Extras z -> pbr_BaseColorFactor y = pbr_BaseColorFactor z -> pbr_BaseColorTexture y = pbr_BaseColorTexture z -> pbr_MetallicFactor y = pbr_MetallicFactor z -> pbr_RoughnessFactor y = pbr_RoughnessFactor z -> pbr_MetallicRoughnessTexture y = pbr_MetallicRoughnessTexture z -> y = z.
Proof. destruct y, z; cbn; intros; subst; reflexivity. Qed.
Lemma fields_rt_fields_PBRMetallicRoughness x : wf_PBRMetallicRoughness X n x -> forall pre, Forall (skipped (fields_PBRMetallicRoughness F X) (n + 2)) pre ->
  exists m, enc_fields (fields_PBRMetallicRoughness F X) x = Ok m /\ wf_json (n + 3) (JObj (pre ++ m)) /\
    dec_struct (fields_PBRMetallicRoughness F X) default_PBRMetallicRoughness (JObj (pre ++ m)) = Ok (norm_PBRMetallicRoughness X x).
Proof.
  intros W. unfold wf_PBRMetallicRoughness in W. decompose [and] W.
  replace (n + 3)%nat with (S (n + 2)) by lia.
  apply rt_fields.
  - plain_tac.
  - lens_tac.
  - indep_tac.
  - repeat apply Forall_cons; [..|apply Forall_nil].
    + apply (fspec_intro _ _ _ _ _ _ _ _ _ (wf_ext X n) (norm_ext X)); [apply (rt_mono _ (S n)); [apply rt_ext|lia]|field_tac|omit_tac].
    + apply (fspec_intro _ _ _ _ _ _ _ _ _ (wf_any n) (fun v => v)); [apply (rt_mono _ n); [apply rt_any; exact HF|lia]|field_tac|omit_tac].
    + apply (fspec_intro _ _ _ _ _ _ _ _ _ (opt (farray 4)) (option_map (fun v => v))); [apply (rt_mono _ (S n)); [apply (rt_oarr4 F HF); cbn; auto|lia]|field_tac|omit_tac].
    + apply (fspec_intro _ _ _ _ _ _ _ _ _ (opt (wf_TextureInfo X n)) (option_map (norm_TextureInfo X))); [apply (rt_mono _ (n + 2)); [apply (rt_ptr_TextureInfo); reflexivity|lia]|field_tac|omit_tac].
    + apply (fspec_intro _ _ _ _ _ _ _ _ _ (opt float_ok) (option_map (fun v => v))); [apply (rt_mono _ n); [apply (rt_of64 F HF)|lia]|field_tac|omit_tac].
    + apply (fspec_intro _ _ _ _ _ _ _ _ _ (opt float_ok) (option_map (fun v => v))); [apply (rt_mono _ n); [apply (rt_of64 F HF)|lia]|field_tac|omit_tac].
    + apply (fspec_intro _ _ _ _ _ _ _ _ _ (opt (wf_TextureInfo X n)) (option_map (norm_TextureInfo X))); [apply (rt_mono _ (n + 2)); [apply (rt_ptr_TextureInfo); reflexivity|lia]|field_tac|omit_tac].
  - intros y A K. unfold fields_PBRMetallicRoughness in A, K. agree_tac A. apply ext_PBRMetallicRoughness; try assumption.
Qed.
Lemma rt_PBRMetallicRoughness : forall old, rt (c_PBRMetallicRoughness F X) (n + 3) old (wf_PBRMetallicRoughness X n) (norm_PBRMetallicRoughness X).
Proof.
  intros old x W. destruct (fields_rt_fields_PBRMetallicRoughness x W [] (Forall_nil _)) as (m & Em & Wm & Dm).
  exists (JObj m). cbn [c_PBRMetallicRoughness c_struct enc dec]. unfold enc_struct. rewrite Em. split; [reflexivity|]. split; [exact Wm|exact Dm].
Qed.
Lemma rt_ptr_PBRMetallicRoughness : forall old, rt (c_ptr zero_PBRMetallicRoughness (c_PBRMetallicRoughness F X)) (n + 3) old (opt (wf_PBRMetallicRoughness X n)) (option_map (norm_PBRMetallicRoughness X)).
Proof.
  intros old. apply rt_ptr.
  - intros o Ho. apply rt_PBRMetallicRoughness.
  - intros x j W E. exact (enc_struct_nonnull _ _ _ E).
Qed.

Lemma ext_Material y z : mat_Extensions y = mat_Extensions z -> mat_Extras y = mat_Extras z -> mat_Name y = mat_Name z -> mat_PBRMetallicRoughness y = mat_PBRMetallicRoughness z -> mat_NormalTexture y = mat_NormalTexture z -> mat_OcclusionTexture y = mat_OcclusionTexture z -> mat_EmissiveTexture y = mat_EmissiveTexture z -> mat_EmissiveFactor y = mat_EmissiveFactor z -> mat_AlphaMode y = mat_AlphaMode z -> mat_AlphaCutoff y = mat_AlphaCutoff z -> mat_DoubleSided y = mat_DoubleSided z -> y = z.
Proof. destruct y, z; cbn; intros; subst; reflexivity. Qed.
Lemma fields_rt_out_Material x : wf_Material X n x -> forall pre, Forall (skipped (fields_Material F X) (n + 3)) pre ->
  exists m, enc_fields (out_Material F X) x = Ok m /\ wf_json (n + 4) (JObj (pre ++ m)) /\
    dec_struct (fields_Material F X) default_Material (JObj (pre ++ m)) = Ok (norm_Material X x).
Proof.
  intros W. unfold wf_Material in W. decompose [and] W.
  replace (n + 4)%nat with (S (n + 3)) by lia.
  apply rt_fields.
  - plain_tac.
  - lens_tac.
  - indep_tac.
  - repeat apply Forall_cons; [..|apply Forall_nil].
    + apply (fspec_intro _ _ _ _ _ _ _ _ _ (farray 3) (fun v => v)); [apply (rt_mono _ (S n)); [apply (rt_array 0 (c_f64 F) n 3); [intros; apply rt_f64, HF|reflexivity]|lia]|field_tac|omit_tac].
    + apply (fspec_intro _ _ _ _ _ _ _ _ _ (opt float_ok) (option_map (fun v => v))); [apply (rt_mono _ n); [apply (rt_of64 F HF)|lia]|field_tac|omit_tac].
    + apply (fspec_intro _ _ _ _ _ _ _ _ _ (wf_ext X n) (norm_ext X)); [apply (rt_mono _ (S n)); [apply rt_ext|lia]|field_tac|omit_tac].
    + apply (fspec_intro _ _ _ _ _ _ _ _ _ (wf_any n) (fun v => v)); [apply (rt_mono _ n); [apply rt_any; exact HF|lia]|field_tac|omit_tac].
    + apply (fspec_intro _ _ _ _ _ _ _ _ _ (utf8_str) (fun v => v)); [apply (rt_mono _ n); [apply rt_str|lia]|field_tac|omit_tac].
    + apply (fspec_intro _ _ _ _ _ _ _ _ _ (opt (wf_PBRMetallicRoughness X n)) (option_map (norm_PBRMetallicRoughness X))); [apply (rt_mono _ (n + 3)); [apply (rt_ptr_PBRMetallicRoughness)|lia]|field_tac|omit_tac].
    + apply (fspec_intro _ _ _ _ _ _ _ _ _ (opt (wf_NormalTexture X n)) (option_map (norm_NormalTexture X))); [apply (rt_mono _ (n + 2)); [apply (rt_ptr_NormalTexture)|lia]|field_tac|omit_tac].
    + apply (fspec_intro _ _ _ _ _ _ _ _ _ (opt (wf_OcclusionTexture X n)) (option_map (norm_OcclusionTexture X))); [apply (rt_mono _ (n + 2)); [apply (rt_ptr_OcclusionTexture)|lia]|field_tac|omit_tac].
    + apply (fspec_intro _ _ _ _ _ _ _ _ _ (opt (wf_TextureInfo X n)) (option_map (norm_TextureInfo X))); [apply (rt_mono _ (n + 2)); [apply (rt_ptr_TextureInfo); reflexivity|lia]|field_tac|omit_tac].
    + apply (fspec_intro _ _ _ _ _ _ _ _ _ (range 3) (fun v => v)); [apply (rt_mono _ n); [apply rt_alpha|lia]|field_tac|omit_tac].
    + apply (fspec_intro _ _ _ _ _ _ _ _ _ (fun _ => True) (fun v => v)); [apply (rt_mono _ n); [apply rt_bool|lia]|field_tac|omit_tac].
  - intros y A K. unfold out_Material in A, K. agree_tac A. apply ext_Material; try assumption.
Qed.
Lemma rt_Material : forall old, rt (c_Material F X) (n + 4) old (wf_Material X n) (norm_Material X).
Proof.
  intros old x W. destruct (fields_rt_out_Material x W [] (Forall_nil _)) as (m & Em & Wm & Dm).
  exists (JObj m). cbn [c_Material c_struct enc dec]. unfold enc_struct. rewrite Em. split; [reflexivity|]. split; [exact Wm|exact Dm].
Qed.
Lemma rt_ptr_Material : forall old, rt (c_ptr zero_Material (c_Material F X)) (n + 4) old (opt (wf_Material X n)) (option_map (norm_Material X)).
Proof.
  intros old. apply rt_ptr.
  - intros o Ho. apply rt_Material.
  - intros x j W E. exact (enc_struct_nonnull _ _ _ E).
Qed.

Lemma ext_Texture y z : txt_Extensions y = txt_Extensions z -> txt_Extras y = txt_Extras z -> txt_Name y = txt_Name z -> txt_Sampler y = txt_Sampler z -> txt_Source y = txt_Source z -> y = z.
Proof. destruct y, z; cbn; intros; subst; reflexivity. Qed.
Lemma fields_rt_fields_Texture x : wf_Texture X n x -> forall pre, Forall (skipped (fields_Texture F X) (n + 1)) pre ->
  exists m, enc_fields (fields_Texture F X) x = Ok m /\ wf_json (n + 2) (JObj (pre ++ m)) /\
    dec_struct (fields_Texture F X) zero_Texture (JObj (pre ++ m)) = Ok (norm_Texture X x).
Proof.
  intros W. unfold wf_Texture in W. decompose [and] W.
  replace (n + 2)%nat with (S (n + 1)) by lia.
  apply rt_fields.
  - plain_tac.
  - lens_tac.
  - indep_tac.
  - repeat apply Forall_cons; [..|apply Forall_nil].
    + apply (fspec_intro _ _ _ _ _ _ _ _ _ (wf_ext X n) (norm_ext X)); [apply (rt_mono _ (S n)); [apply rt_ext|lia]|field_tac|omit_tac].
    + apply (fspec_intro _ _ _ _ _ _ _ _ _ (wf_any n) (fun v => v)); [apply (rt_mono _ n); [apply rt_any; exact HF|lia]|field_tac|omit_tac].
    + apply (fspec_intro _ _ _ _ _ _ _ _ _ (utf8_str) (fun v => v)); [apply (rt_mono _ n); [apply rt_str|lia]|field_tac|omit_tac].
    + apply (fspec_intro _ _ _ _ _ _ _ _ _ (opt in_i64) (option_map (fun v => v))); [apply (rt_mono _ n); [apply rt_oint|lia]|field_tac|omit_tac].
    + apply (fspec_intro _ _ _ _ _ _ _ _ _ (opt in_i64) (option_map (fun v => v))); [apply (rt_mono _ n); [apply rt_oint|lia]|field_tac|omit_tac].
  - intros y A K. unfold fields_Texture in A, K. agree_tac A. apply ext_Texture; try assumption.
Qed.
Lemma rt_Texture : forall old, old = zero_Texture -> rt (c_Texture F X) (n + 2) old (wf_Texture X n) (norm_Texture X).
Proof.
  intros old -> x W. destruct (fields_rt_fields_Texture x W [] (Forall_nil _)) as (m & Em & Wm & Dm).
  exists (JObj m). cbn [c_Texture c_struct enc dec]. unfold enc_struct. rewrite Em. split; [reflexivity|]. split; [exact Wm|exact Dm].
Qed.
Lemma rt_ptr_Texture : forall old, old = None -> rt (c_ptr zero_Texture (c_Texture F X)) (n + 2) old (opt (wf_Texture X n)) (option_map (norm_Texture X)).
Proof.
  intros old ->. apply rt_ptr.
  - intros o Ho. apply rt_Texture. destruct Ho as [Ho|[_ Ho]]; [discriminate|exact Ho].
  - intros x j W E. exact (enc_struct_nonnull _ _ _ E).
Qed.

Lemma ext_Sampler y z : smp_Extensions y = smp_Extensions z -> smp_Extras y = smp_Extras z -> smp_Name y = smp_Name z -> smp_MagFilter y = smp_MagFilter z -> smp_MinFilter y = smp_MinFilter z -> smp_WrapS y = smp_WrapS z -> smp_WrapT y = smp_WrapT z -> y = z.
Proof. destruct y, z; cbn; intros; subst; reflexivity. Qed.
Lemma fields_rt_fields_Sampler x : wf_Sampler X n x -> forall pre, Forall (skipped (fields_Sampler F X) (n + 1)) pre ->
  exists m, enc_fields (fields_Sampler F X) x = Ok m /\ wf_json (n + 2) (JObj (pre ++ m)) /\
    dec_struct (fields_Sampler F X) zero_Sampler (JObj (pre ++ m)) = Ok (norm_Sampler X x).
Proof.
  intros W. unfold wf_Sampler in W. decompose [and] W.
  replace (n + 2)%nat with (S (n + 1)) by lia.
  apply rt_fields.
  - plain_tac.
  - lens_tac.
  - indep_tac.
  - repeat apply Forall_cons; [..|apply Forall_nil].
    + apply (fspec_intro _ _ _ _ _ _ _ _ _ (wf_ext X n) (norm_ext X)); [apply (rt_mono _ (S n)); [apply rt_ext|lia]|field_tac|omit_tac].
    + apply (fspec_intro _ _ _ _ _ _ _ _ _ (wf_any n) (fun v => v)); [apply (rt_mono _ n); [apply rt_any; exact HF|lia]|field_tac|omit_tac].
    + apply (fspec_intro _ _ _ _ _ _ _ _ _ (utf8_str) (fun v => v)); [apply (rt_mono _ n); [apply rt_str|lia]|field_tac|omit_tac].
    + apply (fspec_intro _ _ _ _ _ _ _ _ _ (fun x => range 3 x /\ x <> 0) (fun v => v)); [apply (rt_mono _ n); [apply rt_mag|lia]|field_tac|omit_tac].
    + apply (fspec_intro _ _ _ _ _ _ _ _ _ (fun x => range 7 x /\ x <> 0) (fun v => v)); [apply (rt_mono _ n); [apply rt_minf|lia]|field_tac|omit_tac].
    + apply (fspec_intro _ _ _ _ _ _ _ _ _ (range 3) (fun v => v)); [apply (rt_mono _ n); [apply rt_wrap|lia]|field_tac|omit_tac].
    + apply (fspec_intro _ _ _ _ _ _ _ _ _ (range 3) (fun v => v)); [apply (rt_mono _ n); [apply rt_wrap|lia]|field_tac|omit_tac].
  - intros y A K. unfold fields_Sampler in A, K. agree_tac A. apply ext_Sampler; try assumption.
Qed.
Lemma rt_Sampler : forall old, old = zero_Sampler -> rt (c_Sampler F X) (n + 2) old (wf_Sampler X n) (norm_Sampler X).
Proof.
  intros old -> x W. destruct (fields_rt_fields_Sampler x W [] (Forall_nil _)) as (m & Em & Wm & Dm).
  exists (JObj m). cbn [c_Sampler c_struct enc dec]. unfold enc_struct. rewrite Em. split; [reflexivity|]. split; [exact Wm|exact Dm].
Qed.
Lemma rt_ptr_Sampler : forall old, old = None -> rt (c_ptr zero_Sampler (c_Sampler F X)) (n + 2) old (opt (wf_Sampler X n)) (option_map (norm_Sampler X)).
Proof.
  intros old ->. apply rt_ptr.
  - intros o Ho. apply rt_Sampler. destruct Ho as [Ho|[_ Ho]]; [discriminate|exact Ho].
  - intros x j W E. exact (enc_struct_nonnull _ _ _ E).
Qed.

Lemma ext_Image y z : img_Extensions y = img_Extensions z -> img_Extras y = img_Extras z -> img_Name y = img_Name z -> img_URI y = img_URI z -> img_MimeType y = img_MimeType z -> img_BufferView y = img_BufferView z -> y = z.
Proof. destruct y, z; cbn; intros; subst; reflexivity. Qed.
Lemma fields_rt_fields_Image x : wf_Image X n x -> forall pre, Forall (skipped (fields_Image F X) (n + 1)) pre ->
  exists m, enc_fields (fields_Image F X) x = Ok m /\ wf_json (n + 2) (JObj (pre ++ m)) /\
    dec_struct (fields_Image F X) zero_Image (JObj (pre ++ m)) = Ok (norm_Image X x).
Proof.
  intros W. unfold wf_Image in W. decompose [and] W.
  replace (n + 2)%nat with (S (n + 1)) by lia.
  apply rt_fields.
  - plain_tac.
  - lens_tac.
  - indep_tac.
  - repeat apply Forall_cons; [..|apply Forall_nil].
    + apply (fspec_intro _ _ _ _ _ _ _ _ _ (wf_ext X n) (norm_ext X)); [apply (rt_mono _ (S n)); [apply rt_ext|lia]|field_tac|omit_tac].
    + apply (fspec_intro _ _ _ _ _ _ _ _ _ (wf_any n) (fun v => v)); [apply (rt_mono _ n); [apply rt_any; exact HF|lia]|field_tac|omit_tac].
    + apply (fspec_intro _ _ _ _ _ _ _ _ _ (utf8_str) (fun v => v)); [apply (rt_mono _ n); [apply rt_str|lia]|field_tac|omit_tac].
    + apply (fspec_intro _ _ _ _ _ _ _ _ _ (utf8_str) (fun v => v)); [apply (rt_mono _ n); [apply rt_str|lia]|field_tac|omit_tac].
    + apply (fspec_intro _ _ _ _ _ _ _ _ _ (utf8_str) (fun v => v)); [apply (rt_mono _ n); [apply rt_str|lia]|field_tac|omit_tac].
    + apply (fspec_intro _ _ _ _ _ _ _ _ _ (opt in_i64) (option_map (fun v => v))); [apply (rt_mono _ n); [apply rt_oint|lia]|field_tac|omit_tac].
  - intros y A K. unfold fields_Image in A, K. agree_tac A. apply ext_Image; try assumption.
Qed.
Lemma rt_Image : forall old, old = zero_Image -> rt (c_Image F X) (n + 2) old (wf_Image X n) (norm_Image X).
Proof.
  intros old -> x W. destruct (fields_rt_fields_Image x W [] (Forall_nil _)) as (m & Em & Wm & Dm).
  exists (JObj m). cbn [c_Image c_struct enc dec]. unfold enc_struct. rewrite Em. split; [reflexivity|]. split; [exact Wm|exact Dm].
Qed.
Lemma rt_ptr_Image : forall old, old = None -> rt (c_ptr zero_Image (c_Image F X)) (n + 2) old (opt (wf_Image X n)) (option_map (norm_Image X)).
Proof.
  intros old ->. apply rt_ptr.
  - intros o Ho. apply rt_Image. destruct Ho as [Ho|[_ Ho]]; [discriminate|exact Ho].
  - intros x j W E. exact (enc_struct_nonnull _ _ _ E).
Qed.

Lemma ext_AnimationSampler y z : ans_Extensions y = ans_Extensions z -> ans_Extras y = ans_Extras z -> ans_Input y = ans_Input z -> ans_Interpolation y = ans_Interpolation z -> ans_Output y = ans_Output z -> y = z.
Proof. destruct y, z; cbn; intros; subst; reflexivity. Qed.
Lemma fields_rt_fields_AnimationSampler x : wf_AnimationSampler X n x -> forall pre, Forall (skipped (fields_AnimationSampler F X) (n + 1)) pre ->
  exists m, enc_fields (fields_AnimationSampler F X) x = Ok m /\ wf_json (n + 2) (JObj (pre ++ m)) /\
    dec_struct (fields_AnimationSampler F X) zero_AnimationSampler (JObj (pre ++ m)) = Ok (norm_AnimationSampler X x).
Proof.
  intros W. unfold wf_AnimationSampler in W. decompose [and] W.
  replace (n + 2)%nat with (S (n + 1)) by lia.
  apply rt_fields.
  - plain_tac.
  - lens_tac.
  - indep_tac.
  - repeat apply Forall_cons; [..|apply Forall_nil].
    + apply (fspec_intro _ _ _ _ _ _ _ _ _ (wf_ext X n) (norm_ext X)); [apply (rt_mono _ (S n)); [apply rt_ext|lia]|field_tac|omit_tac].
    + apply (fspec_intro _ _ _ _ _ _ _ _ _ (wf_any n) (fun v => v)); [apply (rt_mono _ n); [apply rt_any; exact HF|lia]|field_tac|omit_tac].
    + apply (fspec_intro _ _ _ _ _ _ _ _ _ (in_i64) (fun v => v)); [apply (rt_mono _ n); [apply rt_int|lia]|field_tac|omit_tac].
    + apply (fspec_intro _ _ _ _ _ _ _ _ _ (range 3) (fun v => v)); [apply (rt_mono _ n); [apply rt_interp|lia]|field_tac|omit_tac].
    + apply (fspec_intro _ _ _ _ _ _ _ _ _ (in_i64) (fun v => v)); [apply (rt_mono _ n); [apply rt_int|lia]|field_tac|omit_tac].
  - intros y A K. unfold fields_AnimationSampler in A, K. agree_tac A. apply ext_AnimationSampler; try assumption.
Qed.
Lemma rt_AnimationSampler : forall old, old = zero_AnimationSampler -> rt (c_AnimationSampler F X) (n + 2) old (wf_AnimationSampler X n) (norm_AnimationSampler X).
Proof.
  intros old -> x W. destruct (fields_rt_fields_AnimationSampler x W [] (Forall_nil _)) as (m & Em & Wm & Dm).
  exists (JObj m). cbn [c_AnimationSampler c_struct enc dec]. unfold enc_struct. rewrite Em. split; [reflexivity|]. split; [exact Wm|exact Dm].
Qed.
Lemma rt_ptr_AnimationSampler : forall old, old = None -> rt (c_ptr zero_AnimationSampler (c_AnimationSampler F X)) (n + 2) old (opt (wf_AnimationSampler X n)) (option_map (norm_AnimationSampler X)).
Proof.
  intros old ->. apply rt_ptr.
  - intros o Ho. apply rt_AnimationSampler. destruct Ho as [Ho|[_ Ho]]; [discriminate|exact Ho].
  - intros x j W E. exact (enc_struct_nonnull _ _ _ E).
Qed.

Lemma ext_AnimationChannelTarget y z : act_Extensions y = act_Extensions z -> act_Extras y = act_Extras z -> act_Node y = act_Node z -> act_Path y = act_Path z -> y = z.
Proof. destruct y, z; cbn; intros; subst; reflexivity. Qed.
Lemma fields_rt_fields_AnimationChannelTarget x : wf_AnimationChannelTarget X n x -> forall pre, Forall (skipped (fields_AnimationChannelTarget F X) (n + 1)) pre ->
  exists m, enc_fields (fields_AnimationChannelTarget F X) x = Ok m /\ wf_json (n + 2) (JObj (pre ++ m)) /\
    dec_struct (fields_AnimationChannelTarget F X) zero_AnimationChannelTarget (JObj (pre ++ m)) = Ok (norm_AnimationChannelTarget X x).
Proof.
  intros W. unfold wf_AnimationChannelTarget in W. decompose [and] W.
  replace (n + 2)%nat with (S (n + 1)) by lia.
  apply rt_fields.
  - plain_tac.
  - lens_tac.
  - indep_tac.
  - repeat apply Forall_cons; [..|apply Forall_nil].
    + apply (fspec_intro _ _ _ _ _ _ _ _ _ (wf_ext X n) (norm_ext X)); [apply (rt_mono _ (S n)); [apply rt_ext|lia]|field_tac|omit_tac].
    + apply (fspec_intro _ _ _ _ _ _ _ _ _ (wf_any n) (fun v => v)); [apply (rt_mono _ n); [apply rt_any; exact HF|lia]|field_tac|omit_tac].
    + apply (fspec_intro _ _ _ _ _ _ _ _ _ (opt in_i64) (option_map (fun v => v))); [apply (rt_mono _ n); [apply rt_oint|lia]|field_tac|omit_tac].
    + apply (fspec_intro _ _ _ _ _ _ _ _ _ (range 4) (fun v => v)); [apply (rt_mono _ n); [apply rt_trs|lia]|field_tac|omit_tac].
  - intros y A K. unfold fields_AnimationChannelTarget in A, K. agree_tac A. apply ext_AnimationChannelTarget; try assumption.
Qed.
Lemma rt_AnimationChannelTarget : forall old, old = zero_AnimationChannelTarget -> rt (c_AnimationChannelTarget F X) (n + 2) old (wf_AnimationChannelTarget X n) (norm_AnimationChannelTarget X).
Proof.
  intros old -> x W. destruct (fields_rt_fields_AnimationChannelTarget x W [] (Forall_nil _)) as (m & Em & Wm & Dm).
  exists (JObj m). cbn [c_AnimationChannelTarget c_struct enc dec]. unfold enc_struct. rewrite Em. split; [reflexivity|]. split; [exact Wm|exact Dm].
Qed.
Lemma rt_ptr_AnimationChannelTarget : forall old, old = None -> rt (c_ptr zero_AnimationChannelTarget (c_AnimationChannelTarget F X)) (n + 2) old (opt (wf_AnimationChannelTarget X n)) (option_map (norm_AnimationChannelTarget X)).
Proof.
  intros old ->. apply rt_ptr.
  - intros o Ho. apply rt_AnimationChannelTarget. destruct Ho as [Ho|[_ Ho]]; [discriminate|exact Ho].
  - intros x j W E. exact (enc_struct_nonnull _ _ _ E).
Qed.

Lemma ext_AnimationChannel y z : anc_Extensions y = anc_Extensions z -> anc_Extras y = anc_Extras z -> anc_Sampler y = anc_Sampler z -> anc_Target y = anc_Target z -> y = z.
Proof. destruct y, z; cbn; intros; subst; reflexivity. Qed.
Lemma fields_rt_fields_AnimationChannel x : wf_AnimationChannel X n x -> forall pre, Forall (skipped (fields_AnimationChannel F X) (n + 2)) pre ->
  exists m, enc_fields (fields_AnimationChannel F X) x = Ok m /\ wf_json (n + 3) (JObj (pre ++ m)) /\
    dec_struct (fields_AnimationChannel F X) zero_AnimationChannel (JObj (pre ++ m)) = Ok (norm_AnimationChannel X x).
Proof.
  intros W. unfold wf_AnimationChannel in W. decompose [and] W.
  replace (n + 3)%nat with (S (n + 2)) by lia.
  apply rt_fields.
  - plain_tac.
  - lens_tac.
  - indep_tac.
  - repeat apply Forall_cons; [..|apply Forall_nil].
    + apply (fspec_intro _ _ _ _ _ _ _ _ _ (wf_ext X n) (norm_ext X)); [apply (rt_mono _ (S n)); [apply rt_ext|lia]|field_tac|omit_tac].
    + apply (fspec_intro _ _ _ _ _ _ _ _ _ (wf_any n) (fun v => v)); [apply (rt_mono _ n); [apply rt_any; exact HF|lia]|field_tac|omit_tac].
    + apply (fspec_intro _ _ _ _ _ _ _ _ _ (in_i64) (fun v => v)); [apply (rt_mono _ n); [apply rt_int|lia]|field_tac|omit_tac].
    + apply (fspec_intro _ _ _ _ _ _ _ _ _ (wf_AnimationChannelTarget X n) (norm_AnimationChannelTarget X)); [apply (rt_mono _ (n + 2)); [apply rt_AnimationChannelTarget; reflexivity|lia]|field_tac|omit_tac].
  - intros y A K. unfold fields_AnimationChannel in A, K. agree_tac A. apply ext_AnimationChannel; try assumption.
Qed.
Lemma rt_AnimationChannel : forall old, old = zero_AnimationChannel -> rt (c_AnimationChannel F X) (n + 3) old (wf_AnimationChannel X n) (norm_AnimationChannel X).
Proof.
  intros old -> x W. destruct (fields_rt_fields_AnimationChannel x W [] (Forall_nil _)) as (m & Em & Wm & Dm).
  exists (JObj m). cbn [c_AnimationChannel c_struct enc dec]. unfold enc_struct. rewrite Em. split; [reflexivity|]. split; [exact Wm|exact Dm].
Qed.
Lemma rt_ptr_AnimationChannel : forall old, old = None -> rt (c_ptr zero_AnimationChannel (c_AnimationChannel F X)) (n + 3) old (opt (wf_AnimationChannel X n)) (option_map (norm_AnimationChannel X)).
Proof.
  intros old ->. apply rt_ptr.
  - intros o Ho. apply rt_AnimationChannel. destruct Ho as [Ho|[_ Ho]]; [discriminate|exact Ho].
  - intros x j W E. exact (enc_struct_nonnull _ _ _ E).
Qed.

Lemma ext_Animation y z : ani_Extensions y = ani_Extensions z -> ani_Extras y = ani_Extras z -> ani_Name y = ani_Name z -> ani_Channels y = ani_Channels z -> ani_Samplers y = ani_Samplers z -> y = z.
Proof. destruct y, z; cbn; intros; subst; reflexivity. Qed.
Lemma fields_rt_fields_Animation x : wf_Animation X n x -> forall pre, Forall (skipped (fields_Animation F X) (n + 4)) pre ->
  exists m, enc_fields (fields_Animation F X) x = Ok m /\ wf_json (n + 5) (JObj (pre ++ m)) /\
    dec_struct (fields_Animation F X) zero_Animation (JObj (pre ++ m)) = Ok (norm_Animation X x).
Proof.
  intros W. unfold wf_Animation in W. decompose [and] W.
  replace (n + 5)%nat with (S (n + 4)) by lia.
  apply rt_fields.
  - plain_tac.
  - lens_tac.
  - indep_tac.
  - repeat apply Forall_cons; [..|apply Forall_nil].
    + apply (fspec_intro _ _ _ _ _ _ _ _ _ (wf_ext X n) (norm_ext X)); [apply (rt_mono _ (S n)); [apply rt_ext|lia]|field_tac|omit_tac].
    + apply (fspec_intro _ _ _ _ _ _ _ _ _ (wf_any n) (fun v => v)); [apply (rt_mono _ n); [apply rt_any; exact HF|lia]|field_tac|omit_tac].
    + apply (fspec_intro _ _ _ _ _ _ _ _ _ (utf8_str) (fun v => v)); [apply (rt_mono _ n); [apply rt_str|lia]|field_tac|omit_tac].
    + apply (fspec_intro _ _ _ _ _ _ _ _ _ (opt (Forall (opt (wf_AnimationChannel X n)))) (option_map (map (option_map (norm_AnimationChannel X))))); [apply (rt_mono _ (S (n + 3))); [apply (rt_oslice None _ _ (opt (wf_AnimationChannel X n)) (option_map (norm_AnimationChannel X))), (rt_ptr_AnimationChannel); reflexivity|lia]|field_tac|omit_tac].
    + apply (fspec_intro _ _ _ _ _ _ _ _ _ (opt (Forall (opt (wf_AnimationSampler X n)))) (option_map (map (option_map (norm_AnimationSampler X))))); [apply (rt_mono _ (S (n + 2))); [apply (rt_oslice None _ _ (opt (wf_AnimationSampler X n)) (option_map (norm_AnimationSampler X))), (rt_ptr_AnimationSampler); reflexivity|lia]|field_tac|omit_tac].
  - intros y A K. unfold fields_Animation in A, K. agree_tac A. apply ext_Animation; try assumption.
Qed.
Lemma rt_Animation : forall old, old = zero_Animation -> rt (c_Animation F X) (n + 5) old (wf_Animation X n) (norm_Animation X).
Proof.
  intros old -> x W. destruct (fields_rt_fields_Animation x W [] (Forall_nil _)) as (m & Em & Wm & Dm).
  exists (JObj m). cbn [c_Animation c_struct enc dec]. unfold enc_struct. rewrite Em. split; [reflexivity|]. split; [exact Wm|exact Dm].
Qed.
Lemma rt_ptr_Animation : forall old, old = None -> rt (c_ptr zero_Animation (c_Animation F X)) (n + 5) old (opt (wf_Animation X n)) (option_map (norm_Animation X)).
Proof.
  intros old ->. apply rt_ptr.
  - intros o Ho. apply rt_Animation. destruct Ho as [Ho|[_ Ho]]; [discriminate|exact Ho].
  - intros x j W E. exact (enc_struct_nonnull _ _ _ E).
Qed.

Lemma ext_Document y z : doc_Extensions y = doc_Extensions z -> doc_Extras y = doc_Extras z -> doc_ExtensionsUsed y = doc_ExtensionsUsed z -> doc_ExtensionsRequired y = doc_ExtensionsRequired z -> doc_Accessors y = doc_Accessors z -> doc_Animations y = doc_Animations z -> doc_Asset y = doc_Asset z -> doc_Buffers y = doc_Buffers z -> doc_BufferViews y = doc_BufferViews z -> doc_Cameras y = doc_Cameras z -> doc_Images y = doc_Images z -> doc_Materials y = doc_Materials z -> doc_Meshes y = doc_Meshes z -> doc_Nodes y = doc_Nodes z -> doc_Samplers y = doc_Samplers z -> doc_Scene y = doc_Scene z -> doc_Scenes y = doc_Scenes z -> doc_Skins y = doc_Skins z -> doc_Textures y = doc_Textures z -> y = z.
Proof. destruct y, z; cbn; intros; subst; reflexivity. Qed.
Lemma fields_rt_out_Document x : wf_Document X n x -> forall pre, Forall (skipped (fields_Document F X) (n + 6)) pre ->
  exists m, enc_fields (out_Document F X) x = Ok m /\ wf_json (n + 7) (JObj (pre ++ m)) /\
    dec_struct (fields_Document F X) zero_Document (JObj (pre ++ m)) = Ok (norm_Document X x).
Proof.
  intros W. unfold wf_Document in W. decompose [and] W.
  replace (n + 7)%nat with (S (n + 6)) by lia.
  apply rt_fields.
  - plain_tac.
  - lens_tac.
  - indep_tac.
  - repeat apply Forall_cons; [..|apply Forall_nil].
    + apply (fspec_intro _ _ _ _ _ _ _ _ _ (Forall (opt (wf_Buffer X n))) (map (option_map (norm_Buffer X)))); [apply (rt_mono _ (S (n + 2))); [apply (rt_slice None _ _ (opt (wf_Buffer X n)) (option_map (norm_Buffer X))), (rt_ptr_Buffer); reflexivity|lia]|field_tac|omit_tac].
    + apply (fspec_intro _ _ _ _ _ _ _ _ _ (wf_ext X n) (norm_ext X)); [apply (rt_mono _ (S n)); [apply rt_ext|lia]|field_tac|omit_tac].
    + apply (fspec_intro _ _ _ _ _ _ _ _ _ (wf_any n) (fun v => v)); [apply (rt_mono _ n); [apply rt_any; exact HF|lia]|field_tac|omit_tac].
    + apply (fspec_intro _ _ _ _ _ _ _ _ _ (Forall utf8_str) (map (fun v => v))); [apply (rt_mono _ (S n)); [apply (rt_slice _ c_str n utf8_str (fun v => v)), rt_str|lia]|field_tac|omit_tac].
    + apply (fspec_intro _ _ _ _ _ _ _ _ _ (Forall utf8_str) (map (fun v => v))); [apply (rt_mono _ (S n)); [apply (rt_slice _ c_str n utf8_str (fun v => v)), rt_str|lia]|field_tac|omit_tac].
    + apply (fspec_intro _ _ _ _ _ _ _ _ _ (Forall (opt (wf_Accessor X n))) (map (option_map (norm_Accessor X)))); [apply (rt_mono _ (S (n + 4))); [apply (rt_slice None _ _ (opt (wf_Accessor X n)) (option_map (norm_Accessor X))), (rt_ptr_Accessor); reflexivity|lia]|field_tac|omit_tac].
    + apply (fspec_intro _ _ _ _ _ _ _ _ _ (Forall (opt (wf_Animation X n))) (map (option_map (norm_Animation X)))); [apply (rt_mono _ (S (n + 5))); [apply (rt_slice None _ _ (opt (wf_Animation X n)) (option_map (norm_Animation X))), (rt_ptr_Animation); reflexivity|lia]|field_tac|omit_tac].
    + apply (fspec_intro _ _ _ _ _ _ _ _ _ (wf_Asset X n) (norm_Asset X)); [apply (rt_mono _ (n + 2)); [apply rt_Asset|lia]|field_tac|omit_tac].
    + apply (fspec_intro _ _ _ _ _ _ _ _ _ (Forall (opt (wf_BufferView X n))) (map (option_map (norm_BufferView X)))); [apply (rt_mono _ (S (n + 2))); [apply (rt_slice None _ _ (opt (wf_BufferView X n)) (option_map (norm_BufferView X))), (rt_ptr_BufferView); reflexivity|lia]|field_tac|omit_tac].
    + apply (fspec_intro _ _ _ _ _ _ _ _ _ (Forall (opt (wf_Camera X n))) (map (option_map (norm_Camera X)))); [apply (rt_mono _ (S (n + 3))); [apply (rt_slice None _ _ (opt (wf_Camera X n)) (option_map (norm_Camera X))), (rt_ptr_Camera); reflexivity|lia]|field_tac|omit_tac].
    + apply (fspec_intro _ _ _ _ _ _ _ _ _ (Forall (opt (wf_Image X n))) (map (option_map (norm_Image X)))); [apply (rt_mono _ (S (n + 2))); [apply (rt_slice None _ _ (opt (wf_Image X n)) (option_map (norm_Image X))), (rt_ptr_Image); reflexivity|lia]|field_tac|omit_tac].
    + apply (fspec_intro _ _ _ _ _ _ _ _ _ (Forall (opt (wf_Material X n))) (map (option_map (norm_Material X)))); [apply (rt_mono _ (S (n + 4))); [apply (rt_slice None _ _ (opt (wf_Material X n)) (option_map (norm_Material X))), (rt_ptr_Material); reflexivity|lia]|field_tac|omit_tac].
    + apply (fspec_intro _ _ _ _ _ _ _ _ _ (Forall (opt (wf_Mesh X n))) (map (option_map (norm_Mesh X)))); [apply (rt_mono _ (S (n + 5))); [apply (rt_slice None _ _ (opt (wf_Mesh X n)) (option_map (norm_Mesh X))), (rt_ptr_Mesh); reflexivity|lia]|field_tac|omit_tac].
    + apply (fspec_intro _ _ _ _ _ _ _ _ _ (Forall (opt (wf_Node X n))) (map (option_map (norm_Node X)))); [apply (rt_mono _ (S (n + 2))); [apply (rt_slice None _ _ (opt (wf_Node X n)) (option_map (norm_Node X))), (rt_ptr_Node); reflexivity|lia]|field_tac|omit_tac].
    + apply (fspec_intro _ _ _ _ _ _ _ _ _ (Forall (opt (wf_Sampler X n))) (map (option_map (norm_Sampler X)))); [apply (rt_mono _ (S (n + 2))); [apply (rt_slice None _ _ (opt (wf_Sampler X n)) (option_map (norm_Sampler X))), (rt_ptr_Sampler); reflexivity|lia]|field_tac|omit_tac].
    + apply (fspec_intro _ _ _ _ _ _ _ _ _ (opt in_i64) (option_map (fun v => v))); [apply (rt_mono _ n); [apply rt_oint|lia]|field_tac|omit_tac].
    + apply (fspec_intro _ _ _ _ _ _ _ _ _ (Forall (opt (wf_Scene X n))) (map (option_map (norm_Scene X)))); [apply (rt_mono _ (S (n + 2))); [apply (rt_slice None _ _ (opt (wf_Scene X n)) (option_map (norm_Scene X))), (rt_ptr_Scene); reflexivity|lia]|field_tac|omit_tac].
    + apply (fspec_intro _ _ _ _ _ _ _ _ _ (Forall (opt (wf_Skin X n))) (map (option_map (norm_Skin X)))); [apply (rt_mono _ (S (n + 2))); [apply (rt_slice None _ _ (opt (wf_Skin X n)) (option_map (norm_Skin X))), (rt_ptr_Skin); reflexivity|lia]|field_tac|omit_tac].
    + apply (fspec_intro _ _ _ _ _ _ _ _ _ (Forall (opt (wf_Texture X n))) (map (option_map (norm_Texture X)))); [apply (rt_mono _ (S (n + 2))); [apply (rt_slice None _ _ (opt (wf_Texture X n)) (option_map (norm_Texture X))), (rt_ptr_Texture); reflexivity|lia]|field_tac|omit_tac].
  - intros y A K. unfold out_Document in A, K. agree_tac A. apply ext_Document; try assumption.
Qed.
Lemma rt_Document : forall old, old = zero_Document -> rt (c_Document F X) (n + 7) old (wf_Document X n) (norm_Document X).
Proof.
  intros old -> x W. destruct (fields_rt_out_Document x W [] (Forall_nil _)) as (m & Em & Wm & Dm).
  exists (JObj m). cbn [c_Document c_struct enc dec]. unfold enc_struct. rewrite Em. split; [reflexivity|]. split; [exact Wm|exact Dm].
Qed.
Lemma rt_ptr_Document : forall old, old = None -> rt (c_ptr zero_Document (c_Document F X)) (n + 7) old (opt (wf_Document X n)) (option_map (norm_Document X)).
Proof.
  intros old ->. apply rt_ptr.
  - intros o Ho. apply rt_Document. destruct Ho as [Ho|[_ Ho]]; [discriminate|exact Ho].
  - intros x j W E. exact (enc_struct_nonnull _ _ _ E).
Qed.
End Params.
