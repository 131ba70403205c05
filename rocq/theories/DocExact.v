(** When the encoder of each document type succeeds, and that it writes
    well-formed JSON.  GENERATED by tools/gen_go.py; do not edit. *)
From Verif Require Import Base BaseFacts Types Doc F64 SpecText JsonText Codec DocCodec SpecJson CodecProofs SpecGo SpecGoDoc EncodeExact.

Section Params.
Context (F : float_lib) (X : ext_lib) (HF : float_contract F).

Lemma exf_fields_Asset : exact_fields (go_Asset X) (savable_Asset X) (fields_Asset F X).
Proof.
  apply (exact_fields_intro _ _ _ [(fun x => (savable_ext X) (ast_Extensions x));
    (fun x => (savable_any) (ast_Extras x));
    (fun x => (fun _ => True) (ast_Copyright x));
    (fun x => (fun _ => True) (ast_Generator x));
    (fun x => (fun _ => True) (ast_Version x));
    (fun x => (fun _ => True) (ast_MinVersion x))]).
  - repeat apply Forall2_cons; [..|apply Forall2_nil].
    + apply (fexact_intro _ (go_ext X) (savable_ext X)); [name_tac|apply ex_ext|go_tac go_Asset|omit_exact_tac].
    + apply (fexact_intro _ (go_any) (savable_any)); [name_tac|apply ex_any, HF|go_tac go_Asset|omit_exact_tac].
    + apply (fexact_intro _ (fun _ => True) (fun _ => True)); [name_tac|apply ex_str|go_tac go_Asset|omit_exact_tac].
    + apply (fexact_intro _ (fun _ => True) (fun _ => True)); [name_tac|apply ex_str|go_tac go_Asset|omit_exact_tac].
    + apply (fexact_intro _ (fun _ => True) (fun _ => True)); [name_tac|apply ex_str|go_tac go_Asset|omit_exact_tac].
    + apply (fexact_intro _ (fun _ => True) (fun _ => True)); [name_tac|apply ex_str|go_tac go_Asset|omit_exact_tac].
  - intros x. unfold savable_Asset. sav_tac.
Qed.

Lemma exf_out_Asset : exact_fields (go_Asset X) (savable_Asset X) (out_Asset F X).
Proof.
  apply (exact_fields_intro _ _ _ [(fun x => (fun _ => True) (ast_Version x));
    (fun x => (savable_ext X) (ast_Extensions x));
    (fun x => (savable_any) (ast_Extras x));
    (fun x => (fun _ => True) (ast_Copyright x));
    (fun x => (fun _ => True) (ast_Generator x));
    (fun x => (fun _ => True) (ast_MinVersion x))]).
  - repeat apply Forall2_cons; [..|apply Forall2_nil].
    + apply (fexact_intro _ (fun _ => True) (fun _ => True)); [name_tac|apply ex_str|go_tac go_Asset|omit_exact_tac].
    + apply (fexact_intro _ (go_ext X) (savable_ext X)); [name_tac|apply ex_ext|go_tac go_Asset|omit_exact_tac].
    + apply (fexact_intro _ (go_any) (savable_any)); [name_tac|apply ex_any, HF|go_tac go_Asset|omit_exact_tac].
    + apply (fexact_intro _ (fun _ => True) (fun _ => True)); [name_tac|apply ex_str|go_tac go_Asset|omit_exact_tac].
    + apply (fexact_intro _ (fun _ => True) (fun _ => True)); [name_tac|apply ex_str|go_tac go_Asset|omit_exact_tac].
    + apply (fexact_intro _ (fun _ => True) (fun _ => True)); [name_tac|apply ex_str|go_tac go_Asset|omit_exact_tac].
  - intros x. unfold savable_Asset. sav_tac.
Qed.
Lemma ex_Asset : exact (go_Asset X) (savable_Asset X) (c_Asset F X).
Proof.
  intros x G. cbn [c_Asset enc]. unfold enc_Asset. destruct (str_empty (ast_Version x)) eqn:E.
  - apply (exact_struct _ _ _ exf_out_Asset (set_ast_Version "2.0" x)). exact G.
  - apply (exact_struct _ _ _ exf_fields_Asset x G).
Qed.

Lemma exf_fields_SparseValues : exact_fields (go_SparseValues X) (savable_SparseValues X) (fields_SparseValues F X).
Proof.
  apply (exact_fields_intro _ _ _ [(fun x => (savable_ext X) (spv_Extensions x));
    (fun x => (savable_any) (spv_Extras x));
    (fun x => (fun _ => True) (spv_BufferView x));
    (fun x => (fun _ => True) (spv_ByteOffset x))]).
  - repeat apply Forall2_cons; [..|apply Forall2_nil].
    + apply (fexact_intro _ (go_ext X) (savable_ext X)); [name_tac|apply ex_ext|go_tac go_SparseValues|omit_exact_tac].
    + apply (fexact_intro _ (go_any) (savable_any)); [name_tac|apply ex_any, HF|go_tac go_SparseValues|omit_exact_tac].
    + apply (fexact_intro _ (in_i64) (fun _ => True)); [name_tac|apply ex_int|go_tac go_SparseValues|omit_exact_tac].
    + apply (fexact_intro _ (in_i64) (fun _ => True)); [name_tac|apply ex_int|go_tac go_SparseValues|omit_exact_tac].
  - intros x. unfold savable_SparseValues. sav_tac.
Qed.
Lemma ex_SparseValues : exact (go_SparseValues X) (savable_SparseValues X) (c_SparseValues F X).
Proof. exact (exact_struct _ _ _ exf_fields_SparseValues). Qed.

Lemma exf_fields_SparseIndices : exact_fields (go_SparseIndices X) (savable_SparseIndices X) (fields_SparseIndices F X).
Proof.
  apply (exact_fields_intro _ _ _ [(fun x => (savable_ext X) (spi_Extensions x));
    (fun x => (savable_any) (spi_Extras x));
    (fun x => (fun _ => True) (spi_BufferView x));
    (fun x => (fun _ => True) (spi_ByteOffset x));
    (fun x => (fun _ => True) (spi_ComponentType x))]).
  - repeat apply Forall2_cons; [..|apply Forall2_nil].
    + apply (fexact_intro _ (go_ext X) (savable_ext X)); [name_tac|apply ex_ext|go_tac go_SparseIndices|omit_exact_tac].
    + apply (fexact_intro _ (go_any) (savable_any)); [name_tac|apply ex_any, HF|go_tac go_SparseIndices|omit_exact_tac].
    + apply (fexact_intro _ (in_i64) (fun _ => True)); [name_tac|apply ex_int|go_tac go_SparseIndices|omit_exact_tac].
    + apply (fexact_intro _ (in_i64) (fun _ => True)); [name_tac|apply ex_int|go_tac go_SparseIndices|omit_exact_tac].
    + apply (fexact_intro _ (fun _ => True) (fun _ => True)); [name_tac|apply ex_ct|go_tac go_SparseIndices|omit_exact_tac].
  - intros x. unfold savable_SparseIndices. sav_tac.
Qed.
Lemma ex_SparseIndices : exact (go_SparseIndices X) (savable_SparseIndices X) (c_SparseIndices F X).
Proof. exact (exact_struct _ _ _ exf_fields_SparseIndices). Qed.

Lemma exf_fields_Sparse : exact_fields (go_Sparse X) (savable_Sparse X) (fields_Sparse F X).
Proof.
  apply (exact_fields_intro _ _ _ [(fun x => (savable_ext X) (spa_Extensions x));
    (fun x => (savable_any) (spa_Extras x));
    (fun x => (fun _ => True) (spa_Count x));
    (fun x => (savable_SparseIndices X) (spa_Indices x));
    (fun x => (savable_SparseValues X) (spa_Values x))]).
  - repeat apply Forall2_cons; [..|apply Forall2_nil].
    + apply (fexact_intro _ (go_ext X) (savable_ext X)); [name_tac|apply ex_ext|go_tac go_Sparse|omit_exact_tac].
    + apply (fexact_intro _ (go_any) (savable_any)); [name_tac|apply ex_any, HF|go_tac go_Sparse|omit_exact_tac].
    + apply (fexact_intro _ (in_i64) (fun _ => True)); [name_tac|apply ex_int|go_tac go_Sparse|omit_exact_tac].
    + apply (fexact_intro _ (go_SparseIndices X) (savable_SparseIndices X)); [name_tac|apply ex_SparseIndices|go_tac go_Sparse|omit_exact_tac].
    + apply (fexact_intro _ (go_SparseValues X) (savable_SparseValues X)); [name_tac|apply ex_SparseValues|go_tac go_Sparse|omit_exact_tac].
  - intros x. unfold savable_Sparse. sav_tac.
Qed.
Lemma ex_Sparse : exact (go_Sparse X) (savable_Sparse X) (c_Sparse F X).
Proof. exact (exact_struct _ _ _ exf_fields_Sparse). Qed.

Lemma exf_fields_Accessor : exact_fields (go_Accessor X) (savable_Accessor X) (fields_Accessor F X).
Proof.
  apply (exact_fields_intro _ _ _ [(fun x => (savable_ext X) (acr_Extensions x));
    (fun x => (savable_any) (acr_Extras x));
    (fun x => (fun _ => True) (acr_Name x));
    (fun x => (opt (fun _ => True)) (acr_BufferView x));
    (fun x => (fun _ => True) (acr_ByteOffset x));
    (fun x => (fun _ => True) (acr_ComponentType x));
    (fun x => (fun _ => True) (acr_Normalized x));
    (fun x => (fun _ => True) (acr_Count x));
    (fun x => (fun _ => True) (acr_Type x));
    (fun x => (Forall finite) (acr_Max x));
    (fun x => (Forall finite) (acr_Min x));
    (fun x => (opt (savable_Sparse X)) (acr_Sparse x))]).
  - repeat apply Forall2_cons; [..|apply Forall2_nil].
    + apply (fexact_intro _ (go_ext X) (savable_ext X)); [name_tac|apply ex_ext|go_tac go_Accessor|omit_exact_tac].
    + apply (fexact_intro _ (go_any) (savable_any)); [name_tac|apply ex_any, HF|go_tac go_Accessor|omit_exact_tac].
    + apply (fexact_intro _ (fun _ => True) (fun _ => True)); [name_tac|apply ex_str|go_tac go_Accessor|omit_exact_tac].
    + apply (fexact_intro _ (opt in_i64) (opt (fun _ => True))); [name_tac|apply ex_ptr, ex_int|go_tac go_Accessor|omit_exact_tac].
    + apply (fexact_intro _ (in_i64) (fun _ => True)); [name_tac|apply ex_int|go_tac go_Accessor|omit_exact_tac].
    + apply (fexact_intro _ (fun _ => True) (fun _ => True)); [name_tac|apply ex_ct|go_tac go_Accessor|omit_exact_tac].
    + apply (fexact_intro _ (fun _ => True) (fun _ => True)); [name_tac|apply ex_bool|go_tac go_Accessor|omit_exact_tac].
    + apply (fexact_intro _ (in_i64) (fun _ => True)); [name_tac|apply ex_int|go_tac go_Accessor|omit_exact_tac].
    + apply (fexact_intro _ (fun _ => True) (fun _ => True)); [name_tac|apply ex_at|go_tac go_Accessor|omit_exact_tac].
    + apply (fexact_intro _ (Forall go_float) (Forall finite)); [name_tac|apply ex_slice, ex_f64, HF|go_tac go_Accessor|omit_exact_tac].
    + apply (fexact_intro _ (Forall go_float) (Forall finite)); [name_tac|apply ex_slice, ex_f64, HF|go_tac go_Accessor|omit_exact_tac].
    + apply (fexact_intro _ (opt (go_Sparse X)) (opt (savable_Sparse X))); [name_tac|apply ex_ptr, ex_Sparse|go_tac go_Accessor|omit_exact_tac].
  - intros x. unfold savable_Accessor. sav_tac.
Qed.
Lemma ex_Accessor : exact (go_Accessor X) (savable_Accessor X) (c_Accessor F X).
Proof. exact (exact_struct _ _ _ exf_fields_Accessor). Qed.

Lemma exf_fields_Buffer : exact_fields (go_Buffer X) (savable_Buffer X) (fields_Buffer F X).
Proof.
  apply (exact_fields_intro _ _ _ [(fun x => (savable_ext X) (buf_Extensions x));
    (fun x => (savable_any) (buf_Extras x));
    (fun x => (fun _ => True) (buf_Name x));
    (fun x => (fun _ => True) (buf_URI x));
    (fun x => (fun _ => True) (buf_ByteLength x))]).
  - repeat apply Forall2_cons; [..|apply Forall2_nil].
    + apply (fexact_intro _ (go_ext X) (savable_ext X)); [name_tac|apply ex_ext|go_tac go_Buffer|omit_exact_tac].
    + apply (fexact_intro _ (go_any) (savable_any)); [name_tac|apply ex_any, HF|go_tac go_Buffer|omit_exact_tac].
    + apply (fexact_intro _ (fun _ => True) (fun _ => True)); [name_tac|apply ex_str|go_tac go_Buffer|omit_exact_tac].
    + apply (fexact_intro _ (fun _ => True) (fun _ => True)); [name_tac|apply ex_str|go_tac go_Buffer|omit_exact_tac].
    + apply (fexact_intro _ (in_i64) (fun _ => True)); [name_tac|apply ex_int|go_tac go_Buffer|omit_exact_tac].
  - intros x. unfold savable_Buffer. sav_tac.
Qed.
Lemma ex_Buffer : exact (go_Buffer X) (savable_Buffer X) (c_Buffer F X).
Proof. exact (exact_struct _ _ _ exf_fields_Buffer). Qed.

Lemma exf_fields_BufferView : exact_fields (go_BufferView X) (savable_BufferView X) (fields_BufferView F X).
Proof.
  apply (exact_fields_intro _ _ _ [(fun x => (savable_ext X) (bvw_Extensions x));
    (fun x => (savable_any) (bvw_Extras x));
    (fun x => (fun _ => True) (bvw_Buffer x));
    (fun x => (fun _ => True) (bvw_ByteOffset x));
    (fun x => (fun _ => True) (bvw_ByteLength x));
    (fun x => (fun _ => True) (bvw_ByteStride x));
    (fun x => (fun _ => True) (bvw_Target x));
    (fun x => (fun _ => True) (bvw_Name x))]).
  - repeat apply Forall2_cons; [..|apply Forall2_nil].
    + apply (fexact_intro _ (go_ext X) (savable_ext X)); [name_tac|apply ex_ext|go_tac go_BufferView|omit_exact_tac].
    + apply (fexact_intro _ (go_any) (savable_any)); [name_tac|apply ex_any, HF|go_tac go_BufferView|omit_exact_tac].
    + apply (fexact_intro _ (in_i64) (fun _ => True)); [name_tac|apply ex_int|go_tac go_BufferView|omit_exact_tac].
    + apply (fexact_intro _ (in_i64) (fun _ => True)); [name_tac|apply ex_int|go_tac go_BufferView|omit_exact_tac].
    + apply (fexact_intro _ (in_i64) (fun _ => True)); [name_tac|apply ex_int|go_tac go_BufferView|omit_exact_tac].
    + apply (fexact_intro _ (in_i64) (fun _ => True)); [name_tac|apply ex_int|go_tac go_BufferView|omit_exact_tac].
    + apply (fexact_intro _ (range 65536) (fun _ => True)); [name_tac|apply ex_tgt|go_tac go_BufferView|omit_exact_tac].
    + apply (fexact_intro _ (fun _ => True) (fun _ => True)); [name_tac|apply ex_str|go_tac go_BufferView|omit_exact_tac].
  - intros x. unfold savable_BufferView. sav_tac.
Qed.
Lemma ex_BufferView : exact (go_BufferView X) (savable_BufferView X) (c_BufferView F X).
Proof. exact (exact_struct _ _ _ exf_fields_BufferView). Qed.

Lemma exf_fields_Scene : exact_fields (go_Scene X) (savable_Scene X) (fields_Scene F X).
Proof.
  apply (exact_fields_intro _ _ _ [(fun x => (savable_ext X) (scn_Extensions x));
    (fun x => (savable_any) (scn_Extras x));
    (fun x => (fun _ => True) (scn_Name x));
    (fun x => (Forall (fun _ => True)) (scn_Nodes x))]).
  - repeat apply Forall2_cons; [..|apply Forall2_nil].
    + apply (fexact_intro _ (go_ext X) (savable_ext X)); [name_tac|apply ex_ext|go_tac go_Scene|omit_exact_tac].
    + apply (fexact_intro _ (go_any) (savable_any)); [name_tac|apply ex_any, HF|go_tac go_Scene|omit_exact_tac].
    + apply (fexact_intro _ (fun _ => True) (fun _ => True)); [name_tac|apply ex_str|go_tac go_Scene|omit_exact_tac].
    + apply (fexact_intro _ (Forall in_i64) (Forall (fun _ => True))); [name_tac|apply ex_slice, ex_int|go_tac go_Scene|omit_exact_tac].
  - intros x. unfold savable_Scene. sav_tac.
Qed.
Lemma ex_Scene : exact (go_Scene X) (savable_Scene X) (c_Scene F X).
Proof. exact (exact_struct _ _ _ exf_fields_Scene). Qed.

Lemma exf_out_Node : exact_fields (go_Node X) (savable_Node X) (out_Node F X).
Proof.
  apply (exact_fields_intro _ _ _ [(fun x => (Forall finite) (nod_Matrix x));
    (fun x => (Forall finite) (nod_Rotation x));
    (fun x => (Forall finite) (nod_Scale x));
    (fun x => (Forall finite) (nod_Translation x));
    (fun x => (savable_ext X) (nod_Extensions x));
    (fun x => (savable_any) (nod_Extras x));
    (fun x => (fun _ => True) (nod_Name x));
    (fun x => (opt (fun _ => True)) (nod_Camera x));
    (fun x => (Forall (fun _ => True)) (nod_Children x));
    (fun x => (opt (fun _ => True)) (nod_Skin x));
    (fun x => (opt (fun _ => True)) (nod_Mesh x));
    (fun x => (Forall finite) (nod_Weights x))]).
  - repeat apply Forall2_cons; [..|apply Forall2_nil].
    + apply (fexact_intro _ (go_array 16) (Forall finite)); [name_tac|apply ex_array, HF|go_tac go_Node|omit_exact_tac].
    + apply (fexact_intro _ (go_array 4) (Forall finite)); [name_tac|apply ex_array, HF|go_tac go_Node|omit_exact_tac].
    + apply (fexact_intro _ (go_array 3) (Forall finite)); [name_tac|apply ex_array, HF|go_tac go_Node|omit_exact_tac].
    + apply (fexact_intro _ (go_array 3) (Forall finite)); [name_tac|apply ex_array, HF|go_tac go_Node|omit_exact_tac].
    + apply (fexact_intro _ (go_ext X) (savable_ext X)); [name_tac|apply ex_ext|go_tac go_Node|omit_exact_tac].
    + apply (fexact_intro _ (go_any) (savable_any)); [name_tac|apply ex_any, HF|go_tac go_Node|omit_exact_tac].
    + apply (fexact_intro _ (fun _ => True) (fun _ => True)); [name_tac|apply ex_str|go_tac go_Node|omit_exact_tac].
    + apply (fexact_intro _ (opt in_i64) (opt (fun _ => True))); [name_tac|apply ex_ptr, ex_int|go_tac go_Node|omit_exact_tac].
    + apply (fexact_intro _ (Forall in_i64) (Forall (fun _ => True))); [name_tac|apply ex_slice, ex_int|go_tac go_Node|omit_exact_tac].
    + apply (fexact_intro _ (opt in_i64) (opt (fun _ => True))); [name_tac|apply ex_ptr, ex_int|go_tac go_Node|omit_exact_tac].
    + apply (fexact_intro _ (opt in_i64) (opt (fun _ => True))); [name_tac|apply ex_ptr, ex_int|go_tac go_Node|omit_exact_tac].
    + apply (fexact_intro _ (Forall go_float) (Forall finite)); [name_tac|apply ex_slice, ex_f64, HF|go_tac go_Node|omit_exact_tac].
  - intros x. unfold savable_Node. sav_tac.
Qed.
Lemma ex_Node : exact (go_Node X) (savable_Node X) (c_Node F X).
Proof. exact (exact_struct _ _ _ exf_out_Node). Qed.

Lemma exf_fields_Skin : exact_fields (go_Skin X) (savable_Skin X) (fields_Skin F X).
Proof.
  apply (exact_fields_intro _ _ _ [(fun x => (savable_ext X) (skn_Extensions x));
    (fun x => (savable_any) (skn_Extras x));
    (fun x => (fun _ => True) (skn_Name x));
    (fun x => (opt (fun _ => True)) (skn_InverseBindMatrices x));
    (fun x => (opt (fun _ => True)) (skn_Skeleton x));
    (fun x => (opt (Forall (fun _ => True))) (skn_Joints x))]).
  - repeat apply Forall2_cons; [..|apply Forall2_nil].
    + apply (fexact_intro _ (go_ext X) (savable_ext X)); [name_tac|apply ex_ext|go_tac go_Skin|omit_exact_tac].
    + apply (fexact_intro _ (go_any) (savable_any)); [name_tac|apply ex_any, HF|go_tac go_Skin|omit_exact_tac].
    + apply (fexact_intro _ (fun _ => True) (fun _ => True)); [name_tac|apply ex_str|go_tac go_Skin|omit_exact_tac].
    + apply (fexact_intro _ (opt in_i64) (opt (fun _ => True))); [name_tac|apply ex_ptr, ex_int|go_tac go_Skin|omit_exact_tac].
    + apply (fexact_intro _ (opt in_i64) (opt (fun _ => True))); [name_tac|apply ex_ptr, ex_int|go_tac go_Skin|omit_exact_tac].
    + apply (fexact_intro _ (opt (Forall in_i64)) (opt (Forall (fun _ => True)))); [name_tac|apply ex_oslice, ex_int|go_tac go_Skin|omit_exact_tac].
  - intros x. unfold savable_Skin. sav_tac.
Qed.
Lemma ex_Skin : exact (go_Skin X) (savable_Skin X) (c_Skin F X).
Proof. exact (exact_struct _ _ _ exf_fields_Skin). Qed.

Lemma exf_fields_Orthographic : exact_fields (go_Orthographic X) (savable_Orthographic X) (fields_Orthographic F X).
Proof.
  apply (exact_fields_intro _ _ _ [(fun x => (savable_ext X) (ort_Extensions x));
    (fun x => (savable_any) (ort_Extras x));
    (fun x => (finite) (ort_Xmag x));
    (fun x => (finite) (ort_Ymag x));
    (fun x => (finite) (ort_Zfar x));
    (fun x => (finite) (ort_Znear x))]).
  - repeat apply Forall2_cons; [..|apply Forall2_nil].
    + apply (fexact_intro _ (go_ext X) (savable_ext X)); [name_tac|apply ex_ext|go_tac go_Orthographic|omit_exact_tac].
    + apply (fexact_intro _ (go_any) (savable_any)); [name_tac|apply ex_any, HF|go_tac go_Orthographic|omit_exact_tac].
    + apply (fexact_intro _ (go_float) (finite)); [name_tac|apply ex_f64, HF|go_tac go_Orthographic|omit_exact_tac].
    + apply (fexact_intro _ (go_float) (finite)); [name_tac|apply ex_f64, HF|go_tac go_Orthographic|omit_exact_tac].
    + apply (fexact_intro _ (go_float) (finite)); [name_tac|apply ex_f64, HF|go_tac go_Orthographic|omit_exact_tac].
    + apply (fexact_intro _ (go_float) (finite)); [name_tac|apply ex_f64, HF|go_tac go_Orthographic|omit_exact_tac].
  - intros x. unfold savable_Orthographic. sav_tac.
Qed.
Lemma ex_Orthographic : exact (go_Orthographic X) (savable_Orthographic X) (c_Orthographic F X).
Proof. exact (exact_struct _ _ _ exf_fields_Orthographic). Qed.

Lemma exf_fields_Perspective : exact_fields (go_Perspective X) (savable_Perspective X) (fields_Perspective F X).
Proof.
  apply (exact_fields_intro _ _ _ [(fun x => (savable_ext X) (per_Extensions x));
    (fun x => (savable_any) (per_Extras x));
    (fun x => (opt finite) (per_AspectRatio x));
    (fun x => (finite) (per_Yfov x));
    (fun x => (opt finite) (per_Zfar x));
    (fun x => (finite) (per_Znear x))]).
  - repeat apply Forall2_cons; [..|apply Forall2_nil].
    + apply (fexact_intro _ (go_ext X) (savable_ext X)); [name_tac|apply ex_ext|go_tac go_Perspective|omit_exact_tac].
    + apply (fexact_intro _ (go_any) (savable_any)); [name_tac|apply ex_any, HF|go_tac go_Perspective|omit_exact_tac].
    + apply (fexact_intro _ (opt go_float) (opt finite)); [name_tac|apply ex_ptr, ex_f64, HF|go_tac go_Perspective|omit_exact_tac].
    + apply (fexact_intro _ (go_float) (finite)); [name_tac|apply ex_f64, HF|go_tac go_Perspective|omit_exact_tac].
    + apply (fexact_intro _ (opt go_float) (opt finite)); [name_tac|apply ex_ptr, ex_f64, HF|go_tac go_Perspective|omit_exact_tac].
    + apply (fexact_intro _ (go_float) (finite)); [name_tac|apply ex_f64, HF|go_tac go_Perspective|omit_exact_tac].
  - intros x. unfold savable_Perspective. sav_tac.
Qed.
Lemma ex_Perspective : exact (go_Perspective X) (savable_Perspective X) (c_Perspective F X).
Proof. exact (exact_struct _ _ _ exf_fields_Perspective). Qed.

Lemma exf_fields_Camera : exact_fields (go_Camera X) ((fun x => savable_ext X (cam_Extensions x) /\ savable_any (cam_Extras x) /\ opt (savable_Orthographic X) (cam_Orthographic x) /\ opt (savable_Perspective X) (cam_Perspective x))) (fields_Camera F X).
Proof.
  apply (exact_fields_intro _ _ _ [(fun x => (savable_ext X) (cam_Extensions x));
    (fun x => (savable_any) (cam_Extras x));
    (fun x => (fun _ => True) (cam_Name x));
    (fun x => (opt (savable_Orthographic X)) (cam_Orthographic x));
    (fun x => (opt (savable_Perspective X)) (cam_Perspective x))]).
  - repeat apply Forall2_cons; [..|apply Forall2_nil].
    + apply (fexact_intro _ (go_ext X) (savable_ext X)); [name_tac|apply ex_ext|go_tac go_Camera|omit_exact_tac].
    + apply (fexact_intro _ (go_any) (savable_any)); [name_tac|apply ex_any, HF|go_tac go_Camera|omit_exact_tac].
    + apply (fexact_intro _ (fun _ => True) (fun _ => True)); [name_tac|apply ex_str|go_tac go_Camera|omit_exact_tac].
    + apply (fexact_intro _ (opt (go_Orthographic X)) (opt (savable_Orthographic X))); [name_tac|apply ex_ptr, ex_Orthographic|go_tac go_Camera|omit_exact_tac].
    + apply (fexact_intro _ (opt (go_Perspective X)) (opt (savable_Perspective X))); [name_tac|apply ex_ptr, ex_Perspective|go_tac go_Camera|omit_exact_tac].
  - intros x. unfold savable_Camera. sav_tac.
Qed.
Lemma ex_Camera : exact (go_Camera X) (savable_Camera X) (c_Camera F X).
Proof.
  intros x G. cbn [c_Camera enc]. unfold enc_Camera, savable_Camera. pose proof (exf_fields_Camera x G) as E. cbv beta in E. revert E.
  destruct (cam_Perspective x) as [p|] eqn:Ep; [|destruct (cam_Orthographic x) as [q|] eqn:Eq]; intros E.
  - destruct (enc_fields (fields_Camera F X) x) as [m|e|]; cbn [bind]; [|tauto|exact E].
    split; [apply lexical_type; [name_tac|apply E]|]. split; [apply E|]. split; [apply E|]. split; [apply E|]. split; [apply E|right; discriminate].
  - destruct (enc_fields (fields_Camera F X) x) as [m|e|]; cbn [bind]; [|tauto|exact E].
    split; [apply lexical_type; [name_tac|apply E]|]. split; [apply E|]. split; [apply E|]. split; [apply E|]. split; [apply E|left; discriminate].
  - intros (_ & _ & _ & _ & [C|C]); contradiction.
Qed.

Lemma exf_fields_Primitive : exact_fields (go_Primitive X) (savable_Primitive X) (fields_Primitive F X).
Proof.
  apply (exact_fields_intro _ _ _ [(fun x => (savable_ext X) (pri_Extensions x));
    (fun x => (savable_any) (pri_Extras x));
    (fun x => (fun _ => True) (pri_Attributes x));
    (fun x => (opt (fun _ => True)) (pri_Indices x));
    (fun x => (opt (fun _ => True)) (pri_Material x));
    (fun x => (fun _ => True) (pri_Mode x));
    (fun x => (Forall (fun _ => True)) (pri_Targets x))]).
  - repeat apply Forall2_cons; [..|apply Forall2_nil].
    + apply (fexact_intro _ (go_ext X) (savable_ext X)); [name_tac|apply ex_ext|go_tac go_Primitive|omit_exact_tac].
    + apply (fexact_intro _ (go_any) (savable_any)); [name_tac|apply ex_any, HF|go_tac go_Primitive|omit_exact_tac].
    + apply (fexact_intro _ (opt go_attrs) (fun _ => True)); [name_tac|apply ex_attrs|go_tac go_Primitive|omit_exact_tac].
    + apply (fexact_intro _ (opt in_i64) (opt (fun _ => True))); [name_tac|apply ex_ptr, ex_int|go_tac go_Primitive|omit_exact_tac].
    + apply (fexact_intro _ (opt in_i64) (opt (fun _ => True))); [name_tac|apply ex_ptr, ex_int|go_tac go_Primitive|omit_exact_tac].
    + apply (fexact_intro _ (fun _ => True) (fun _ => True)); [name_tac|apply ex_mode|go_tac go_Primitive|omit_exact_tac].
    + apply (fexact_intro _ (Forall (opt go_attrs)) (Forall (fun _ => True))); [name_tac|apply ex_slice, ex_attrs|go_tac go_Primitive|omit_exact_tac].
  - intros x. unfold savable_Primitive. sav_tac.
Qed.
Lemma ex_Primitive : exact (go_Primitive X) (savable_Primitive X) (c_Primitive F X).
Proof. exact (exact_struct _ _ _ exf_fields_Primitive). Qed.

Lemma exf_fields_Mesh : exact_fields (go_Mesh X) (savable_Mesh X) (fields_Mesh F X).
Proof.
  apply (exact_fields_intro _ _ _ [(fun x => (savable_ext X) (msh_Extensions x));
    (fun x => (savable_any) (msh_Extras x));
    (fun x => (fun _ => True) (msh_Name x));
    (fun x => (opt (Forall (opt (savable_Primitive X)))) (msh_Primitives x));
    (fun x => (Forall finite) (msh_Weights x))]).
  - repeat apply Forall2_cons; [..|apply Forall2_nil].
    + apply (fexact_intro _ (go_ext X) (savable_ext X)); [name_tac|apply ex_ext|go_tac go_Mesh|omit_exact_tac].
    + apply (fexact_intro _ (go_any) (savable_any)); [name_tac|apply ex_any, HF|go_tac go_Mesh|omit_exact_tac].
    + apply (fexact_intro _ (fun _ => True) (fun _ => True)); [name_tac|apply ex_str|go_tac go_Mesh|omit_exact_tac].
    + apply (fexact_intro _ (opt (Forall (opt (go_Primitive X)))) (opt (Forall (opt (savable_Primitive X))))); [name_tac|apply ex_oslice, ex_ptr, ex_Primitive|go_tac go_Mesh|omit_exact_tac].
    + apply (fexact_intro _ (Forall go_float) (Forall finite)); [name_tac|apply ex_slice, ex_f64, HF|go_tac go_Mesh|omit_exact_tac].
  - intros x. unfold savable_Mesh. sav_tac.
Qed.
Lemma ex_Mesh : exact (go_Mesh X) (savable_Mesh X) (c_Mesh F X).
Proof. exact (exact_struct _ _ _ exf_fields_Mesh). Qed.

Lemma exf_fields_TextureInfo : exact_fields (go_TextureInfo X) (savable_TextureInfo X) (fields_TextureInfo F X).
Proof.
  apply (exact_fields_intro _ _ _ [(fun x => (savable_ext X) (txi_Extensions x));
    (fun x => (savable_any) (txi_Extras x));
    (fun x => (fun _ => True) (txi_Index x));
    (fun x => (fun _ => True) (txi_TexCoord x))]).
  - repeat apply Forall2_cons; [..|apply Forall2_nil].
    + apply (fexact_intro _ (go_ext X) (savable_ext X)); [name_tac|apply ex_ext|go_tac go_TextureInfo|omit_exact_tac].
    + apply (fexact_intro _ (go_any) (savable_any)); [name_tac|apply ex_any, HF|go_tac go_TextureInfo|omit_exact_tac].
    + apply (fexact_intro _ (in_i64) (fun _ => True)); [name_tac|apply ex_int|go_tac go_TextureInfo|omit_exact_tac].
    + apply (fexact_intro _ (in_i64) (fun _ => True)); [name_tac|apply ex_int|go_tac go_TextureInfo|omit_exact_tac].
  - intros x. unfold savable_TextureInfo. sav_tac.
Qed.
Lemma ex_TextureInfo : exact (go_TextureInfo X) (savable_TextureInfo X) (c_TextureInfo F X).
Proof. exact (exact_struct _ _ _ exf_fields_TextureInfo). Qed.

Lemma exf_fields_NormalTexture : exact_fields (go_NormalTexture X) (savable_NormalTexture X) (fields_NormalTexture F X).
Proof.
  apply (exact_fields_intro _ _ _ [(fun x => (savable_ext X) (ntx_Extensions x));
    (fun x => (savable_any) (ntx_Extras x));
    (fun x => (opt (fun _ => True)) (ntx_Index x));
    (fun x => (fun _ => True) (ntx_TexCoord x));
    (fun x => (opt finite) (ntx_Scale x))]).
  - repeat apply Forall2_cons; [..|apply Forall2_nil].
    + apply (fexact_intro _ (go_ext X) (savable_ext X)); [name_tac|apply ex_ext|go_tac go_NormalTexture|omit_exact_tac].
    + apply (fexact_intro _ (go_any) (savable_any)); [name_tac|apply ex_any, HF|go_tac go_NormalTexture|omit_exact_tac].
    + apply (fexact_intro _ (opt in_i64) (opt (fun _ => True))); [name_tac|apply ex_ptr, ex_int|go_tac go_NormalTexture|omit_exact_tac].
    + apply (fexact_intro _ (in_i64) (fun _ => True)); [name_tac|apply ex_int|go_tac go_NormalTexture|omit_exact_tac].
    + apply (fexact_intro _ (opt go_float) (opt finite)); [name_tac|apply ex_ptr, ex_f64, HF|go_tac go_NormalTexture|omit_exact_tac].
  - intros x. unfold savable_NormalTexture. sav_tac.
Qed.
Lemma ex_NormalTexture : exact (go_NormalTexture X) (savable_NormalTexture X) (c_NormalTexture F X).
Proof. exact (exact_struct _ _ _ exf_fields_NormalTexture). Qed.

Lemma exf_fields_OcclusionTexture : exact_fields (go_OcclusionTexture X) (savable_OcclusionTexture X) (fields_OcclusionTexture F X).
Proof.
  apply (exact_fields_intro _ _ _ [(fun x => (savable_ext X) (otx_Extensions x));
    (fun x => (savable_any) (otx_Extras x));
    (fun x => (opt (fun _ => True)) (otx_Index x));
    (fun x => (fun _ => True) (otx_TexCoord x));
    (fun x => (opt finite) (otx_Strength x))]).
  - repeat apply Forall2_cons; [..|apply Forall2_nil].
    + apply (fexact_intro _ (go_ext X) (savable_ext X)); [name_tac|apply ex_ext|go_tac go_OcclusionTexture|omit_exact_tac].
    + apply (fexact_intro _ (go_any) (savable_any)); [name_tac|apply ex_any, HF|go_tac go_OcclusionTexture|omit_exact_tac].
    + apply (fexact_intro _ (opt in_i64) (opt (fun _ => True))); [name_tac|apply ex_ptr, ex_int|go_tac go_OcclusionTexture|omit_exact_tac].
    + apply (fexact_intro _ (in_i64) (fun _ => True)); [name_tac|apply ex_int|go_tac go_OcclusionTexture|omit_exact_tac].
    + apply (fexact_intro _ (opt go_float) (opt finite)); [name_tac|apply ex_ptr, ex_f64, HF|go_tac go_OcclusionTexture|omit_exact_tac].
  - intros x. unfold savable_OcclusionTexture. sav_tac.
Qed.
Lemma ex_OcclusionTexture : exact (go_OcclusionTexture X) (savable_OcclusionTexture X) (c_OcclusionTexture F X).
Proof. exact (exact_struct _ _ _ exf_fields_OcclusionTexture). Qed.

Lemma exf_fields_PBRMetallicRoughness : exact_fields (go_PBRMetallicRoughness X) (savable_PBRMetallicRoughness X) (fields_PBRMetallicRoughness F X).
Proof.
  apply (exact_fields_intro _ _ _ [(fun x => (savable_ext X) (pbr_Extensions x));
    (fun x => (savable_any) (pbr_Extras x));
    (fun x => (opt (Forall finite)) (pbr_BaseColorFactor x));
    (fun x => (opt (savable_TextureInfo X)) (pbr_BaseColorTexture x));
    (fun x => (opt finite) (pbr_MetallicFactor x));
    (fun x => (opt finite) (pbr_RoughnessFactor x));
    (fun x => (opt (savable_TextureInfo X)) (pbr_MetallicRoughnessTexture x))]).
  - repeat apply Forall2_cons; [..|apply Forall2_nil].
    + apply (fexact_intro _ (go_ext X) (savable_ext X)); [name_tac|apply ex_ext|go_tac go_PBRMetallicRoughness|omit_exact_tac].
    + apply (fexact_intro _ (go_any) (savable_any)); [name_tac|apply ex_any, HF|go_tac go_PBRMetallicRoughness|omit_exact_tac].
    + apply (fexact_intro _ (opt (go_array 4)) (opt (Forall finite))); [name_tac|apply ex_ptr, ex_array, HF|go_tac go_PBRMetallicRoughness|omit_exact_tac].
    + apply (fexact_intro _ (opt (go_TextureInfo X)) (opt (savable_TextureInfo X))); [name_tac|apply ex_ptr, ex_TextureInfo|go_tac go_PBRMetallicRoughness|omit_exact_tac].
    + apply (fexact_intro _ (opt go_float) (opt finite)); [name_tac|apply ex_ptr, ex_f64, HF|go_tac go_PBRMetallicRoughness|omit_exact_tac].
    + apply (fexact_intro _ (opt go_float) (opt finite)); [name_tac|apply ex_ptr, ex_f64, HF|go_tac go_PBRMetallicRoughness|omit_exact_tac].
    + apply (fexact_intro _ (opt (go_TextureInfo X)) (opt (savable_TextureInfo X))); [name_tac|apply ex_ptr, ex_TextureInfo|go_tac go_PBRMetallicRoughness|omit_exact_tac].
  - intros x. unfold savable_PBRMetallicRoughness. sav_tac.
Qed.
Lemma ex_PBRMetallicRoughness : exact (go_PBRMetallicRoughness X) (savable_PBRMetallicRoughness X) (c_PBRMetallicRoughness F X).
Proof. exact (exact_struct _ _ _ exf_fields_PBRMetallicRoughness). Qed.

Lemma exf_out_Material : exact_fields (go_Material X) (savable_Material X) (out_Material F X).
Proof.
  apply (exact_fields_intro _ _ _ [(fun x => (Forall finite) (mat_EmissiveFactor x));
    (fun x => (opt finite) (mat_AlphaCutoff x));
    (fun x => (savable_ext X) (mat_Extensions x));
    (fun x => (savable_any) (mat_Extras x));
    (fun x => (fun _ => True) (mat_Name x));
    (fun x => (opt (savable_PBRMetallicRoughness X)) (mat_PBRMetallicRoughness x));
    (fun x => (opt (savable_NormalTexture X)) (mat_NormalTexture x));
    (fun x => (opt (savable_OcclusionTexture X)) (mat_OcclusionTexture x));
    (fun x => (opt (savable_TextureInfo X)) (mat_EmissiveTexture x));
    (fun x => (fun _ => True) (mat_AlphaMode x));
    (fun x => (fun _ => True) (mat_DoubleSided x))]).
  - repeat apply Forall2_cons; [..|apply Forall2_nil].
    + apply (fexact_intro _ (go_array 3) (Forall finite)); [name_tac|apply ex_array, HF|go_tac go_Material|omit_exact_tac].
    + apply (fexact_intro _ (opt go_float) (opt finite)); [name_tac|apply ex_ptr, ex_f64, HF|go_tac go_Material|omit_exact_tac].
    + apply (fexact_intro _ (go_ext X) (savable_ext X)); [name_tac|apply ex_ext|go_tac go_Material|omit_exact_tac].
    + apply (fexact_intro _ (go_any) (savable_any)); [name_tac|apply ex_any, HF|go_tac go_Material|omit_exact_tac].
    + apply (fexact_intro _ (fun _ => True) (fun _ => True)); [name_tac|apply ex_str|go_tac go_Material|omit_exact_tac].
    + apply (fexact_intro _ (opt (go_PBRMetallicRoughness X)) (opt (savable_PBRMetallicRoughness X))); [name_tac|apply ex_ptr, ex_PBRMetallicRoughness|go_tac go_Material|omit_exact_tac].
    + apply (fexact_intro _ (opt (go_NormalTexture X)) (opt (savable_NormalTexture X))); [name_tac|apply ex_ptr, ex_NormalTexture|go_tac go_Material|omit_exact_tac].
    + apply (fexact_intro _ (opt (go_OcclusionTexture X)) (opt (savable_OcclusionTexture X))); [name_tac|apply ex_ptr, ex_OcclusionTexture|go_tac go_Material|omit_exact_tac].
    + apply (fexact_intro _ (opt (go_TextureInfo X)) (opt (savable_TextureInfo X))); [name_tac|apply ex_ptr, ex_TextureInfo|go_tac go_Material|omit_exact_tac].
    + apply (fexact_intro _ (fun _ => True) (fun _ => True)); [name_tac|apply ex_alpha|go_tac go_Material|omit_exact_tac].
    + apply (fexact_intro _ (fun _ => True) (fun _ => True)); [name_tac|apply ex_bool|go_tac go_Material|omit_exact_tac].
  - intros x. unfold savable_Material. sav_tac.
Qed.
Lemma ex_Material : exact (go_Material X) (savable_Material X) (c_Material F X).
Proof. exact (exact_struct _ _ _ exf_out_Material). Qed.

Lemma exf_fields_Texture : exact_fields (go_Texture X) (savable_Texture X) (fields_Texture F X).
Proof.
  apply (exact_fields_intro _ _ _ [(fun x => (savable_ext X) (txt_Extensions x));
    (fun x => (savable_any) (txt_Extras x));
    (fun x => (fun _ => True) (txt_Name x));
    (fun x => (opt (fun _ => True)) (txt_Sampler x));
    (fun x => (opt (fun _ => True)) (txt_Source x))]).
  - repeat apply Forall2_cons; [..|apply Forall2_nil].
    + apply (fexact_intro _ (go_ext X) (savable_ext X)); [name_tac|apply ex_ext|go_tac go_Texture|omit_exact_tac].
    + apply (fexact_intro _ (go_any) (savable_any)); [name_tac|apply ex_any, HF|go_tac go_Texture|omit_exact_tac].
    + apply (fexact_intro _ (fun _ => True) (fun _ => True)); [name_tac|apply ex_str|go_tac go_Texture|omit_exact_tac].
    + apply (fexact_intro _ (opt in_i64) (opt (fun _ => True))); [name_tac|apply ex_ptr, ex_int|go_tac go_Texture|omit_exact_tac].
    + apply (fexact_intro _ (opt in_i64) (opt (fun _ => True))); [name_tac|apply ex_ptr, ex_int|go_tac go_Texture|omit_exact_tac].
  - intros x. unfold savable_Texture. sav_tac.
Qed.
Lemma ex_Texture : exact (go_Texture X) (savable_Texture X) (c_Texture F X).
Proof. exact (exact_struct _ _ _ exf_fields_Texture). Qed.

Lemma exf_fields_Sampler : exact_fields (go_Sampler X) (savable_Sampler X) (fields_Sampler F X).
Proof.
  apply (exact_fields_intro _ _ _ [(fun x => (savable_ext X) (smp_Extensions x));
    (fun x => (savable_any) (smp_Extras x));
    (fun x => (fun _ => True) (smp_Name x));
    (fun x => (fun _ => True) (smp_MagFilter x));
    (fun x => (fun _ => True) (smp_MinFilter x));
    (fun x => (fun _ => True) (smp_WrapS x));
    (fun x => (fun _ => True) (smp_WrapT x))]).
  - repeat apply Forall2_cons; [..|apply Forall2_nil].
    + apply (fexact_intro _ (go_ext X) (savable_ext X)); [name_tac|apply ex_ext|go_tac go_Sampler|omit_exact_tac].
    + apply (fexact_intro _ (go_any) (savable_any)); [name_tac|apply ex_any, HF|go_tac go_Sampler|omit_exact_tac].
    + apply (fexact_intro _ (fun _ => True) (fun _ => True)); [name_tac|apply ex_str|go_tac go_Sampler|omit_exact_tac].
    + apply (fexact_intro _ (fun _ => True) (fun _ => True)); [name_tac|apply ex_mag|go_tac go_Sampler|omit_exact_tac].
    + apply (fexact_intro _ (fun _ => True) (fun _ => True)); [name_tac|apply ex_minf|go_tac go_Sampler|omit_exact_tac].
    + apply (fexact_intro _ (fun _ => True) (fun _ => True)); [name_tac|apply ex_wrap|go_tac go_Sampler|omit_exact_tac].
    + apply (fexact_intro _ (fun _ => True) (fun _ => True)); [name_tac|apply ex_wrap|go_tac go_Sampler|omit_exact_tac].
  - intros x. unfold savable_Sampler. sav_tac.
Qed.
Lemma ex_Sampler : exact (go_Sampler X) (savable_Sampler X) (c_Sampler F X).
Proof. exact (exact_struct _ _ _ exf_fields_Sampler). Qed.

Lemma exf_fields_Image : exact_fields (go_Image X) (savable_Image X) (fields_Image F X).
Proof.
  apply (exact_fields_intro _ _ _ [(fun x => (savable_ext X) (img_Extensions x));
    (fun x => (savable_any) (img_Extras x));
    (fun x => (fun _ => True) (img_Name x));
    (fun x => (fun _ => True) (img_URI x));
    (fun x => (fun _ => True) (img_MimeType x));
    (fun x => (opt (fun _ => True)) (img_BufferView x))]).
  - repeat apply Forall2_cons; [..|apply Forall2_nil].
    + apply (fexact_intro _ (go_ext X) (savable_ext X)); [name_tac|apply ex_ext|go_tac go_Image|omit_exact_tac].
    + apply (fexact_intro _ (go_any) (savable_any)); [name_tac|apply ex_any, HF|go_tac go_Image|omit_exact_tac].
    + apply (fexact_intro _ (fun _ => True) (fun _ => True)); [name_tac|apply ex_str|go_tac go_Image|omit_exact_tac].
    + apply (fexact_intro _ (fun _ => True) (fun _ => True)); [name_tac|apply ex_str|go_tac go_Image|omit_exact_tac].
    + apply (fexact_intro _ (fun _ => True) (fun _ => True)); [name_tac|apply ex_str|go_tac go_Image|omit_exact_tac].
    + apply (fexact_intro _ (opt in_i64) (opt (fun _ => True))); [name_tac|apply ex_ptr, ex_int|go_tac go_Image|omit_exact_tac].
  - intros x. unfold savable_Image. sav_tac.
Qed.
Lemma ex_Image : exact (go_Image X) (savable_Image X) (c_Image F X).
Proof. exact (exact_struct _ _ _ exf_fields_Image). Qed.

Lemma exf_fields_AnimationSampler : exact_fields (go_AnimationSampler X) (savable_AnimationSampler X) (fields_AnimationSampler F X).
Proof.
  apply (exact_fields_intro _ _ _ [(fun x => (savable_ext X) (ans_Extensions x));
    (fun x => (savable_any) (ans_Extras x));
    (fun x => (fun _ => True) (ans_Input x));
    (fun x => (fun _ => True) (ans_Interpolation x));
    (fun x => (fun _ => True) (ans_Output x))]).
  - repeat apply Forall2_cons; [..|apply Forall2_nil].
    + apply (fexact_intro _ (go_ext X) (savable_ext X)); [name_tac|apply ex_ext|go_tac go_AnimationSampler|omit_exact_tac].
    + apply (fexact_intro _ (go_any) (savable_any)); [name_tac|apply ex_any, HF|go_tac go_AnimationSampler|omit_exact_tac].
    + apply (fexact_intro _ (in_i64) (fun _ => True)); [name_tac|apply ex_int|go_tac go_AnimationSampler|omit_exact_tac].
    + apply (fexact_intro _ (fun _ => True) (fun _ => True)); [name_tac|apply ex_interp|go_tac go_AnimationSampler|omit_exact_tac].
    + apply (fexact_intro _ (in_i64) (fun _ => True)); [name_tac|apply ex_int|go_tac go_AnimationSampler|omit_exact_tac].
  - intros x. unfold savable_AnimationSampler. sav_tac.
Qed.
Lemma ex_AnimationSampler : exact (go_AnimationSampler X) (savable_AnimationSampler X) (c_AnimationSampler F X).
Proof. exact (exact_struct _ _ _ exf_fields_AnimationSampler). Qed.

Lemma exf_fields_AnimationChannelTarget : exact_fields (go_AnimationChannelTarget X) (savable_AnimationChannelTarget X) (fields_AnimationChannelTarget F X).
Proof.
  apply (exact_fields_intro _ _ _ [(fun x => (savable_ext X) (act_Extensions x));
    (fun x => (savable_any) (act_Extras x));
    (fun x => (opt (fun _ => True)) (act_Node x));
    (fun x => (fun _ => True) (act_Path x))]).
  - repeat apply Forall2_cons; [..|apply Forall2_nil].
    + apply (fexact_intro _ (go_ext X) (savable_ext X)); [name_tac|apply ex_ext|go_tac go_AnimationChannelTarget|omit_exact_tac].
    + apply (fexact_intro _ (go_any) (savable_any)); [name_tac|apply ex_any, HF|go_tac go_AnimationChannelTarget|omit_exact_tac].
    + apply (fexact_intro _ (opt in_i64) (opt (fun _ => True))); [name_tac|apply ex_ptr, ex_int|go_tac go_AnimationChannelTarget|omit_exact_tac].
    + apply (fexact_intro _ (fun _ => True) (fun _ => True)); [name_tac|apply ex_trs|go_tac go_AnimationChannelTarget|omit_exact_tac].
  - intros x. unfold savable_AnimationChannelTarget. sav_tac.
Qed.
Lemma ex_AnimationChannelTarget : exact (go_AnimationChannelTarget X) (savable_AnimationChannelTarget X) (c_AnimationChannelTarget F X).
Proof. exact (exact_struct _ _ _ exf_fields_AnimationChannelTarget). Qed.

Lemma exf_fields_AnimationChannel : exact_fields (go_AnimationChannel X) (savable_AnimationChannel X) (fields_AnimationChannel F X).
Proof.
  apply (exact_fields_intro _ _ _ [(fun x => (savable_ext X) (anc_Extensions x));
    (fun x => (savable_any) (anc_Extras x));
    (fun x => (fun _ => True) (anc_Sampler x));
    (fun x => (savable_AnimationChannelTarget X) (anc_Target x))]).
  - repeat apply Forall2_cons; [..|apply Forall2_nil].
    + apply (fexact_intro _ (go_ext X) (savable_ext X)); [name_tac|apply ex_ext|go_tac go_AnimationChannel|omit_exact_tac].
    + apply (fexact_intro _ (go_any) (savable_any)); [name_tac|apply ex_any, HF|go_tac go_AnimationChannel|omit_exact_tac].
    + apply (fexact_intro _ (in_i64) (fun _ => True)); [name_tac|apply ex_int|go_tac go_AnimationChannel|omit_exact_tac].
    + apply (fexact_intro _ (go_AnimationChannelTarget X) (savable_AnimationChannelTarget X)); [name_tac|apply ex_AnimationChannelTarget|go_tac go_AnimationChannel|omit_exact_tac].
  - intros x. unfold savable_AnimationChannel. sav_tac.
Qed.
Lemma ex_AnimationChannel : exact (go_AnimationChannel X) (savable_AnimationChannel X) (c_AnimationChannel F X).
Proof. exact (exact_struct _ _ _ exf_fields_AnimationChannel). Qed.

Lemma exf_fields_Animation : exact_fields (go_Animation X) (savable_Animation X) (fields_Animation F X).
Proof.
  apply (exact_fields_intro _ _ _ [(fun x => (savable_ext X) (ani_Extensions x));
    (fun x => (savable_any) (ani_Extras x));
    (fun x => (fun _ => True) (ani_Name x));
    (fun x => (opt (Forall (opt (savable_AnimationChannel X)))) (ani_Channels x));
    (fun x => (opt (Forall (opt (savable_AnimationSampler X)))) (ani_Samplers x))]).
  - repeat apply Forall2_cons; [..|apply Forall2_nil].
    + apply (fexact_intro _ (go_ext X) (savable_ext X)); [name_tac|apply ex_ext|go_tac go_Animation|omit_exact_tac].
    + apply (fexact_intro _ (go_any) (savable_any)); [name_tac|apply ex_any, HF|go_tac go_Animation|omit_exact_tac].
    + apply (fexact_intro _ (fun _ => True) (fun _ => True)); [name_tac|apply ex_str|go_tac go_Animation|omit_exact_tac].
    + apply (fexact_intro _ (opt (Forall (opt (go_AnimationChannel X)))) (opt (Forall (opt (savable_AnimationChannel X))))); [name_tac|apply ex_oslice, ex_ptr, ex_AnimationChannel|go_tac go_Animation|omit_exact_tac].
    + apply (fexact_intro _ (opt (Forall (opt (go_AnimationSampler X)))) (opt (Forall (opt (savable_AnimationSampler X))))); [name_tac|apply ex_oslice, ex_ptr, ex_AnimationSampler|go_tac go_Animation|omit_exact_tac].
  - intros x. unfold savable_Animation. sav_tac.
Qed.
Lemma ex_Animation : exact (go_Animation X) (savable_Animation X) (c_Animation F X).
Proof. exact (exact_struct _ _ _ exf_fields_Animation). Qed.

Lemma exf_out_Document : exact_fields (go_Document X) (savable_Document X) (out_Document F X).
Proof.
  apply (exact_fields_intro _ _ _ [(fun x => (Forall (opt (savable_Buffer X))) (doc_Buffers x));
    (fun x => (savable_ext X) (doc_Extensions x));
    (fun x => (savable_any) (doc_Extras x));
    (fun x => (Forall (fun _ => True)) (doc_ExtensionsUsed x));
    (fun x => (Forall (fun _ => True)) (doc_ExtensionsRequired x));
    (fun x => (Forall (opt (savable_Accessor X))) (doc_Accessors x));
    (fun x => (Forall (opt (savable_Animation X))) (doc_Animations x));
    (fun x => (savable_Asset X) (doc_Asset x));
    (fun x => (Forall (opt (savable_BufferView X))) (doc_BufferViews x));
    (fun x => (Forall (opt (savable_Camera X))) (doc_Cameras x));
    (fun x => (Forall (opt (savable_Image X))) (doc_Images x));
    (fun x => (Forall (opt (savable_Material X))) (doc_Materials x));
    (fun x => (Forall (opt (savable_Mesh X))) (doc_Meshes x));
    (fun x => (Forall (opt (savable_Node X))) (doc_Nodes x));
    (fun x => (Forall (opt (savable_Sampler X))) (doc_Samplers x));
    (fun x => (opt (fun _ => True)) (doc_Scene x));
    (fun x => (Forall (opt (savable_Scene X))) (doc_Scenes x));
    (fun x => (Forall (opt (savable_Skin X))) (doc_Skins x));
    (fun x => (Forall (opt (savable_Texture X))) (doc_Textures x))]).
  - repeat apply Forall2_cons; [..|apply Forall2_nil].
    + apply (fexact_intro _ (Forall (opt (go_Buffer X))) (Forall (opt (savable_Buffer X)))); [name_tac|apply ex_slice, ex_ptr, ex_Buffer|go_tac go_Document|omit_exact_tac].
    + apply (fexact_intro _ (go_ext X) (savable_ext X)); [name_tac|apply ex_ext|go_tac go_Document|omit_exact_tac].
    + apply (fexact_intro _ (go_any) (savable_any)); [name_tac|apply ex_any, HF|go_tac go_Document|omit_exact_tac].
    + apply (fexact_intro _ (Forall (fun _ => True)) (Forall (fun _ => True))); [name_tac|apply ex_slice, ex_str|go_tac go_Document|omit_exact_tac].
    + apply (fexact_intro _ (Forall (fun _ => True)) (Forall (fun _ => True))); [name_tac|apply ex_slice, ex_str|go_tac go_Document|omit_exact_tac].
    + apply (fexact_intro _ (Forall (opt (go_Accessor X))) (Forall (opt (savable_Accessor X)))); [name_tac|apply ex_slice, ex_ptr, ex_Accessor|go_tac go_Document|omit_exact_tac].
    + apply (fexact_intro _ (Forall (opt (go_Animation X))) (Forall (opt (savable_Animation X)))); [name_tac|apply ex_slice, ex_ptr, ex_Animation|go_tac go_Document|omit_exact_tac].
    + apply (fexact_intro _ (go_Asset X) (savable_Asset X)); [name_tac|apply ex_Asset|go_tac go_Document|omit_exact_tac].
    + apply (fexact_intro _ (Forall (opt (go_BufferView X))) (Forall (opt (savable_BufferView X)))); [name_tac|apply ex_slice, ex_ptr, ex_BufferView|go_tac go_Document|omit_exact_tac].
    + apply (fexact_intro _ (Forall (opt (go_Camera X))) (Forall (opt (savable_Camera X)))); [name_tac|apply ex_slice, ex_ptr, ex_Camera|go_tac go_Document|omit_exact_tac].
    + apply (fexact_intro _ (Forall (opt (go_Image X))) (Forall (opt (savable_Image X)))); [name_tac|apply ex_slice, ex_ptr, ex_Image|go_tac go_Document|omit_exact_tac].
    + apply (fexact_intro _ (Forall (opt (go_Material X))) (Forall (opt (savable_Material X)))); [name_tac|apply ex_slice, ex_ptr, ex_Material|go_tac go_Document|omit_exact_tac].
    + apply (fexact_intro _ (Forall (opt (go_Mesh X))) (Forall (opt (savable_Mesh X)))); [name_tac|apply ex_slice, ex_ptr, ex_Mesh|go_tac go_Document|omit_exact_tac].
    + apply (fexact_intro _ (Forall (opt (go_Node X))) (Forall (opt (savable_Node X)))); [name_tac|apply ex_slice, ex_ptr, ex_Node|go_tac go_Document|omit_exact_tac].
    + apply (fexact_intro _ (Forall (opt (go_Sampler X))) (Forall (opt (savable_Sampler X)))); [name_tac|apply ex_slice, ex_ptr, ex_Sampler|go_tac go_Document|omit_exact_tac].
    + apply (fexact_intro _ (opt in_i64) (opt (fun _ => True))); [name_tac|apply ex_ptr, ex_int|go_tac go_Document|omit_exact_tac].
    + apply (fexact_intro _ (Forall (opt (go_Scene X))) (Forall (opt (savable_Scene X)))); [name_tac|apply ex_slice, ex_ptr, ex_Scene|go_tac go_Document|omit_exact_tac].
    + apply (fexact_intro _ (Forall (opt (go_Skin X))) (Forall (opt (savable_Skin X)))); [name_tac|apply ex_slice, ex_ptr, ex_Skin|go_tac go_Document|omit_exact_tac].
    + apply (fexact_intro _ (Forall (opt (go_Texture X))) (Forall (opt (savable_Texture X)))); [name_tac|apply ex_slice, ex_ptr, ex_Texture|go_tac go_Document|omit_exact_tac].
  - intros x. unfold savable_Document. sav_tac.
Qed.
Lemma ex_Document : exact (go_Document X) (savable_Document X) (c_Document F X).
Proof. exact (exact_struct _ _ _ exf_out_Document). Qed.
End Params.
