(** Decoded documents: invariants, no panics; canonical forms.  GENERATED by
    tools/gen_codec.py; do not edit. *)
From Verif Require Import Base BaseFacts Types Doc F64 SpecText JsonText Codec DocCodec SpecJson SpecJsonDoc CodecProofs CodecInv DocCodecBase DocCodecProofs DocInvBase.

Section Params.
Context (F : float_lib) (X : ext_lib) (n : nat).

Section Inv.
Context (PC : parse_contract F) (RT : registry_total X) (RO : registry_encodes X n).

Lemma wf_zero_Asset : wf_Asset X n zero_Asset.
Proof. unfold wf_Asset. split; [zero_tac|]. split; [zero_tac|]. split; [zero_tac|]. split; [zero_tac|]. split; [zero_tac|]. zero_tac. Qed.
Lemma wf_default_Asset : wf_Asset X n default_Asset.
Proof. unfold wf_Asset. split; [zero_tac|]. split; [zero_tac|]. split; [zero_tac|]. split; [zero_tac|]. split; [zero_tac|]. zero_tac. Qed.
Lemma inv_Asset : inv (c_Asset F X) (wf_json n) (wf_Asset X n).
Proof.
  intros old j y Ho Hj H. refine (inv_struct _ _ (fields_Asset F X) default_Asset j y (closed_wf n) _ wf_default_Asset Hj H).
  repeat apply Forall_cons; [..|apply Forall_nil].
  - finv_tac (inv_ext X n RT RO) wf_Asset.
  - finv_tac (inv_any F PC n) wf_Asset.
  - finv_tac (inv_str (wf_json n)) wf_Asset.
  - finv_tac (inv_str (wf_json n)) wf_Asset.
  - finv_tac (inv_str (wf_json n)) wf_Asset.
  - finv_tac (inv_str (wf_json n)) wf_Asset.
Qed.
Lemma np_Asset : nopanic (c_Asset F X).
Proof.
  intros old j. refine (np_struct (fields_Asset F X) _ j _). repeat apply Forall_cons; [..|apply Forall_nil].
  - exact (np_ext X RT).
  - exact (np_any F).
  - exact np_str.
  - exact np_str.
  - exact np_str.
  - exact np_str.
Qed.
Lemma wf_norm_Asset x : wf_Asset X n x -> wf_Asset X n (norm_Asset X x).
Proof.
  intros W. unfold wf_Asset in *. decompose [and] W. cbn [ast_Extensions ast_Extras ast_Copyright ast_Generator ast_Version ast_MinVersion norm_Asset].
  split; [apply (wf_norm_ext X n RO); assumption|].
  split; [assumption|].
  split; [assumption|].
  split; [assumption|].
  split; [wf_default_tac|].
  assumption.
Qed.

Lemma wf_zero_SparseValues : wf_SparseValues X n zero_SparseValues.
Proof. unfold wf_SparseValues. split; [zero_tac|]. split; [zero_tac|]. split; [zero_tac|]. zero_tac. Qed.
Lemma inv_SparseValues : inv (c_SparseValues F X) (wf_json n) (wf_SparseValues X n).
Proof.
  intros old j y Ho Hj H. refine (inv_struct _ _ (fields_SparseValues F X) old j y (closed_wf n) _ Ho Hj H).
  repeat apply Forall_cons; [..|apply Forall_nil].
  - finv_tac (inv_ext X n RT RO) wf_SparseValues.
  - finv_tac (inv_any F PC n) wf_SparseValues.
  - finv_tac (inv_int (wf_json n)) wf_SparseValues.
  - finv_tac (inv_int (wf_json n)) wf_SparseValues.
Qed.
Lemma np_SparseValues : nopanic (c_SparseValues F X).
Proof.
  intros old j. refine (np_struct (fields_SparseValues F X) _ j _). repeat apply Forall_cons; [..|apply Forall_nil].
  - exact (np_ext X RT).
  - exact (np_any F).
  - exact np_int.
  - exact np_int.
Qed.
Lemma wf_norm_SparseValues x : wf_SparseValues X n x -> wf_SparseValues X n (norm_SparseValues X x).
Proof.
  intros W. unfold wf_SparseValues in *. decompose [and] W. cbn [spv_Extensions spv_Extras spv_BufferView spv_ByteOffset norm_SparseValues].
  split; [apply (wf_norm_ext X n RO); assumption|].
  split; [assumption|].
  split; [assumption|].
  assumption.
Qed.

Lemma wf_zero_SparseIndices : wf_SparseIndices X n zero_SparseIndices.
Proof. unfold wf_SparseIndices. split; [zero_tac|]. split; [zero_tac|]. split; [zero_tac|]. split; [zero_tac|]. zero_tac. Qed.
Lemma inv_SparseIndices : inv (c_SparseIndices F X) (wf_json n) (wf_SparseIndices X n).
Proof.
  intros old j y Ho Hj H. refine (inv_struct _ _ (fields_SparseIndices F X) old j y (closed_wf n) _ Ho Hj H).
  repeat apply Forall_cons; [..|apply Forall_nil].
  - finv_tac (inv_ext X n RT RO) wf_SparseIndices.
  - finv_tac (inv_any F PC n) wf_SparseIndices.
  - finv_tac (inv_int (wf_json n)) wf_SparseIndices.
  - finv_tac (inv_int (wf_json n)) wf_SparseIndices.
  - finv_tac (inv_ct (wf_json n)) wf_SparseIndices.
Qed.
Lemma np_SparseIndices : nopanic (c_SparseIndices F X).
Proof.
  intros old j. refine (np_struct (fields_SparseIndices F X) _ j _). repeat apply Forall_cons; [..|apply Forall_nil].
  - exact (np_ext X RT).
  - exact (np_any F).
  - exact np_int.
  - exact np_int.
  - exact (np_enum_num _ _ _ _).
Qed.
Lemma wf_norm_SparseIndices x : wf_SparseIndices X n x -> wf_SparseIndices X n (norm_SparseIndices X x).
Proof.
  intros W. unfold wf_SparseIndices in *. decompose [and] W. cbn [spi_Extensions spi_Extras spi_BufferView spi_ByteOffset spi_ComponentType norm_SparseIndices].
  split; [apply (wf_norm_ext X n RO); assumption|].
  split; [assumption|].
  split; [assumption|].
  split; [assumption|].
  assumption.
Qed.

Lemma wf_zero_Sparse : wf_Sparse X n zero_Sparse.
Proof. unfold wf_Sparse. split; [zero_tac|]. split; [zero_tac|]. split; [zero_tac|]. split; [exact wf_zero_SparseIndices|]. exact wf_zero_SparseValues. Qed.
Lemma inv_Sparse : inv (c_Sparse F X) (wf_json n) (wf_Sparse X n).
Proof.
  intros old j y Ho Hj H. refine (inv_struct _ _ (fields_Sparse F X) old j y (closed_wf n) _ Ho Hj H).
  repeat apply Forall_cons; [..|apply Forall_nil].
  - finv_tac (inv_ext X n RT RO) wf_Sparse.
  - finv_tac (inv_any F PC n) wf_Sparse.
  - finv_tac (inv_int (wf_json n)) wf_Sparse.
  - finv_tac inv_SparseIndices wf_Sparse.
  - finv_tac inv_SparseValues wf_Sparse.
Qed.
Lemma np_Sparse : nopanic (c_Sparse F X).
Proof.
  intros old j. refine (np_struct (fields_Sparse F X) _ j _). repeat apply Forall_cons; [..|apply Forall_nil].
  - exact (np_ext X RT).
  - exact (np_any F).
  - exact np_int.
  - exact np_SparseIndices.
  - exact np_SparseValues.
Qed.
Lemma wf_norm_Sparse x : wf_Sparse X n x -> wf_Sparse X n (norm_Sparse X x).
Proof.
  intros W. unfold wf_Sparse in *. decompose [and] W. cbn [spa_Extensions spa_Extras spa_Count spa_Indices spa_Values norm_Sparse].
  split; [apply (wf_norm_ext X n RO); assumption|].
  split; [assumption|].
  split; [assumption|].
  split; [apply wf_norm_SparseIndices; assumption|].
  apply wf_norm_SparseValues; assumption.
Qed.

Lemma wf_zero_Accessor : wf_Accessor X n zero_Accessor.
Proof. unfold wf_Accessor. split; [zero_tac|]. split; [zero_tac|]. split; [zero_tac|]. split; [zero_tac|]. split; [zero_tac|]. split; [zero_tac|]. split; [zero_tac|]. split; [zero_tac|]. split; [zero_tac|]. split; [zero_tac|]. zero_tac. Qed.
Lemma inv_Accessor : inv (c_Accessor F X) (wf_json n) (wf_Accessor X n).
Proof.
  intros old j y Ho Hj H. refine (inv_struct _ _ (fields_Accessor F X) old j y (closed_wf n) _ Ho Hj H).
  repeat apply Forall_cons; [..|apply Forall_nil].
  - finv_tac (inv_ext X n RT RO) wf_Accessor.
  - finv_tac (inv_any F PC n) wf_Accessor.
  - finv_tac (inv_str (wf_json n)) wf_Accessor.
  - finv_tac (inv_ptr 0 c_int _ in_i64 in_i64_0 (inv_int (wf_json n))) wf_Accessor.
  - finv_tac (inv_int (wf_json n)) wf_Accessor.
  - finv_tac (inv_ct (wf_json n)) wf_Accessor.
  - finv_tac (inv_true c_bool (wf_json n)) wf_Accessor.
  - finv_tac (inv_int (wf_json n)) wf_Accessor.
  - finv_tac (inv_at (wf_json n)) wf_Accessor.
  - finv_tac (inv_slice 0 (c_f64 F) _ float_ok (closed_wf n) float_ok_0 (inv_f64 F PC (wf_json n))) wf_Accessor.
  - finv_tac (inv_slice 0 (c_f64 F) _ float_ok (closed_wf n) float_ok_0 (inv_f64 F PC (wf_json n))) wf_Accessor.
  - finv_tac (inv_ptr zero_Sparse _ _ (wf_Sparse X n) wf_zero_Sparse inv_Sparse) wf_Accessor.
Qed.
Lemma np_Accessor : nopanic (c_Accessor F X).
Proof.
  intros old j. refine (np_struct (fields_Accessor F X) _ j _). repeat apply Forall_cons; [..|apply Forall_nil].
  - exact (np_ext X RT).
  - exact (np_any F).
  - exact np_str.
  - exact (np_ptr _ _ np_int).
  - exact np_int.
  - exact (np_enum_num _ _ _ _).
  - exact np_bool.
  - exact np_int.
  - exact (np_enum_str _ _ _ _).
  - exact (np_slice _ _ (np_f64 F)).
  - exact (np_slice _ _ (np_f64 F)).
  - exact (np_ptr _ _ np_Sparse).
Qed.
Lemma wf_norm_Accessor x : wf_Accessor X n x -> wf_Accessor X n (norm_Accessor X x).
Proof.
  intros W. unfold wf_Accessor in *. decompose [and] W. cbn [acr_Extensions acr_Extras acr_Name acr_BufferView acr_ByteOffset acr_ComponentType acr_Normalized acr_Count acr_Type acr_Max acr_Min acr_Sparse norm_Accessor].
  split; [apply (wf_norm_ext X n RO); assumption|].
  split; [assumption|].
  split; [assumption|].
  split; [assumption|].
  split; [assumption|].
  split; [assumption|].
  split; [assumption|].
  split; [assumption|].
  split; [assumption|].
  split; [assumption|].
  apply (opt_map_wf _ _ _ (wf_norm_Sparse)); assumption.
Qed.

Lemma wf_zero_Buffer : wf_Buffer X n zero_Buffer.
Proof. unfold wf_Buffer. split; [zero_tac|]. split; [zero_tac|]. split; [zero_tac|]. split; [zero_tac|]. zero_tac. Qed.
Lemma inv_Buffer : inv (c_Buffer F X) (wf_json n) (wf_Buffer X n).
Proof.
  intros old j y Ho Hj H. refine (inv_struct _ _ (fields_Buffer F X) old j y (closed_wf n) _ Ho Hj H).
  repeat apply Forall_cons; [..|apply Forall_nil].
  - finv_tac (inv_ext X n RT RO) wf_Buffer.
  - finv_tac (inv_any F PC n) wf_Buffer.
  - finv_tac (inv_str (wf_json n)) wf_Buffer.
  - finv_tac (inv_str (wf_json n)) wf_Buffer.
  - finv_tac (inv_int (wf_json n)) wf_Buffer.
Qed.
Lemma np_Buffer : nopanic (c_Buffer F X).
Proof.
  intros old j. refine (np_struct (fields_Buffer F X) _ j _). repeat apply Forall_cons; [..|apply Forall_nil].
  - exact (np_ext X RT).
  - exact (np_any F).
  - exact np_str.
  - exact np_str.
  - exact np_int.
Qed.
Lemma wf_norm_Buffer x : wf_Buffer X n x -> wf_Buffer X n (norm_Buffer X x).
Proof.
  intros W. unfold wf_Buffer in *. decompose [and] W. cbn [buf_Extensions buf_Extras buf_Name buf_URI buf_ByteLength buf_Data norm_Buffer].
  split; [apply (wf_norm_ext X n RO); assumption|].
  split; [assumption|].
  split; [assumption|].
  split; [assumption|].
  assumption.
Qed.

Lemma wf_zero_BufferView : wf_BufferView X n zero_BufferView.
Proof. unfold wf_BufferView. split; [zero_tac|]. split; [zero_tac|]. split; [zero_tac|]. split; [zero_tac|]. split; [zero_tac|]. split; [zero_tac|]. split; [zero_tac|]. zero_tac. Qed.
Lemma inv_BufferView : inv (c_BufferView F X) (wf_json n) (wf_BufferView X n).
Proof.
  intros old j y Ho Hj H. refine (inv_struct _ _ (fields_BufferView F X) old j y (closed_wf n) _ Ho Hj H).
  repeat apply Forall_cons; [..|apply Forall_nil].
  - finv_tac (inv_ext X n RT RO) wf_BufferView.
  - finv_tac (inv_any F PC n) wf_BufferView.
  - finv_tac (inv_int (wf_json n)) wf_BufferView.
  - finv_tac (inv_int (wf_json n)) wf_BufferView.
  - finv_tac (inv_int (wf_json n)) wf_BufferView.
  - finv_tac (inv_int (wf_json n)) wf_BufferView.
  - finv_tac (inv_tgt (wf_json n)) wf_BufferView.
  - finv_tac (inv_str (wf_json n)) wf_BufferView.
Qed.
Lemma np_BufferView : nopanic (c_BufferView F X).
Proof.
  intros old j. refine (np_struct (fields_BufferView F X) _ j _). repeat apply Forall_cons; [..|apply Forall_nil].
  - exact (np_ext X RT).
  - exact (np_any F).
  - exact np_int.
  - exact np_int.
  - exact np_int.
  - exact np_int.
  - exact np_tgt.
  - exact np_str.
Qed.
Lemma wf_norm_BufferView x : wf_BufferView X n x -> wf_BufferView X n (norm_BufferView X x).
Proof.
  intros W. unfold wf_BufferView in *. decompose [and] W. cbn [bvw_Extensions bvw_Extras bvw_Buffer bvw_ByteOffset bvw_ByteLength bvw_ByteStride bvw_Target bvw_Name norm_BufferView].
  split; [apply (wf_norm_ext X n RO); assumption|].
  split; [assumption|].
  split; [assumption|].
  split; [assumption|].
  split; [assumption|].
  split; [assumption|].
  split; [assumption|].
  assumption.
Qed.

Lemma wf_zero_Scene : wf_Scene X n zero_Scene.
Proof. unfold wf_Scene. split; [zero_tac|]. split; [zero_tac|]. split; [zero_tac|]. zero_tac. Qed.
Lemma inv_Scene : inv (c_Scene F X) (wf_json n) (wf_Scene X n).
Proof.
  intros old j y Ho Hj H. refine (inv_struct _ _ (fields_Scene F X) old j y (closed_wf n) _ Ho Hj H).
  repeat apply Forall_cons; [..|apply Forall_nil].
  - finv_tac (inv_ext X n RT RO) wf_Scene.
  - finv_tac (inv_any F PC n) wf_Scene.
  - finv_tac (inv_str (wf_json n)) wf_Scene.
  - finv_tac (inv_slice 0 c_int _ in_i64 (closed_wf n) in_i64_0 (inv_int (wf_json n))) wf_Scene.
Qed.
Lemma np_Scene : nopanic (c_Scene F X).
Proof.
  intros old j. refine (np_struct (fields_Scene F X) _ j _). repeat apply Forall_cons; [..|apply Forall_nil].
  - exact (np_ext X RT).
  - exact (np_any F).
  - exact np_str.
  - exact (np_slice _ _ np_int).
Qed.
Lemma wf_norm_Scene x : wf_Scene X n x -> wf_Scene X n (norm_Scene X x).
Proof.
  intros W. unfold wf_Scene in *. decompose [and] W. cbn [scn_Extensions scn_Extras scn_Name scn_Nodes norm_Scene].
  split; [apply (wf_norm_ext X n RO); assumption|].
  split; [assumption|].
  split; [assumption|].
  assumption.
Qed.

Lemma wf_zero_Node : wf_Node X n zero_Node.
Proof. unfold wf_Node. split; [zero_tac|]. split; [zero_tac|]. split; [zero_tac|]. split; [zero_tac|]. split; [zero_tac|]. split; [zero_tac|]. split; [zero_tac|]. split; [zero_tac|]. split; [zero_tac|]. split; [zero_tac|]. split; [zero_tac|]. zero_tac. Qed.
Lemma wf_default_Node : wf_Node X n default_Node.
Proof. unfold wf_Node. split; [zero_tac|]. split; [zero_tac|]. split; [zero_tac|]. split; [zero_tac|]. split; [zero_tac|]. split; [zero_tac|]. split; [zero_tac|]. split; [zero_tac|]. split; [zero_tac|]. split; [zero_tac|]. split; [zero_tac|]. zero_tac. Qed.
Lemma inv_Node : inv (c_Node F X) (wf_json n) (wf_Node X n).
Proof.
  intros old j y Ho Hj H. refine (inv_struct _ _ (fields_Node F X) default_Node j y (closed_wf n) _ wf_default_Node Hj H).
  repeat apply Forall_cons; [..|apply Forall_nil].
  - finv_tac (inv_ext X n RT RO) wf_Node.
  - finv_tac (inv_any F PC n) wf_Node.
  - finv_tac (inv_str (wf_json n)) wf_Node.
  - finv_tac (inv_ptr 0 c_int _ in_i64 in_i64_0 (inv_int (wf_json n))) wf_Node.
  - finv_tac (inv_slice 0 c_int _ in_i64 (closed_wf n) in_i64_0 (inv_int (wf_json n))) wf_Node.
  - finv_tac (inv_ptr 0 c_int _ in_i64 in_i64_0 (inv_int (wf_json n))) wf_Node.
  - finv_tac (inv_array 0 (c_f64 F) _ float_ok 16 (closed_wf n) float_ok_0 (inv_f64 F PC (wf_json n))) wf_Node.
  - finv_tac (inv_ptr 0 c_int _ in_i64 in_i64_0 (inv_int (wf_json n))) wf_Node.
  - finv_tac (inv_array 0 (c_f64 F) _ float_ok 4 (closed_wf n) float_ok_0 (inv_f64 F PC (wf_json n))) wf_Node.
  - finv_tac (inv_array 0 (c_f64 F) _ float_ok 3 (closed_wf n) float_ok_0 (inv_f64 F PC (wf_json n))) wf_Node.
  - finv_tac (inv_array 0 (c_f64 F) _ float_ok 3 (closed_wf n) float_ok_0 (inv_f64 F PC (wf_json n))) wf_Node.
  - finv_tac (inv_slice 0 (c_f64 F) _ float_ok (closed_wf n) float_ok_0 (inv_f64 F PC (wf_json n))) wf_Node.
Qed.
Lemma np_Node : nopanic (c_Node F X).
Proof.
  intros old j. refine (np_struct (fields_Node F X) _ j _). repeat apply Forall_cons; [..|apply Forall_nil].
  - exact (np_ext X RT).
  - exact (np_any F).
  - exact np_str.
  - exact (np_ptr _ _ np_int).
  - exact (np_slice _ _ np_int).
  - exact (np_ptr _ _ np_int).
  - exact (np_array _ _ (np_f64 F)).
  - exact (np_ptr _ _ np_int).
  - exact (np_array _ _ (np_f64 F)).
  - exact (np_array _ _ (np_f64 F)).
  - exact (np_array _ _ (np_f64 F)).
  - exact (np_slice _ _ (np_f64 F)).
Qed.
Lemma wf_norm_Node x : wf_Node X n x -> wf_Node X n (norm_Node X x).
Proof.
  intros W. unfold wf_Node in *. decompose [and] W. cbn [nod_Extensions nod_Extras nod_Name nod_Camera nod_Children nod_Skin nod_Matrix nod_Mesh nod_Rotation nod_Scale nod_Translation nod_Weights norm_Node].
  split; [apply (wf_norm_ext X n RO); assumption|].
  split; [assumption|].
  split; [assumption|].
  split; [assumption|].
  split; [assumption|].
  split; [assumption|].
  split; [wf_default_tac|].
  split; [assumption|].
  split; [wf_default_tac|].
  split; [wf_default_tac|].
  split; [wf_default_tac|].
  assumption.
Qed.

Lemma wf_zero_Skin : wf_Skin X n zero_Skin.
Proof. unfold wf_Skin. split; [zero_tac|]. split; [zero_tac|]. split; [zero_tac|]. split; [zero_tac|]. split; [zero_tac|]. zero_tac. Qed.
Lemma inv_Skin : inv (c_Skin F X) (wf_json n) (wf_Skin X n).
Proof.
  intros old j y Ho Hj H. refine (inv_struct _ _ (fields_Skin F X) old j y (closed_wf n) _ Ho Hj H).
  repeat apply Forall_cons; [..|apply Forall_nil].
  - finv_tac (inv_ext X n RT RO) wf_Skin.
  - finv_tac (inv_any F PC n) wf_Skin.
  - finv_tac (inv_str (wf_json n)) wf_Skin.
  - finv_tac (inv_ptr 0 c_int _ in_i64 in_i64_0 (inv_int (wf_json n))) wf_Skin.
  - finv_tac (inv_ptr 0 c_int _ in_i64 in_i64_0 (inv_int (wf_json n))) wf_Skin.
  - finv_tac (inv_oslice 0 c_int _ in_i64 (closed_wf n) in_i64_0 (inv_int (wf_json n))) wf_Skin.
Qed.
Lemma np_Skin : nopanic (c_Skin F X).
Proof.
  intros old j. refine (np_struct (fields_Skin F X) _ j _). repeat apply Forall_cons; [..|apply Forall_nil].
  - exact (np_ext X RT).
  - exact (np_any F).
  - exact np_str.
  - exact (np_ptr _ _ np_int).
  - exact (np_ptr _ _ np_int).
  - exact (np_oslice _ _ np_int).
Qed.
Lemma wf_norm_Skin x : wf_Skin X n x -> wf_Skin X n (norm_Skin X x).
Proof.
  intros W. unfold wf_Skin in *. decompose [and] W. cbn [skn_Extensions skn_Extras skn_Name skn_InverseBindMatrices skn_Skeleton skn_Joints norm_Skin].
  split; [apply (wf_norm_ext X n RO); assumption|].
  split; [assumption|].
  split; [assumption|].
  split; [assumption|].
  split; [assumption|].
  assumption.
Qed.

Lemma wf_zero_Orthographic : wf_Orthographic X n zero_Orthographic.
Proof. unfold wf_Orthographic. split; [zero_tac|]. split; [zero_tac|]. split; [zero_tac|]. split; [zero_tac|]. split; [zero_tac|]. zero_tac. Qed.
Lemma inv_Orthographic : inv (c_Orthographic F X) (wf_json n) (wf_Orthographic X n).
Proof.
  intros old j y Ho Hj H. refine (inv_struct _ _ (fields_Orthographic F X) old j y (closed_wf n) _ Ho Hj H).
  repeat apply Forall_cons; [..|apply Forall_nil].
  - finv_tac (inv_ext X n RT RO) wf_Orthographic.
  - finv_tac (inv_any F PC n) wf_Orthographic.
  - finv_tac (inv_f64 F PC (wf_json n)) wf_Orthographic.
  - finv_tac (inv_f64 F PC (wf_json n)) wf_Orthographic.
  - finv_tac (inv_f64 F PC (wf_json n)) wf_Orthographic.
  - finv_tac (inv_f64 F PC (wf_json n)) wf_Orthographic.
Qed.
Lemma np_Orthographic : nopanic (c_Orthographic F X).
Proof.
  intros old j. refine (np_struct (fields_Orthographic F X) _ j _). repeat apply Forall_cons; [..|apply Forall_nil].
  - exact (np_ext X RT).
  - exact (np_any F).
  - exact (np_f64 F).
  - exact (np_f64 F).
  - exact (np_f64 F).
  - exact (np_f64 F).
Qed.
Lemma wf_norm_Orthographic x : wf_Orthographic X n x -> wf_Orthographic X n (norm_Orthographic X x).
Proof.
  intros W. unfold wf_Orthographic in *. decompose [and] W. cbn [ort_Extensions ort_Extras ort_Xmag ort_Ymag ort_Zfar ort_Znear norm_Orthographic].
  split; [apply (wf_norm_ext X n RO); assumption|].
  split; [assumption|].
  split; [assumption|].
  split; [assumption|].
  split; [assumption|].
  assumption.
Qed.

Lemma wf_zero_Perspective : wf_Perspective X n zero_Perspective.
Proof. unfold wf_Perspective. split; [zero_tac|]. split; [zero_tac|]. split; [zero_tac|]. split; [zero_tac|]. split; [zero_tac|]. zero_tac. Qed.
Lemma inv_Perspective : inv (c_Perspective F X) (wf_json n) (wf_Perspective X n).
Proof.
  intros old j y Ho Hj H. refine (inv_struct _ _ (fields_Perspective F X) old j y (closed_wf n) _ Ho Hj H).
  repeat apply Forall_cons; [..|apply Forall_nil].
  - finv_tac (inv_ext X n RT RO) wf_Perspective.
  - finv_tac (inv_any F PC n) wf_Perspective.
  - finv_tac (inv_ptr 0 (c_f64 F) _ float_ok float_ok_0 (inv_f64 F PC (wf_json n))) wf_Perspective.
  - finv_tac (inv_f64 F PC (wf_json n)) wf_Perspective.
  - finv_tac (inv_ptr 0 (c_f64 F) _ float_ok float_ok_0 (inv_f64 F PC (wf_json n))) wf_Perspective.
  - finv_tac (inv_f64 F PC (wf_json n)) wf_Perspective.
Qed.
Lemma np_Perspective : nopanic (c_Perspective F X).
Proof.
  intros old j. refine (np_struct (fields_Perspective F X) _ j _). repeat apply Forall_cons; [..|apply Forall_nil].
  - exact (np_ext X RT).
  - exact (np_any F).
  - exact (np_ptr _ _ (np_f64 F)).
  - exact (np_f64 F).
  - exact (np_ptr _ _ (np_f64 F)).
  - exact (np_f64 F).
Qed.
Lemma wf_norm_Perspective x : wf_Perspective X n x -> wf_Perspective X n (norm_Perspective X x).
Proof.
  intros W. unfold wf_Perspective in *. decompose [and] W. cbn [per_Extensions per_Extras per_AspectRatio per_Yfov per_Zfar per_Znear norm_Perspective].
  split; [apply (wf_norm_ext X n RO); assumption|].
  split; [assumption|].
  split; [assumption|].
  split; [assumption|].
  split; [assumption|].
  assumption.
Qed.

Lemma wf_zero_Camera : decoded_Camera X n zero_Camera.
Proof. unfold decoded_Camera. split; [zero_tac|]. split; [zero_tac|]. split; [zero_tac|]. split; [zero_tac|]. zero_tac. Qed.
Lemma inv_Camera : inv (c_Camera F X) (wf_json n) (decoded_Camera X n).
Proof.
  intros old j y Ho Hj H. refine (inv_struct _ _ (fields_Camera F X) old j y (closed_wf n) _ Ho Hj H).
  repeat apply Forall_cons; [..|apply Forall_nil].
  - finv_tac (inv_ext X n RT RO) decoded_Camera.
  - finv_tac (inv_any F PC n) decoded_Camera.
  - finv_tac (inv_str (wf_json n)) decoded_Camera.
  - finv_tac (inv_ptr zero_Orthographic _ _ (wf_Orthographic X n) wf_zero_Orthographic inv_Orthographic) decoded_Camera.
  - finv_tac (inv_ptr zero_Perspective _ _ (wf_Perspective X n) wf_zero_Perspective inv_Perspective) decoded_Camera.
Qed.
Lemma np_Camera : nopanic (c_Camera F X).
Proof.
  intros old j. refine (np_struct (fields_Camera F X) _ j _). repeat apply Forall_cons; [..|apply Forall_nil].
  - exact (np_ext X RT).
  - exact (np_any F).
  - exact np_str.
  - exact (np_ptr _ _ np_Orthographic).
  - exact (np_ptr _ _ np_Perspective).
Qed.
Lemma wf_norm_Camera x : wf_Camera X n x -> wf_Camera X n (norm_Camera X x).
Proof.
  intros W. unfold wf_Camera in *. decompose [and] W. cbn [cam_Extensions cam_Extras cam_Name cam_Orthographic cam_Perspective norm_Camera].
  split; [apply (wf_norm_ext X n RO); assumption|].
  split; [assumption|].
  split; [assumption|].
  split; [apply (opt_map_wf _ _ _ (wf_norm_Orthographic)); assumption|].
  split; [apply (opt_map_wf _ _ _ (wf_norm_Perspective)); assumption|].
  match goal with H : _ \/ _ |- _ => destruct H; [left|right]; destruct (cam_Orthographic x), (cam_Perspective x); cbn; congruence end.
Qed.

Lemma wf_zero_Primitive : wf_Primitive X n zero_Primitive.
Proof. unfold wf_Primitive. split; [zero_tac|]. split; [zero_tac|]. split; [zero_tac|]. split; [zero_tac|]. split; [zero_tac|]. split; [zero_tac|]. zero_tac. Qed.
Lemma inv_Primitive : inv (c_Primitive F X) (wf_json n) (wf_Primitive X n).
Proof.
  intros old j y Ho Hj H. refine (inv_struct _ _ (fields_Primitive F X) old j y (closed_wf n) _ Ho Hj H).
  repeat apply Forall_cons; [..|apply Forall_nil].
  - finv_tac (inv_ext X n RT RO) wf_Primitive.
  - finv_tac (inv_any F PC n) wf_Primitive.
  - finv_tac (inv_attrs (wf_json n)) wf_Primitive.
  - finv_tac (inv_ptr 0 c_int _ in_i64 in_i64_0 (inv_int (wf_json n))) wf_Primitive.
  - finv_tac (inv_ptr 0 c_int _ in_i64 in_i64_0 (inv_int (wf_json n))) wf_Primitive.
  - finv_tac (inv_mode (wf_json n)) wf_Primitive.
  - finv_tac (inv_slice None c_attrs _ (opt wf_attrs) (closed_wf n) I (inv_attrs (wf_json n))) wf_Primitive.
Qed.
Lemma np_Primitive : nopanic (c_Primitive F X).
Proof.
  intros old j. refine (np_struct (fields_Primitive F X) _ j _). repeat apply Forall_cons; [..|apply Forall_nil].
  - exact (np_ext X RT).
  - exact (np_any F).
  - exact np_attrs.
  - exact (np_ptr _ _ np_int).
  - exact (np_ptr _ _ np_int).
  - exact (np_enum_num _ _ _ _).
  - exact (np_slice _ _ np_attrs).
Qed.
Lemma wf_norm_Primitive x : wf_Primitive X n x -> wf_Primitive X n (norm_Primitive X x).
Proof.
  intros W. unfold wf_Primitive in *. decompose [and] W. cbn [pri_Extensions pri_Extras pri_Attributes pri_Indices pri_Material pri_Mode pri_Targets norm_Primitive].
  split; [apply (wf_norm_ext X n RO); assumption|].
  split; [assumption|].
  split; [assumption|].
  split; [assumption|].
  split; [assumption|].
  split; [assumption|].
  assumption.
Qed.

Lemma wf_zero_Mesh : wf_Mesh X n zero_Mesh.
Proof. unfold wf_Mesh. split; [zero_tac|]. split; [zero_tac|]. split; [zero_tac|]. split; [zero_tac|]. zero_tac. Qed.
Lemma inv_Mesh : inv (c_Mesh F X) (wf_json n) (wf_Mesh X n).
Proof.
  intros old j y Ho Hj H. refine (inv_struct _ _ (fields_Mesh F X) old j y (closed_wf n) _ Ho Hj H).
  repeat apply Forall_cons; [..|apply Forall_nil].
  - finv_tac (inv_ext X n RT RO) wf_Mesh.
  - finv_tac (inv_any F PC n) wf_Mesh.
  - finv_tac (inv_str (wf_json n)) wf_Mesh.
  - finv_tac (inv_oslice None _ _ (opt (wf_Primitive X n)) (closed_wf n) I (inv_ptr zero_Primitive _ _ (wf_Primitive X n) wf_zero_Primitive inv_Primitive)) wf_Mesh.
  - finv_tac (inv_slice 0 (c_f64 F) _ float_ok (closed_wf n) float_ok_0 (inv_f64 F PC (wf_json n))) wf_Mesh.
Qed.
Lemma np_Mesh : nopanic (c_Mesh F X).
Proof.
  intros old j. refine (np_struct (fields_Mesh F X) _ j _). repeat apply Forall_cons; [..|apply Forall_nil].
  - exact (np_ext X RT).
  - exact (np_any F).
  - exact np_str.
  - exact (np_oslice _ _ (np_ptr _ _ np_Primitive)).
  - exact (np_slice _ _ (np_f64 F)).
Qed.
Lemma wf_norm_Mesh x : wf_Mesh X n x -> wf_Mesh X n (norm_Mesh X x).
Proof.
  intros W. unfold wf_Mesh in *. decompose [and] W. cbn [msh_Extensions msh_Extras msh_Name msh_Primitives msh_Weights norm_Mesh].
  split; [apply (wf_norm_ext X n RO); assumption|].
  split; [assumption|].
  split; [assumption|].
  split; [apply (opt_map_wf _ _ _ (list_map_wf _ _ _ (opt_map_wf _ _ _ wf_norm_Primitive))); assumption|].
  assumption.
Qed.

Lemma wf_zero_TextureInfo : wf_TextureInfo X n zero_TextureInfo.
Proof. unfold wf_TextureInfo. split; [zero_tac|]. split; [zero_tac|]. split; [zero_tac|]. zero_tac. Qed.
Lemma inv_TextureInfo : inv (c_TextureInfo F X) (wf_json n) (wf_TextureInfo X n).
Proof.
  intros old j y Ho Hj H. refine (inv_struct _ _ (fields_TextureInfo F X) old j y (closed_wf n) _ Ho Hj H).
  repeat apply Forall_cons; [..|apply Forall_nil].
  - finv_tac (inv_ext X n RT RO) wf_TextureInfo.
  - finv_tac (inv_any F PC n) wf_TextureInfo.
  - finv_tac (inv_int (wf_json n)) wf_TextureInfo.
  - finv_tac (inv_int (wf_json n)) wf_TextureInfo.
Qed.
Lemma np_TextureInfo : nopanic (c_TextureInfo F X).
Proof.
  intros old j. refine (np_struct (fields_TextureInfo F X) _ j _). repeat apply Forall_cons; [..|apply Forall_nil].
  - exact (np_ext X RT).
  - exact (np_any F).
  - exact np_int.
  - exact np_int.
Qed.
Lemma wf_norm_TextureInfo x : wf_TextureInfo X n x -> wf_TextureInfo X n (norm_TextureInfo X x).
Proof.
  intros W. unfold wf_TextureInfo in *. decompose [and] W. cbn [txi_Extensions txi_Extras txi_Index txi_TexCoord norm_TextureInfo].
  split; [apply (wf_norm_ext X n RO); assumption|].
  split; [assumption|].
  split; [assumption|].
  assumption.
Qed.

Lemma wf_zero_NormalTexture : wf_NormalTexture X n zero_NormalTexture.
Proof. unfold wf_NormalTexture. split; [zero_tac|]. split; [zero_tac|]. split; [zero_tac|]. split; [zero_tac|]. zero_tac. Qed.
Lemma wf_default_NormalTexture : wf_NormalTexture X n default_NormalTexture.
Proof. unfold wf_NormalTexture. split; [zero_tac|]. split; [zero_tac|]. split; [zero_tac|]. split; [zero_tac|]. zero_tac. Qed.
Lemma inv_NormalTexture : inv (c_NormalTexture F X) (wf_json n) (wf_NormalTexture X n).
Proof.
  intros old j y Ho Hj H. refine (inv_struct _ _ (fields_NormalTexture F X) default_NormalTexture j y (closed_wf n) _ wf_default_NormalTexture Hj H).
  repeat apply Forall_cons; [..|apply Forall_nil].
  - finv_tac (inv_ext X n RT RO) wf_NormalTexture.
  - finv_tac (inv_any F PC n) wf_NormalTexture.
  - finv_tac (inv_ptr 0 c_int _ in_i64 in_i64_0 (inv_int (wf_json n))) wf_NormalTexture.
  - finv_tac (inv_int (wf_json n)) wf_NormalTexture.
  - finv_tac (inv_ptr 0 (c_f64 F) _ float_ok float_ok_0 (inv_f64 F PC (wf_json n))) wf_NormalTexture.
Qed.
Lemma np_NormalTexture : nopanic (c_NormalTexture F X).
Proof.
  intros old j. refine (np_struct (fields_NormalTexture F X) _ j _). repeat apply Forall_cons; [..|apply Forall_nil].
  - exact (np_ext X RT).
  - exact (np_any F).
  - exact (np_ptr _ _ np_int).
  - exact np_int.
  - exact (np_ptr _ _ (np_f64 F)).
Qed.
Lemma wf_norm_NormalTexture x : wf_NormalTexture X n x -> wf_NormalTexture X n (norm_NormalTexture X x).
Proof.
  intros W. unfold wf_NormalTexture in *. decompose [and] W. cbn [ntx_Extensions ntx_Extras ntx_Index ntx_TexCoord ntx_Scale norm_NormalTexture].
  split; [apply (wf_norm_ext X n RO); assumption|].
  split; [assumption|].
  split; [assumption|].
  split; [assumption|].
  wf_default_tac.
Qed.

Lemma wf_zero_OcclusionTexture : wf_OcclusionTexture X n zero_OcclusionTexture.
Proof. unfold wf_OcclusionTexture. split; [zero_tac|]. split; [zero_tac|]. split; [zero_tac|]. split; [zero_tac|]. zero_tac. Qed.
Lemma wf_default_OcclusionTexture : wf_OcclusionTexture X n default_OcclusionTexture.
Proof. unfold wf_OcclusionTexture. split; [zero_tac|]. split; [zero_tac|]. split; [zero_tac|]. split; [zero_tac|]. zero_tac. Qed.
Lemma inv_OcclusionTexture : inv (c_OcclusionTexture F X) (wf_json n) (wf_OcclusionTexture X n).
Proof.
  intros old j y Ho Hj H. refine (inv_struct _ _ (fields_OcclusionTexture F X) default_OcclusionTexture j y (closed_wf n) _ wf_default_OcclusionTexture Hj H).
  repeat apply Forall_cons; [..|apply Forall_nil].
  - finv_tac (inv_ext X n RT RO) wf_OcclusionTexture.
  - finv_tac (inv_any F PC n) wf_OcclusionTexture.
  - finv_tac (inv_ptr 0 c_int _ in_i64 in_i64_0 (inv_int (wf_json n))) wf_OcclusionTexture.
  - finv_tac (inv_int (wf_json n)) wf_OcclusionTexture.
  - finv_tac (inv_ptr 0 (c_f64 F) _ float_ok float_ok_0 (inv_f64 F PC (wf_json n))) wf_OcclusionTexture.
Qed.
Lemma np_OcclusionTexture : nopanic (c_OcclusionTexture F X).
Proof.
  intros old j. refine (np_struct (fields_OcclusionTexture F X) _ j _). repeat apply Forall_cons; [..|apply Forall_nil].
  - exact (np_ext X RT).
  - exact (np_any F).
  - exact (np_ptr _ _ np_int).
  - exact np_int.
  - exact (np_ptr _ _ (np_f64 F)).
Qed.
Lemma wf_norm_OcclusionTexture x : wf_OcclusionTexture X n x -> wf_OcclusionTexture X n (norm_OcclusionTexture X x).
Proof.
  intros W. unfold wf_OcclusionTexture in *. decompose [and] W. cbn [otx_Extensions otx_Extras otx_Index otx_TexCoord otx_Strength norm_OcclusionTexture].
  split; [apply (wf_norm_ext X n RO); assumption|].
  split; [assumption|].
  split; [assumption|].
  split; [assumption|].
  wf_default_tac.
Qed.

Lemma wf_zero_PBRMetallicRoughness : wf_PBRMetallicRoughness X n zero_PBRMetallicRoughness.
Proof. unfold wf_PBRMetallicRoughness. split; [zero_tac|]. split; [zero_tac|]. split; [zero_tac|]. split; [zero_tac|]. split; [zero_tac|]. split; [zero_tac|]. zero_tac. Qed.
Lemma wf_default_PBRMetallicRoughness : wf_PBRMetallicRoughness X n default_PBRMetallicRoughness.
Proof. unfold wf_PBRMetallicRoughness. split; [zero_tac|]. split; [zero_tac|]. split; [zero_tac|]. split; [zero_tac|]. split; [zero_tac|]. split; [zero_tac|]. zero_tac. Qed.
Lemma inv_PBRMetallicRoughness : inv (c_PBRMetallicRoughness F X) (wf_json n) (wf_PBRMetallicRoughness X n).
Proof.
  intros old j y Ho Hj H. refine (inv_struct _ _ (fields_PBRMetallicRoughness F X) default_PBRMetallicRoughness j y (closed_wf n) _ wf_default_PBRMetallicRoughness Hj H).
  repeat apply Forall_cons; [..|apply Forall_nil].
  - finv_tac (inv_ext X n RT RO) wf_PBRMetallicRoughness.
  - finv_tac (inv_any F PC n) wf_PBRMetallicRoughness.
  - finv_tac (inv_ptr (repeat 0 4) _ _ (farray 4) (farray_0 4) (inv_array 0 (c_f64 F) _ float_ok 4 (closed_wf n) float_ok_0 (inv_f64 F PC (wf_json n)))) wf_PBRMetallicRoughness.
  - finv_tac (inv_ptr zero_TextureInfo _ _ (wf_TextureInfo X n) wf_zero_TextureInfo inv_TextureInfo) wf_PBRMetallicRoughness.
  - finv_tac (inv_ptr 0 (c_f64 F) _ float_ok float_ok_0 (inv_f64 F PC (wf_json n))) wf_PBRMetallicRoughness.
  - finv_tac (inv_ptr 0 (c_f64 F) _ float_ok float_ok_0 (inv_f64 F PC (wf_json n))) wf_PBRMetallicRoughness.
  - finv_tac (inv_ptr zero_TextureInfo _ _ (wf_TextureInfo X n) wf_zero_TextureInfo inv_TextureInfo) wf_PBRMetallicRoughness.
Qed.
Lemma np_PBRMetallicRoughness : nopanic (c_PBRMetallicRoughness F X).
Proof.
  intros old j. refine (np_struct (fields_PBRMetallicRoughness F X) _ j _). repeat apply Forall_cons; [..|apply Forall_nil].
  - exact (np_ext X RT).
  - exact (np_any F).
  - exact (np_ptr _ _ (np_array _ _ (np_f64 F))).
  - exact (np_ptr _ _ np_TextureInfo).
  - exact (np_ptr _ _ (np_f64 F)).
  - exact (np_ptr _ _ (np_f64 F)).
  - exact (np_ptr _ _ np_TextureInfo).
Qed.
Lemma wf_norm_PBRMetallicRoughness x : wf_PBRMetallicRoughness X n x -> wf_PBRMetallicRoughness X n (norm_PBRMetallicRoughness X x).
Proof.
  intros W. unfold wf_PBRMetallicRoughness in *. decompose [and] W. cbn [pbr_Extensions pbr_Extras pbr_BaseColorFactor pbr_BaseColorTexture pbr_MetallicFactor pbr_RoughnessFactor pbr_MetallicRoughnessTexture norm_PBRMetallicRoughness].
  split; [apply (wf_norm_ext X n RO); assumption|].
  split; [assumption|].
  split; [wf_default_tac|].
  split; [apply (opt_map_wf _ _ _ (wf_norm_TextureInfo)); assumption|].
  split; [wf_default_tac|].
  split; [wf_default_tac|].
  apply (opt_map_wf _ _ _ (wf_norm_TextureInfo)); assumption.
Qed.

Lemma wf_zero_Material : wf_Material X n zero_Material.
Proof. unfold wf_Material. split; [zero_tac|]. split; [zero_tac|]. split; [zero_tac|]. split; [zero_tac|]. split; [zero_tac|]. split; [zero_tac|]. split; [zero_tac|]. split; [zero_tac|]. split; [zero_tac|]. zero_tac. Qed.
Lemma wf_default_Material : wf_Material X n default_Material.
Proof. unfold wf_Material. split; [zero_tac|]. split; [zero_tac|]. split; [zero_tac|]. split; [zero_tac|]. split; [zero_tac|]. split; [zero_tac|]. split; [zero_tac|]. split; [zero_tac|]. split; [zero_tac|]. zero_tac. Qed.
Lemma inv_Material : inv (c_Material F X) (wf_json n) (wf_Material X n).
Proof.
  intros old j y Ho Hj H. refine (inv_struct _ _ (fields_Material F X) default_Material j y (closed_wf n) _ wf_default_Material Hj H).
  repeat apply Forall_cons; [..|apply Forall_nil].
  - finv_tac (inv_ext X n RT RO) wf_Material.
  - finv_tac (inv_any F PC n) wf_Material.
  - finv_tac (inv_str (wf_json n)) wf_Material.
  - finv_tac (inv_ptr zero_PBRMetallicRoughness _ _ (wf_PBRMetallicRoughness X n) wf_zero_PBRMetallicRoughness inv_PBRMetallicRoughness) wf_Material.
  - finv_tac (inv_ptr zero_NormalTexture _ _ (wf_NormalTexture X n) wf_zero_NormalTexture inv_NormalTexture) wf_Material.
  - finv_tac (inv_ptr zero_OcclusionTexture _ _ (wf_OcclusionTexture X n) wf_zero_OcclusionTexture inv_OcclusionTexture) wf_Material.
  - finv_tac (inv_ptr zero_TextureInfo _ _ (wf_TextureInfo X n) wf_zero_TextureInfo inv_TextureInfo) wf_Material.
  - finv_tac (inv_array 0 (c_f64 F) _ float_ok 3 (closed_wf n) float_ok_0 (inv_f64 F PC (wf_json n))) wf_Material.
  - finv_tac (inv_alpha (wf_json n)) wf_Material.
  - finv_tac (inv_ptr 0 (c_f64 F) _ float_ok float_ok_0 (inv_f64 F PC (wf_json n))) wf_Material.
  - finv_tac (inv_true c_bool (wf_json n)) wf_Material.
Qed.
Lemma np_Material : nopanic (c_Material F X).
Proof.
  intros old j. refine (np_struct (fields_Material F X) _ j _). repeat apply Forall_cons; [..|apply Forall_nil].
  - exact (np_ext X RT).
  - exact (np_any F).
  - exact np_str.
  - exact (np_ptr _ _ np_PBRMetallicRoughness).
  - exact (np_ptr _ _ np_NormalTexture).
  - exact (np_ptr _ _ np_OcclusionTexture).
  - exact (np_ptr _ _ np_TextureInfo).
  - exact (np_array _ _ (np_f64 F)).
  - exact (np_enum_str _ _ _ _).
  - exact (np_ptr _ _ (np_f64 F)).
  - exact np_bool.
Qed.
Lemma wf_norm_Material x : wf_Material X n x -> wf_Material X n (norm_Material X x).
Proof.
  intros W. unfold wf_Material in *. decompose [and] W. cbn [mat_Extensions mat_Extras mat_Name mat_PBRMetallicRoughness mat_NormalTexture mat_OcclusionTexture mat_EmissiveTexture mat_EmissiveFactor mat_AlphaMode mat_AlphaCutoff mat_DoubleSided norm_Material].
  split; [apply (wf_norm_ext X n RO); assumption|].
  split; [assumption|].
  split; [assumption|].
  split; [apply (opt_map_wf _ _ _ (wf_norm_PBRMetallicRoughness)); assumption|].
  split; [apply (opt_map_wf _ _ _ (wf_norm_NormalTexture)); assumption|].
  split; [apply (opt_map_wf _ _ _ (wf_norm_OcclusionTexture)); assumption|].
  split; [apply (opt_map_wf _ _ _ (wf_norm_TextureInfo)); assumption|].
  split; [wf_default_tac|].
  split; [assumption|].
  wf_default_tac.
Qed.

Lemma wf_zero_Texture : wf_Texture X n zero_Texture.
Proof. unfold wf_Texture. split; [zero_tac|]. split; [zero_tac|]. split; [zero_tac|]. split; [zero_tac|]. zero_tac. Qed.
Lemma inv_Texture : inv (c_Texture F X) (wf_json n) (wf_Texture X n).
Proof.
  intros old j y Ho Hj H. refine (inv_struct _ _ (fields_Texture F X) old j y (closed_wf n) _ Ho Hj H).
  repeat apply Forall_cons; [..|apply Forall_nil].
  - finv_tac (inv_ext X n RT RO) wf_Texture.
  - finv_tac (inv_any F PC n) wf_Texture.
  - finv_tac (inv_str (wf_json n)) wf_Texture.
  - finv_tac (inv_ptr 0 c_int _ in_i64 in_i64_0 (inv_int (wf_json n))) wf_Texture.
  - finv_tac (inv_ptr 0 c_int _ in_i64 in_i64_0 (inv_int (wf_json n))) wf_Texture.
Qed.
Lemma np_Texture : nopanic (c_Texture F X).
Proof.
  intros old j. refine (np_struct (fields_Texture F X) _ j _). repeat apply Forall_cons; [..|apply Forall_nil].
  - exact (np_ext X RT).
  - exact (np_any F).
  - exact np_str.
  - exact (np_ptr _ _ np_int).
  - exact (np_ptr _ _ np_int).
Qed.
Lemma wf_norm_Texture x : wf_Texture X n x -> wf_Texture X n (norm_Texture X x).
Proof.
  intros W. unfold wf_Texture in *. decompose [and] W. cbn [txt_Extensions txt_Extras txt_Name txt_Sampler txt_Source norm_Texture].
  split; [apply (wf_norm_ext X n RO); assumption|].
  split; [assumption|].
  split; [assumption|].
  split; [assumption|].
  assumption.
Qed.

Lemma wf_zero_Sampler : wf_Sampler X n zero_Sampler.
Proof. unfold wf_Sampler. split; [zero_tac|]. split; [zero_tac|]. split; [zero_tac|]. split; [zero_tac|]. split; [zero_tac|]. split; [zero_tac|]. zero_tac. Qed.
Lemma inv_Sampler : inv (c_Sampler F X) (wf_json n) (wf_Sampler X n).
Proof.
  intros old j y Ho Hj H. refine (inv_struct _ _ (fields_Sampler F X) old j y (closed_wf n) _ Ho Hj H).
  repeat apply Forall_cons; [..|apply Forall_nil].
  - finv_tac (inv_ext X n RT RO) wf_Sampler.
  - finv_tac (inv_any F PC n) wf_Sampler.
  - finv_tac (inv_str (wf_json n)) wf_Sampler.
  - finv_tac (inv_mag (wf_json n)) wf_Sampler.
  - finv_tac (inv_minf (wf_json n)) wf_Sampler.
  - finv_tac (inv_wrap (wf_json n)) wf_Sampler.
  - finv_tac (inv_wrap (wf_json n)) wf_Sampler.
Qed.
Lemma np_Sampler : nopanic (c_Sampler F X).
Proof.
  intros old j. refine (np_struct (fields_Sampler F X) _ j _). repeat apply Forall_cons; [..|apply Forall_nil].
  - exact (np_ext X RT).
  - exact (np_any F).
  - exact np_str.
  - exact (np_enum_num _ _ _ _).
  - exact (np_enum_num _ _ _ _).
  - exact (np_enum_num _ _ _ _).
  - exact (np_enum_num _ _ _ _).
Qed.
Lemma wf_norm_Sampler x : wf_Sampler X n x -> wf_Sampler X n (norm_Sampler X x).
Proof.
  intros W. unfold wf_Sampler in *. decompose [and] W. cbn [smp_Extensions smp_Extras smp_Name smp_MagFilter smp_MinFilter smp_WrapS smp_WrapT norm_Sampler].
  split; [apply (wf_norm_ext X n RO); assumption|].
  split; [assumption|].
  split; [assumption|].
  split; [assumption|].
  split; [assumption|].
  split; [assumption|].
  assumption.
Qed.

Lemma wf_zero_Image : wf_Image X n zero_Image.
Proof. unfold wf_Image. split; [zero_tac|]. split; [zero_tac|]. split; [zero_tac|]. split; [zero_tac|]. split; [zero_tac|]. zero_tac. Qed.
Lemma inv_Image : inv (c_Image F X) (wf_json n) (wf_Image X n).
Proof.
  intros old j y Ho Hj H. refine (inv_struct _ _ (fields_Image F X) old j y (closed_wf n) _ Ho Hj H).
  repeat apply Forall_cons; [..|apply Forall_nil].
  - finv_tac (inv_ext X n RT RO) wf_Image.
  - finv_tac (inv_any F PC n) wf_Image.
  - finv_tac (inv_str (wf_json n)) wf_Image.
  - finv_tac (inv_str (wf_json n)) wf_Image.
  - finv_tac (inv_str (wf_json n)) wf_Image.
  - finv_tac (inv_ptr 0 c_int _ in_i64 in_i64_0 (inv_int (wf_json n))) wf_Image.
Qed.
Lemma np_Image : nopanic (c_Image F X).
Proof.
  intros old j. refine (np_struct (fields_Image F X) _ j _). repeat apply Forall_cons; [..|apply Forall_nil].
  - exact (np_ext X RT).
  - exact (np_any F).
  - exact np_str.
  - exact np_str.
  - exact np_str.
  - exact (np_ptr _ _ np_int).
Qed.
Lemma wf_norm_Image x : wf_Image X n x -> wf_Image X n (norm_Image X x).
Proof.
  intros W. unfold wf_Image in *. decompose [and] W. cbn [img_Extensions img_Extras img_Name img_URI img_MimeType img_BufferView norm_Image].
  split; [apply (wf_norm_ext X n RO); assumption|].
  split; [assumption|].
  split; [assumption|].
  split; [assumption|].
  split; [assumption|].
  assumption.
Qed.

Lemma wf_zero_AnimationSampler : wf_AnimationSampler X n zero_AnimationSampler.
Proof. unfold wf_AnimationSampler. split; [zero_tac|]. split; [zero_tac|]. split; [zero_tac|]. split; [zero_tac|]. zero_tac. Qed.
Lemma inv_AnimationSampler : inv (c_AnimationSampler F X) (wf_json n) (wf_AnimationSampler X n).
Proof.
  intros old j y Ho Hj H. refine (inv_struct _ _ (fields_AnimationSampler F X) old j y (closed_wf n) _ Ho Hj H).
  repeat apply Forall_cons; [..|apply Forall_nil].
  - finv_tac (inv_ext X n RT RO) wf_AnimationSampler.
  - finv_tac (inv_any F PC n) wf_AnimationSampler.
  - finv_tac (inv_int (wf_json n)) wf_AnimationSampler.
  - finv_tac (inv_interp (wf_json n)) wf_AnimationSampler.
  - finv_tac (inv_int (wf_json n)) wf_AnimationSampler.
Qed.
Lemma np_AnimationSampler : nopanic (c_AnimationSampler F X).
Proof.
  intros old j. refine (np_struct (fields_AnimationSampler F X) _ j _). repeat apply Forall_cons; [..|apply Forall_nil].
  - exact (np_ext X RT).
  - exact (np_any F).
  - exact np_int.
  - exact (np_enum_str _ _ _ _).
  - exact np_int.
Qed.
Lemma wf_norm_AnimationSampler x : wf_AnimationSampler X n x -> wf_AnimationSampler X n (norm_AnimationSampler X x).
Proof.
  intros W. unfold wf_AnimationSampler in *. decompose [and] W. cbn [ans_Extensions ans_Extras ans_Input ans_Interpolation ans_Output norm_AnimationSampler].
  split; [apply (wf_norm_ext X n RO); assumption|].
  split; [assumption|].
  split; [assumption|].
  split; [assumption|].
  assumption.
Qed.

Lemma wf_zero_AnimationChannelTarget : wf_AnimationChannelTarget X n zero_AnimationChannelTarget.
Proof. unfold wf_AnimationChannelTarget. split; [zero_tac|]. split; [zero_tac|]. split; [zero_tac|]. zero_tac. Qed.
Lemma inv_AnimationChannelTarget : inv (c_AnimationChannelTarget F X) (wf_json n) (wf_AnimationChannelTarget X n).
Proof.
  intros old j y Ho Hj H. refine (inv_struct _ _ (fields_AnimationChannelTarget F X) old j y (closed_wf n) _ Ho Hj H).
  repeat apply Forall_cons; [..|apply Forall_nil].
  - finv_tac (inv_ext X n RT RO) wf_AnimationChannelTarget.
  - finv_tac (inv_any F PC n) wf_AnimationChannelTarget.
  - finv_tac (inv_ptr 0 c_int _ in_i64 in_i64_0 (inv_int (wf_json n))) wf_AnimationChannelTarget.
  - finv_tac (inv_trs (wf_json n)) wf_AnimationChannelTarget.
Qed.
Lemma np_AnimationChannelTarget : nopanic (c_AnimationChannelTarget F X).
Proof.
  intros old j. refine (np_struct (fields_AnimationChannelTarget F X) _ j _). repeat apply Forall_cons; [..|apply Forall_nil].
  - exact (np_ext X RT).
  - exact (np_any F).
  - exact (np_ptr _ _ np_int).
  - exact (np_enum_str _ _ _ _).
Qed.
Lemma wf_norm_AnimationChannelTarget x : wf_AnimationChannelTarget X n x -> wf_AnimationChannelTarget X n (norm_AnimationChannelTarget X x).
Proof.
  intros W. unfold wf_AnimationChannelTarget in *. decompose [and] W. cbn [act_Extensions act_Extras act_Node act_Path norm_AnimationChannelTarget].
  split; [apply (wf_norm_ext X n RO); assumption|].
  split; [assumption|].
  split; [assumption|].
  assumption.
Qed.

Lemma wf_zero_AnimationChannel : wf_AnimationChannel X n zero_AnimationChannel.
Proof. unfold wf_AnimationChannel. split; [zero_tac|]. split; [zero_tac|]. split; [zero_tac|]. exact wf_zero_AnimationChannelTarget. Qed.
Lemma inv_AnimationChannel : inv (c_AnimationChannel F X) (wf_json n) (wf_AnimationChannel X n).
Proof.
  intros old j y Ho Hj H. refine (inv_struct _ _ (fields_AnimationChannel F X) old j y (closed_wf n) _ Ho Hj H).
  repeat apply Forall_cons; [..|apply Forall_nil].
  - finv_tac (inv_ext X n RT RO) wf_AnimationChannel.
  - finv_tac (inv_any F PC n) wf_AnimationChannel.
  - finv_tac (inv_int (wf_json n)) wf_AnimationChannel.
  - finv_tac inv_AnimationChannelTarget wf_AnimationChannel.
Qed.
Lemma np_AnimationChannel : nopanic (c_AnimationChannel F X).
Proof.
  intros old j. refine (np_struct (fields_AnimationChannel F X) _ j _). repeat apply Forall_cons; [..|apply Forall_nil].
  - exact (np_ext X RT).
  - exact (np_any F).
  - exact np_int.
  - exact np_AnimationChannelTarget.
Qed.
Lemma wf_norm_AnimationChannel x : wf_AnimationChannel X n x -> wf_AnimationChannel X n (norm_AnimationChannel X x).
Proof.
  intros W. unfold wf_AnimationChannel in *. decompose [and] W. cbn [anc_Extensions anc_Extras anc_Sampler anc_Target norm_AnimationChannel].
  split; [apply (wf_norm_ext X n RO); assumption|].
  split; [assumption|].
  split; [assumption|].
  apply wf_norm_AnimationChannelTarget; assumption.
Qed.

Lemma wf_zero_Animation : wf_Animation X n zero_Animation.
Proof. unfold wf_Animation. split; [zero_tac|]. split; [zero_tac|]. split; [zero_tac|]. split; [zero_tac|]. zero_tac. Qed.
Lemma inv_Animation : inv (c_Animation F X) (wf_json n) (wf_Animation X n).
Proof.
  intros old j y Ho Hj H. refine (inv_struct _ _ (fields_Animation F X) old j y (closed_wf n) _ Ho Hj H).
  repeat apply Forall_cons; [..|apply Forall_nil].
  - finv_tac (inv_ext X n RT RO) wf_Animation.
  - finv_tac (inv_any F PC n) wf_Animation.
  - finv_tac (inv_str (wf_json n)) wf_Animation.
  - finv_tac (inv_oslice None _ _ (opt (wf_AnimationChannel X n)) (closed_wf n) I (inv_ptr zero_AnimationChannel _ _ (wf_AnimationChannel X n) wf_zero_AnimationChannel inv_AnimationChannel)) wf_Animation.
  - finv_tac (inv_oslice None _ _ (opt (wf_AnimationSampler X n)) (closed_wf n) I (inv_ptr zero_AnimationSampler _ _ (wf_AnimationSampler X n) wf_zero_AnimationSampler inv_AnimationSampler)) wf_Animation.
Qed.
Lemma np_Animation : nopanic (c_Animation F X).
Proof.
  intros old j. refine (np_struct (fields_Animation F X) _ j _). repeat apply Forall_cons; [..|apply Forall_nil].
  - exact (np_ext X RT).
  - exact (np_any F).
  - exact np_str.
  - exact (np_oslice _ _ (np_ptr _ _ np_AnimationChannel)).
  - exact (np_oslice _ _ (np_ptr _ _ np_AnimationSampler)).
Qed.
Lemma wf_norm_Animation x : wf_Animation X n x -> wf_Animation X n (norm_Animation X x).
Proof.
  intros W. unfold wf_Animation in *. decompose [and] W. cbn [ani_Extensions ani_Extras ani_Name ani_Channels ani_Samplers norm_Animation].
  split; [apply (wf_norm_ext X n RO); assumption|].
  split; [assumption|].
  split; [assumption|].
  split; [apply (opt_map_wf _ _ _ (list_map_wf _ _ _ (opt_map_wf _ _ _ wf_norm_AnimationChannel))); assumption|].
  apply (opt_map_wf _ _ _ (list_map_wf _ _ _ (opt_map_wf _ _ _ wf_norm_AnimationSampler))); assumption.
Qed.

Lemma wf_zero_Document : decoded_Document X n zero_Document.
Proof. unfold decoded_Document. split; [zero_tac|]. split; [zero_tac|]. split; [zero_tac|]. split; [zero_tac|]. split; [zero_tac|]. split; [zero_tac|]. split; [exact wf_zero_Asset|]. split; [zero_tac|]. split; [zero_tac|]. split; [zero_tac|]. split; [zero_tac|]. split; [zero_tac|]. split; [zero_tac|]. split; [zero_tac|]. split; [zero_tac|]. split; [zero_tac|]. split; [zero_tac|]. split; [zero_tac|]. zero_tac. Qed.
Lemma inv_Document : inv (c_Document F X) (wf_json n) (decoded_Document X n).
Proof.
  intros old j y Ho Hj H. refine (inv_struct _ _ (fields_Document F X) old j y (closed_wf n) _ Ho Hj H).
  repeat apply Forall_cons; [..|apply Forall_nil].
  - finv_tac (inv_ext X n RT RO) decoded_Document.
  - finv_tac (inv_any F PC n) decoded_Document.
  - finv_tac (inv_slice _ c_str _ utf8_str (closed_wf n) utf8_nil (inv_str (wf_json n))) decoded_Document.
  - finv_tac (inv_slice _ c_str _ utf8_str (closed_wf n) utf8_nil (inv_str (wf_json n))) decoded_Document.
  - finv_tac (inv_slice None _ _ (opt (wf_Accessor X n)) (closed_wf n) I (inv_ptr zero_Accessor _ _ (wf_Accessor X n) wf_zero_Accessor inv_Accessor)) decoded_Document.
  - finv_tac (inv_slice None _ _ (opt (wf_Animation X n)) (closed_wf n) I (inv_ptr zero_Animation _ _ (wf_Animation X n) wf_zero_Animation inv_Animation)) decoded_Document.
  - finv_tac inv_Asset decoded_Document.
  - finv_tac (inv_slice None _ _ (opt (wf_Buffer X n)) (closed_wf n) I (inv_ptr zero_Buffer _ _ (wf_Buffer X n) wf_zero_Buffer inv_Buffer)) decoded_Document.
  - finv_tac (inv_slice None _ _ (opt (wf_BufferView X n)) (closed_wf n) I (inv_ptr zero_BufferView _ _ (wf_BufferView X n) wf_zero_BufferView inv_BufferView)) decoded_Document.
  - finv_tac (inv_slice None _ _ (opt (decoded_Camera X n)) (closed_wf n) I (inv_ptr zero_Camera _ _ (decoded_Camera X n) wf_zero_Camera inv_Camera)) decoded_Document.
  - finv_tac (inv_slice None _ _ (opt (wf_Image X n)) (closed_wf n) I (inv_ptr zero_Image _ _ (wf_Image X n) wf_zero_Image inv_Image)) decoded_Document.
  - finv_tac (inv_slice None _ _ (opt (wf_Material X n)) (closed_wf n) I (inv_ptr zero_Material _ _ (wf_Material X n) wf_zero_Material inv_Material)) decoded_Document.
  - finv_tac (inv_slice None _ _ (opt (wf_Mesh X n)) (closed_wf n) I (inv_ptr zero_Mesh _ _ (wf_Mesh X n) wf_zero_Mesh inv_Mesh)) decoded_Document.
  - finv_tac (inv_slice None _ _ (opt (wf_Node X n)) (closed_wf n) I (inv_ptr zero_Node _ _ (wf_Node X n) wf_zero_Node inv_Node)) decoded_Document.
  - finv_tac (inv_slice None _ _ (opt (wf_Sampler X n)) (closed_wf n) I (inv_ptr zero_Sampler _ _ (wf_Sampler X n) wf_zero_Sampler inv_Sampler)) decoded_Document.
  - finv_tac (inv_ptr 0 c_int _ in_i64 in_i64_0 (inv_int (wf_json n))) decoded_Document.
  - finv_tac (inv_slice None _ _ (opt (wf_Scene X n)) (closed_wf n) I (inv_ptr zero_Scene _ _ (wf_Scene X n) wf_zero_Scene inv_Scene)) decoded_Document.
  - finv_tac (inv_slice None _ _ (opt (wf_Skin X n)) (closed_wf n) I (inv_ptr zero_Skin _ _ (wf_Skin X n) wf_zero_Skin inv_Skin)) decoded_Document.
  - finv_tac (inv_slice None _ _ (opt (wf_Texture X n)) (closed_wf n) I (inv_ptr zero_Texture _ _ (wf_Texture X n) wf_zero_Texture inv_Texture)) decoded_Document.
Qed.
Lemma np_Document : nopanic (c_Document F X).
Proof.
  intros old j. refine (np_struct (fields_Document F X) _ j _). repeat apply Forall_cons; [..|apply Forall_nil].
  - exact (np_ext X RT).
  - exact (np_any F).
  - exact (np_slice _ _ np_str).
  - exact (np_slice _ _ np_str).
  - exact (np_slice _ _ (np_ptr _ _ np_Accessor)).
  - exact (np_slice _ _ (np_ptr _ _ np_Animation)).
  - exact np_Asset.
  - exact (np_slice _ _ (np_ptr _ _ np_Buffer)).
  - exact (np_slice _ _ (np_ptr _ _ np_BufferView)).
  - exact (np_slice _ _ (np_ptr _ _ np_Camera)).
  - exact (np_slice _ _ (np_ptr _ _ np_Image)).
  - exact (np_slice _ _ (np_ptr _ _ np_Material)).
  - exact (np_slice _ _ (np_ptr _ _ np_Mesh)).
  - exact (np_slice _ _ (np_ptr _ _ np_Node)).
  - exact (np_slice _ _ (np_ptr _ _ np_Sampler)).
  - exact (np_ptr _ _ np_int).
  - exact (np_slice _ _ (np_ptr _ _ np_Scene)).
  - exact (np_slice _ _ (np_ptr _ _ np_Skin)).
  - exact (np_slice _ _ (np_ptr _ _ np_Texture)).
Qed.
Lemma wf_norm_Document x : wf_Document X n x -> wf_Document X n (norm_Document X x).
Proof.
  intros W. unfold wf_Document in *. decompose [and] W. cbn [doc_Extensions doc_Extras doc_ExtensionsUsed doc_ExtensionsRequired doc_Accessors doc_Animations doc_Asset doc_Buffers doc_BufferViews doc_Cameras doc_Images doc_Materials doc_Meshes doc_Nodes doc_Samplers doc_Scene doc_Scenes doc_Skins doc_Textures norm_Document].
  split; [apply (wf_norm_ext X n RO); assumption|].
  split; [assumption|].
  split; [assumption|].
  split; [assumption|].
  split; [apply (list_map_wf _ _ _ (opt_map_wf _ _ _ wf_norm_Accessor)); assumption|].
  split; [apply (list_map_wf _ _ _ (opt_map_wf _ _ _ wf_norm_Animation)); assumption|].
  split; [apply wf_norm_Asset; assumption|].
  split; [apply (list_map_wf _ _ _ (opt_map_wf _ _ _ wf_norm_Buffer)); assumption|].
  split; [apply (list_map_wf _ _ _ (opt_map_wf _ _ _ wf_norm_BufferView)); assumption|].
  split; [apply (list_map_wf _ _ _ (opt_map_wf _ _ _ wf_norm_Camera)); assumption|].
  split; [apply (list_map_wf _ _ _ (opt_map_wf _ _ _ wf_norm_Image)); assumption|].
  split; [apply (list_map_wf _ _ _ (opt_map_wf _ _ _ wf_norm_Material)); assumption|].
  split; [apply (list_map_wf _ _ _ (opt_map_wf _ _ _ wf_norm_Mesh)); assumption|].
  split; [apply (list_map_wf _ _ _ (opt_map_wf _ _ _ wf_norm_Node)); assumption|].
  split; [apply (list_map_wf _ _ _ (opt_map_wf _ _ _ wf_norm_Sampler)); assumption|].
  split; [assumption|].
  split; [apply (list_map_wf _ _ _ (opt_map_wf _ _ _ wf_norm_Scene)); assumption|].
  split; [apply (list_map_wf _ _ _ (opt_map_wf _ _ _ wf_norm_Skin)); assumption|].
  apply (list_map_wf _ _ _ (opt_map_wf _ _ _ wf_norm_Texture)); assumption.
Qed.
End Inv.

(** Payloads of decoded documents are settled. *)
Section Settled.
Context (RO : registry_ok X n).

Lemma settled_zero_Asset : settled_Asset X zero_Asset.
Proof. unfold settled_Asset.  settled_tac. Qed.
Lemma settled_default_Asset : settled_Asset X default_Asset.
Proof. unfold settled_Asset.  settled_tac. Qed.
Lemma inv_settled_Asset : inv (c_Asset F X) (wf_json n) (settled_Asset X).
Proof.
  intros old j y Ho Hj H. refine (inv_struct _ _ (fields_Asset F X) default_Asset j y (closed_wf n) _ settled_default_Asset Hj H).
  repeat apply Forall_cons; [..|apply Forall_nil].
  - finv_tac (inv_settled X n RO) settled_Asset.
  - finv_other.
  - finv_other.
  - finv_other.
  - finv_other.
  - finv_other.
Qed.

Lemma settled_zero_SparseValues : settled_SparseValues X zero_SparseValues.
Proof. unfold settled_SparseValues.  settled_tac. Qed.
Lemma inv_settled_SparseValues : inv (c_SparseValues F X) (wf_json n) (settled_SparseValues X).
Proof.
  intros old j y Ho Hj H. refine (inv_struct _ _ (fields_SparseValues F X) old j y (closed_wf n) _ Ho Hj H).
  repeat apply Forall_cons; [..|apply Forall_nil].
  - finv_tac (inv_settled X n RO) settled_SparseValues.
  - finv_other.
  - finv_other.
  - finv_other.
Qed.

Lemma settled_zero_SparseIndices : settled_SparseIndices X zero_SparseIndices.
Proof. unfold settled_SparseIndices.  settled_tac. Qed.
Lemma inv_settled_SparseIndices : inv (c_SparseIndices F X) (wf_json n) (settled_SparseIndices X).
Proof.
  intros old j y Ho Hj H. refine (inv_struct _ _ (fields_SparseIndices F X) old j y (closed_wf n) _ Ho Hj H).
  repeat apply Forall_cons; [..|apply Forall_nil].
  - finv_tac (inv_settled X n RO) settled_SparseIndices.
  - finv_other.
  - finv_other.
  - finv_other.
  - finv_other.
Qed.

Lemma settled_zero_Sparse : settled_Sparse X zero_Sparse.
Proof. unfold settled_Sparse. split; [settled_tac|]. split; [exact settled_zero_SparseIndices|]. exact settled_zero_SparseValues. Qed.
Lemma inv_settled_Sparse : inv (c_Sparse F X) (wf_json n) (settled_Sparse X).
Proof.
  intros old j y Ho Hj H. refine (inv_struct _ _ (fields_Sparse F X) old j y (closed_wf n) _ Ho Hj H).
  repeat apply Forall_cons; [..|apply Forall_nil].
  - finv_tac (inv_settled X n RO) settled_Sparse.
  - finv_other.
  - finv_other.
  - finv_tac inv_settled_SparseIndices settled_Sparse.
  - finv_tac inv_settled_SparseValues settled_Sparse.
Qed.

Lemma settled_zero_Accessor : settled_Accessor X zero_Accessor.
Proof. unfold settled_Accessor. split; [settled_tac|]. settled_tac. Qed.
Lemma inv_settled_Accessor : inv (c_Accessor F X) (wf_json n) (settled_Accessor X).
Proof.
  intros old j y Ho Hj H. refine (inv_struct _ _ (fields_Accessor F X) old j y (closed_wf n) _ Ho Hj H).
  repeat apply Forall_cons; [..|apply Forall_nil].
  - finv_tac (inv_settled X n RO) settled_Accessor.
  - finv_other.
  - finv_other.
  - finv_other.
  - finv_other.
  - finv_other.
  - finv_other.
  - finv_other.
  - finv_other.
  - finv_other.
  - finv_other.
  - finv_tac (inv_ptr zero_Sparse _ _ (settled_Sparse X) settled_zero_Sparse inv_settled_Sparse) settled_Accessor.
Qed.

Lemma settled_zero_Buffer : settled_Buffer X zero_Buffer.
Proof. unfold settled_Buffer.  settled_tac. Qed.
Lemma inv_settled_Buffer : inv (c_Buffer F X) (wf_json n) (settled_Buffer X).
Proof.
  intros old j y Ho Hj H. refine (inv_struct _ _ (fields_Buffer F X) old j y (closed_wf n) _ Ho Hj H).
  repeat apply Forall_cons; [..|apply Forall_nil].
  - finv_tac (inv_settled X n RO) settled_Buffer.
  - finv_other.
  - finv_other.
  - finv_other.
  - finv_other.
Qed.

Lemma settled_zero_BufferView : settled_BufferView X zero_BufferView.
Proof. unfold settled_BufferView.  settled_tac. Qed.
Lemma inv_settled_BufferView : inv (c_BufferView F X) (wf_json n) (settled_BufferView X).
Proof.
  intros old j y Ho Hj H. refine (inv_struct _ _ (fields_BufferView F X) old j y (closed_wf n) _ Ho Hj H).
  repeat apply Forall_cons; [..|apply Forall_nil].
  - finv_tac (inv_settled X n RO) settled_BufferView.
  - finv_other.
  - finv_other.
  - finv_other.
  - finv_other.
  - finv_other.
  - finv_other.
  - finv_other.
Qed.

Lemma settled_zero_Scene : settled_Scene X zero_Scene.
Proof. unfold settled_Scene.  settled_tac. Qed.
Lemma inv_settled_Scene : inv (c_Scene F X) (wf_json n) (settled_Scene X).
Proof.
  intros old j y Ho Hj H. refine (inv_struct _ _ (fields_Scene F X) old j y (closed_wf n) _ Ho Hj H).
  repeat apply Forall_cons; [..|apply Forall_nil].
  - finv_tac (inv_settled X n RO) settled_Scene.
  - finv_other.
  - finv_other.
  - finv_other.
Qed.

Lemma settled_zero_Node : settled_Node X zero_Node.
Proof. unfold settled_Node.  settled_tac. Qed.
Lemma settled_default_Node : settled_Node X default_Node.
Proof. unfold settled_Node.  settled_tac. Qed.
Lemma inv_settled_Node : inv (c_Node F X) (wf_json n) (settled_Node X).
Proof.
  intros old j y Ho Hj H. refine (inv_struct _ _ (fields_Node F X) default_Node j y (closed_wf n) _ settled_default_Node Hj H).
  repeat apply Forall_cons; [..|apply Forall_nil].
  - finv_tac (inv_settled X n RO) settled_Node.
  - finv_other.
  - finv_other.
  - finv_other.
  - finv_other.
  - finv_other.
  - finv_other.
  - finv_other.
  - finv_other.
  - finv_other.
  - finv_other.
  - finv_other.
Qed.

Lemma settled_zero_Skin : settled_Skin X zero_Skin.
Proof. unfold settled_Skin.  settled_tac. Qed.
Lemma inv_settled_Skin : inv (c_Skin F X) (wf_json n) (settled_Skin X).
Proof.
  intros old j y Ho Hj H. refine (inv_struct _ _ (fields_Skin F X) old j y (closed_wf n) _ Ho Hj H).
  repeat apply Forall_cons; [..|apply Forall_nil].
  - finv_tac (inv_settled X n RO) settled_Skin.
  - finv_other.
  - finv_other.
  - finv_other.
  - finv_other.
  - finv_other.
Qed.

Lemma settled_zero_Orthographic : settled_Orthographic X zero_Orthographic.
Proof. unfold settled_Orthographic.  settled_tac. Qed.
Lemma inv_settled_Orthographic : inv (c_Orthographic F X) (wf_json n) (settled_Orthographic X).
Proof.
  intros old j y Ho Hj H. refine (inv_struct _ _ (fields_Orthographic F X) old j y (closed_wf n) _ Ho Hj H).
  repeat apply Forall_cons; [..|apply Forall_nil].
  - finv_tac (inv_settled X n RO) settled_Orthographic.
  - finv_other.
  - finv_other.
  - finv_other.
  - finv_other.
  - finv_other.
Qed.

Lemma settled_zero_Perspective : settled_Perspective X zero_Perspective.
Proof. unfold settled_Perspective.  settled_tac. Qed.
Lemma inv_settled_Perspective : inv (c_Perspective F X) (wf_json n) (settled_Perspective X).
Proof.
  intros old j y Ho Hj H. refine (inv_struct _ _ (fields_Perspective F X) old j y (closed_wf n) _ Ho Hj H).
  repeat apply Forall_cons; [..|apply Forall_nil].
  - finv_tac (inv_settled X n RO) settled_Perspective.
  - finv_other.
  - finv_other.
  - finv_other.
  - finv_other.
  - finv_other.
Qed.

Lemma settled_zero_Camera : settled_Camera X zero_Camera.
Proof. unfold settled_Camera. split; [settled_tac|]. split; [settled_tac|]. settled_tac. Qed.
Lemma inv_settled_Camera : inv (c_Camera F X) (wf_json n) (settled_Camera X).
Proof.
  intros old j y Ho Hj H. refine (inv_struct _ _ (fields_Camera F X) old j y (closed_wf n) _ Ho Hj H).
  repeat apply Forall_cons; [..|apply Forall_nil].
  - finv_tac (inv_settled X n RO) settled_Camera.
  - finv_other.
  - finv_other.
  - finv_tac (inv_ptr zero_Orthographic _ _ (settled_Orthographic X) settled_zero_Orthographic inv_settled_Orthographic) settled_Camera.
  - finv_tac (inv_ptr zero_Perspective _ _ (settled_Perspective X) settled_zero_Perspective inv_settled_Perspective) settled_Camera.
Qed.

Lemma settled_zero_Primitive : settled_Primitive X zero_Primitive.
Proof. unfold settled_Primitive.  settled_tac. Qed.
Lemma inv_settled_Primitive : inv (c_Primitive F X) (wf_json n) (settled_Primitive X).
Proof.
  intros old j y Ho Hj H. refine (inv_struct _ _ (fields_Primitive F X) old j y (closed_wf n) _ Ho Hj H).
  repeat apply Forall_cons; [..|apply Forall_nil].
  - finv_tac (inv_settled X n RO) settled_Primitive.
  - finv_other.
  - finv_other.
  - finv_other.
  - finv_other.
  - finv_other.
  - finv_other.
Qed.

Lemma settled_zero_Mesh : settled_Mesh X zero_Mesh.
Proof. unfold settled_Mesh. split; [settled_tac|]. settled_tac. Qed.
Lemma inv_settled_Mesh : inv (c_Mesh F X) (wf_json n) (settled_Mesh X).
Proof.
  intros old j y Ho Hj H. refine (inv_struct _ _ (fields_Mesh F X) old j y (closed_wf n) _ Ho Hj H).
  repeat apply Forall_cons; [..|apply Forall_nil].
  - finv_tac (inv_settled X n RO) settled_Mesh.
  - finv_other.
  - finv_other.
  - finv_tac (inv_oslice None _ _ (opt (settled_Primitive X)) (closed_wf n) I (inv_ptr zero_Primitive _ _ (settled_Primitive X) settled_zero_Primitive inv_settled_Primitive)) settled_Mesh.
  - finv_other.
Qed.

Lemma settled_zero_TextureInfo : settled_TextureInfo X zero_TextureInfo.
Proof. unfold settled_TextureInfo.  settled_tac. Qed.
Lemma inv_settled_TextureInfo : inv (c_TextureInfo F X) (wf_json n) (settled_TextureInfo X).
Proof.
  intros old j y Ho Hj H. refine (inv_struct _ _ (fields_TextureInfo F X) old j y (closed_wf n) _ Ho Hj H).
  repeat apply Forall_cons; [..|apply Forall_nil].
  - finv_tac (inv_settled X n RO) settled_TextureInfo.
  - finv_other.
  - finv_other.
  - finv_other.
Qed.

Lemma settled_zero_NormalTexture : settled_NormalTexture X zero_NormalTexture.
Proof. unfold settled_NormalTexture.  settled_tac. Qed.
Lemma settled_default_NormalTexture : settled_NormalTexture X default_NormalTexture.
Proof. unfold settled_NormalTexture.  settled_tac. Qed.
Lemma inv_settled_NormalTexture : inv (c_NormalTexture F X) (wf_json n) (settled_NormalTexture X).
Proof.
  intros old j y Ho Hj H. refine (inv_struct _ _ (fields_NormalTexture F X) default_NormalTexture j y (closed_wf n) _ settled_default_NormalTexture Hj H).
  repeat apply Forall_cons; [..|apply Forall_nil].
  - finv_tac (inv_settled X n RO) settled_NormalTexture.
  - finv_other.
  - finv_other.
  - finv_other.
  - finv_other.
Qed.

Lemma settled_zero_OcclusionTexture : settled_OcclusionTexture X zero_OcclusionTexture.
Proof. unfold settled_OcclusionTexture.  settled_tac. Qed.
Lemma settled_default_OcclusionTexture : settled_OcclusionTexture X default_OcclusionTexture.
Proof. unfold settled_OcclusionTexture.  settled_tac. Qed.
Lemma inv_settled_OcclusionTexture : inv (c_OcclusionTexture F X) (wf_json n) (settled_OcclusionTexture X).
Proof.
  intros old j y Ho Hj H. refine (inv_struct _ _ (fields_OcclusionTexture F X) default_OcclusionTexture j y (closed_wf n) _ settled_default_OcclusionTexture Hj H).
  repeat apply Forall_cons; [..|apply Forall_nil].
  - finv_tac (inv_settled X n RO) settled_OcclusionTexture.
  - finv_other.
  - finv_other.
  - finv_other.
  - finv_other.
Qed.

Lemma settled_zero_PBRMetallicRoughness : settled_PBRMetallicRoughness X zero_PBRMetallicRoughness.
Proof. unfold settled_PBRMetallicRoughness. split; [settled_tac|]. split; [settled_tac|]. settled_tac. Qed.
Lemma settled_default_PBRMetallicRoughness : settled_PBRMetallicRoughness X default_PBRMetallicRoughness.
Proof. unfold settled_PBRMetallicRoughness. split; [settled_tac|]. split; [settled_tac|]. settled_tac. Qed.
Lemma inv_settled_PBRMetallicRoughness : inv (c_PBRMetallicRoughness F X) (wf_json n) (settled_PBRMetallicRoughness X).
Proof.
  intros old j y Ho Hj H. refine (inv_struct _ _ (fields_PBRMetallicRoughness F X) default_PBRMetallicRoughness j y (closed_wf n) _ settled_default_PBRMetallicRoughness Hj H).
  repeat apply Forall_cons; [..|apply Forall_nil].
  - finv_tac (inv_settled X n RO) settled_PBRMetallicRoughness.
  - finv_other.
  - finv_other.
  - finv_tac (inv_ptr zero_TextureInfo _ _ (settled_TextureInfo X) settled_zero_TextureInfo inv_settled_TextureInfo) settled_PBRMetallicRoughness.
  - finv_other.
  - finv_other.
  - finv_tac (inv_ptr zero_TextureInfo _ _ (settled_TextureInfo X) settled_zero_TextureInfo inv_settled_TextureInfo) settled_PBRMetallicRoughness.
Qed.

Lemma settled_zero_Material : settled_Material X zero_Material.
Proof. unfold settled_Material. split; [settled_tac|]. split; [settled_tac|]. split; [settled_tac|]. split; [settled_tac|]. settled_tac. Qed.
Lemma settled_default_Material : settled_Material X default_Material.
Proof. unfold settled_Material. split; [settled_tac|]. split; [settled_tac|]. split; [settled_tac|]. split; [settled_tac|]. settled_tac. Qed.
Lemma inv_settled_Material : inv (c_Material F X) (wf_json n) (settled_Material X).
Proof.
  intros old j y Ho Hj H. refine (inv_struct _ _ (fields_Material F X) default_Material j y (closed_wf n) _ settled_default_Material Hj H).
  repeat apply Forall_cons; [..|apply Forall_nil].
  - finv_tac (inv_settled X n RO) settled_Material.
  - finv_other.
  - finv_other.
  - finv_tac (inv_ptr zero_PBRMetallicRoughness _ _ (settled_PBRMetallicRoughness X) settled_zero_PBRMetallicRoughness inv_settled_PBRMetallicRoughness) settled_Material.
  - finv_tac (inv_ptr zero_NormalTexture _ _ (settled_NormalTexture X) settled_zero_NormalTexture inv_settled_NormalTexture) settled_Material.
  - finv_tac (inv_ptr zero_OcclusionTexture _ _ (settled_OcclusionTexture X) settled_zero_OcclusionTexture inv_settled_OcclusionTexture) settled_Material.
  - finv_tac (inv_ptr zero_TextureInfo _ _ (settled_TextureInfo X) settled_zero_TextureInfo inv_settled_TextureInfo) settled_Material.
  - finv_other.
  - finv_other.
  - finv_other.
  - finv_other.
Qed.

Lemma settled_zero_Texture : settled_Texture X zero_Texture.
Proof. unfold settled_Texture.  settled_tac. Qed.
Lemma inv_settled_Texture : inv (c_Texture F X) (wf_json n) (settled_Texture X).
Proof.
  intros old j y Ho Hj H. refine (inv_struct _ _ (fields_Texture F X) old j y (closed_wf n) _ Ho Hj H).
  repeat apply Forall_cons; [..|apply Forall_nil].
  - finv_tac (inv_settled X n RO) settled_Texture.
  - finv_other.
  - finv_other.
  - finv_other.
  - finv_other.
Qed.

Lemma settled_zero_Sampler : settled_Sampler X zero_Sampler.
Proof. unfold settled_Sampler.  settled_tac. Qed.
Lemma inv_settled_Sampler : inv (c_Sampler F X) (wf_json n) (settled_Sampler X).
Proof.
  intros old j y Ho Hj H. refine (inv_struct _ _ (fields_Sampler F X) old j y (closed_wf n) _ Ho Hj H).
  repeat apply Forall_cons; [..|apply Forall_nil].
  - finv_tac (inv_settled X n RO) settled_Sampler.
  - finv_other.
  - finv_other.
  - finv_other.
  - finv_other.
  - finv_other.
  - finv_other.
Qed.

Lemma settled_zero_Image : settled_Image X zero_Image.
Proof. unfold settled_Image.  settled_tac. Qed.
Lemma inv_settled_Image : inv (c_Image F X) (wf_json n) (settled_Image X).
Proof.
  intros old j y Ho Hj H. refine (inv_struct _ _ (fields_Image F X) old j y (closed_wf n) _ Ho Hj H).
  repeat apply Forall_cons; [..|apply Forall_nil].
  - finv_tac (inv_settled X n RO) settled_Image.
  - finv_other.
  - finv_other.
  - finv_other.
  - finv_other.
  - finv_other.
Qed.

Lemma settled_zero_AnimationSampler : settled_AnimationSampler X zero_AnimationSampler.
Proof. unfold settled_AnimationSampler.  settled_tac. Qed.
Lemma inv_settled_AnimationSampler : inv (c_AnimationSampler F X) (wf_json n) (settled_AnimationSampler X).
Proof.
  intros old j y Ho Hj H. refine (inv_struct _ _ (fields_AnimationSampler F X) old j y (closed_wf n) _ Ho Hj H).
  repeat apply Forall_cons; [..|apply Forall_nil].
  - finv_tac (inv_settled X n RO) settled_AnimationSampler.
  - finv_other.
  - finv_other.
  - finv_other.
  - finv_other.
Qed.

Lemma settled_zero_AnimationChannelTarget : settled_AnimationChannelTarget X zero_AnimationChannelTarget.
Proof. unfold settled_AnimationChannelTarget.  settled_tac. Qed.
Lemma inv_settled_AnimationChannelTarget : inv (c_AnimationChannelTarget F X) (wf_json n) (settled_AnimationChannelTarget X).
Proof.
  intros old j y Ho Hj H. refine (inv_struct _ _ (fields_AnimationChannelTarget F X) old j y (closed_wf n) _ Ho Hj H).
  repeat apply Forall_cons; [..|apply Forall_nil].
  - finv_tac (inv_settled X n RO) settled_AnimationChannelTarget.
  - finv_other.
  - finv_other.
  - finv_other.
Qed.

Lemma settled_zero_AnimationChannel : settled_AnimationChannel X zero_AnimationChannel.
Proof. unfold settled_AnimationChannel. split; [settled_tac|]. exact settled_zero_AnimationChannelTarget. Qed.
Lemma inv_settled_AnimationChannel : inv (c_AnimationChannel F X) (wf_json n) (settled_AnimationChannel X).
Proof.
  intros old j y Ho Hj H. refine (inv_struct _ _ (fields_AnimationChannel F X) old j y (closed_wf n) _ Ho Hj H).
  repeat apply Forall_cons; [..|apply Forall_nil].
  - finv_tac (inv_settled X n RO) settled_AnimationChannel.
  - finv_other.
  - finv_other.
  - finv_tac inv_settled_AnimationChannelTarget settled_AnimationChannel.
Qed.

Lemma settled_zero_Animation : settled_Animation X zero_Animation.
Proof. unfold settled_Animation. split; [settled_tac|]. split; [settled_tac|]. settled_tac. Qed.
Lemma inv_settled_Animation : inv (c_Animation F X) (wf_json n) (settled_Animation X).
Proof.
  intros old j y Ho Hj H. refine (inv_struct _ _ (fields_Animation F X) old j y (closed_wf n) _ Ho Hj H).
  repeat apply Forall_cons; [..|apply Forall_nil].
  - finv_tac (inv_settled X n RO) settled_Animation.
  - finv_other.
  - finv_other.
  - finv_tac (inv_oslice None _ _ (opt (settled_AnimationChannel X)) (closed_wf n) I (inv_ptr zero_AnimationChannel _ _ (settled_AnimationChannel X) settled_zero_AnimationChannel inv_settled_AnimationChannel)) settled_Animation.
  - finv_tac (inv_oslice None _ _ (opt (settled_AnimationSampler X)) (closed_wf n) I (inv_ptr zero_AnimationSampler _ _ (settled_AnimationSampler X) settled_zero_AnimationSampler inv_settled_AnimationSampler)) settled_Animation.
Qed.

Lemma settled_zero_Document : settled_Document X zero_Document.
Proof. unfold settled_Document. split; [settled_tac|]. split; [settled_tac|]. split; [settled_tac|]. split; [exact settled_zero_Asset|]. split; [settled_tac|]. split; [settled_tac|]. split; [settled_tac|]. split; [settled_tac|]. split; [settled_tac|]. split; [settled_tac|]. split; [settled_tac|]. split; [settled_tac|]. split; [settled_tac|]. split; [settled_tac|]. settled_tac. Qed.
Lemma inv_settled_Document : inv (c_Document F X) (wf_json n) (settled_Document X).
Proof.
  intros old j y Ho Hj H. refine (inv_struct _ _ (fields_Document F X) old j y (closed_wf n) _ Ho Hj H).
  repeat apply Forall_cons; [..|apply Forall_nil].
  - finv_tac (inv_settled X n RO) settled_Document.
  - finv_other.
  - finv_other.
  - finv_other.
  - finv_tac (inv_slice None _ _ (opt (settled_Accessor X)) (closed_wf n) I (inv_ptr zero_Accessor _ _ (settled_Accessor X) settled_zero_Accessor inv_settled_Accessor)) settled_Document.
  - finv_tac (inv_slice None _ _ (opt (settled_Animation X)) (closed_wf n) I (inv_ptr zero_Animation _ _ (settled_Animation X) settled_zero_Animation inv_settled_Animation)) settled_Document.
  - finv_tac inv_settled_Asset settled_Document.
  - finv_tac (inv_slice None _ _ (opt (settled_Buffer X)) (closed_wf n) I (inv_ptr zero_Buffer _ _ (settled_Buffer X) settled_zero_Buffer inv_settled_Buffer)) settled_Document.
  - finv_tac (inv_slice None _ _ (opt (settled_BufferView X)) (closed_wf n) I (inv_ptr zero_BufferView _ _ (settled_BufferView X) settled_zero_BufferView inv_settled_BufferView)) settled_Document.
  - finv_tac (inv_slice None _ _ (opt (settled_Camera X)) (closed_wf n) I (inv_ptr zero_Camera _ _ (settled_Camera X) settled_zero_Camera inv_settled_Camera)) settled_Document.
  - finv_tac (inv_slice None _ _ (opt (settled_Image X)) (closed_wf n) I (inv_ptr zero_Image _ _ (settled_Image X) settled_zero_Image inv_settled_Image)) settled_Document.
  - finv_tac (inv_slice None _ _ (opt (settled_Material X)) (closed_wf n) I (inv_ptr zero_Material _ _ (settled_Material X) settled_zero_Material inv_settled_Material)) settled_Document.
  - finv_tac (inv_slice None _ _ (opt (settled_Mesh X)) (closed_wf n) I (inv_ptr zero_Mesh _ _ (settled_Mesh X) settled_zero_Mesh inv_settled_Mesh)) settled_Document.
  - finv_tac (inv_slice None _ _ (opt (settled_Node X)) (closed_wf n) I (inv_ptr zero_Node _ _ (settled_Node X) settled_zero_Node inv_settled_Node)) settled_Document.
  - finv_tac (inv_slice None _ _ (opt (settled_Sampler X)) (closed_wf n) I (inv_ptr zero_Sampler _ _ (settled_Sampler X) settled_zero_Sampler inv_settled_Sampler)) settled_Document.
  - finv_other.
  - finv_tac (inv_slice None _ _ (opt (settled_Scene X)) (closed_wf n) I (inv_ptr zero_Scene _ _ (settled_Scene X) settled_zero_Scene inv_settled_Scene)) settled_Document.
  - finv_tac (inv_slice None _ _ (opt (settled_Skin X)) (closed_wf n) I (inv_ptr zero_Skin _ _ (settled_Skin X) settled_zero_Skin inv_settled_Skin)) settled_Document.
  - finv_tac (inv_slice None _ _ (opt (settled_Texture X)) (closed_wf n) I (inv_ptr zero_Texture _ _ (settled_Texture X) settled_zero_Texture inv_settled_Texture)) settled_Document.
Qed.
End Settled.

Lemma norm_idem_Asset x : settled_Asset X x -> norm_Asset X (norm_Asset X x) = norm_Asset X x.
Proof.
  intros W. unfold settled_Asset in W. decompose [and] W. apply ext_Asset; cbn [norm_Asset ast_Extensions ast_Extras ast_Copyright ast_Generator ast_Version ast_MinVersion].
  - apply norm_ext_idem; assumption.
  - reflexivity.
  - reflexivity.
  - reflexivity.
  - apply or_version_idem.
  - reflexivity.
Qed.
Lemma est_Asset : est (c_Asset F X) (norm_Asset X) (canon_Asset X).
Proof.
  intros x C. unfold canon_Asset in C. decompose [and] C.
  assert (G : enc_fields (fields_Asset F X) (norm_Asset X x) = enc_fields (fields_Asset F X) x).
  { apply est_fields. repeat apply Forall_cons; [..|apply Forall_nil].
    - split; [omit_same|intros _; apply (est_ext X); assumption].
    - split; reflexivity.
    - split; reflexivity.
    - split; reflexivity.
    - fest_default_tac.
    - split; reflexivity.
  }
  cbn [c_Asset enc]. unfold enc_Asset. cbn [norm_Asset ast_Version]. unfold or_version.
  match goal with H : ast_Version x <> _ |- _ => apply String.eqb_neq in H; rewrite H; unfold str_empty; rewrite H end.
  unfold enc_struct. rewrite G. reflexivity.
Qed.

Lemma norm_idem_SparseValues x : settled_SparseValues X x -> norm_SparseValues X (norm_SparseValues X x) = norm_SparseValues X x.
Proof.
  intros W. unfold settled_SparseValues in W. decompose [and] W. apply ext_SparseValues; cbn [norm_SparseValues spv_Extensions spv_Extras spv_BufferView spv_ByteOffset].
  - apply norm_ext_idem; assumption.
  - reflexivity.
  - reflexivity.
  - reflexivity.
Qed.
Lemma est_SparseValues : est (c_SparseValues F X) (norm_SparseValues X) (canon_SparseValues X).
Proof.
  intros x C. unfold canon_SparseValues in C. decompose [and] C.
  assert (G : enc_fields (fields_SparseValues F X) (norm_SparseValues X x) = enc_fields (fields_SparseValues F X) x).
  { apply est_fields. repeat apply Forall_cons; [..|apply Forall_nil].
    - split; [omit_same|intros _; apply (est_ext X); assumption].
    - split; reflexivity.
    - split; reflexivity.
    - split; reflexivity.
  }
  cbn [c_SparseValues c_struct enc]. unfold enc_struct. rewrite G. reflexivity.
Qed.

Lemma norm_idem_SparseIndices x : settled_SparseIndices X x -> norm_SparseIndices X (norm_SparseIndices X x) = norm_SparseIndices X x.
Proof.
  intros W. unfold settled_SparseIndices in W. decompose [and] W. apply ext_SparseIndices; cbn [norm_SparseIndices spi_Extensions spi_Extras spi_BufferView spi_ByteOffset spi_ComponentType].
  - apply norm_ext_idem; assumption.
  - reflexivity.
  - reflexivity.
  - reflexivity.
  - reflexivity.
Qed.
Lemma est_SparseIndices : est (c_SparseIndices F X) (norm_SparseIndices X) (canon_SparseIndices X).
Proof.
  intros x C. unfold canon_SparseIndices in C. decompose [and] C.
  assert (G : enc_fields (fields_SparseIndices F X) (norm_SparseIndices X x) = enc_fields (fields_SparseIndices F X) x).
  { apply est_fields. repeat apply Forall_cons; [..|apply Forall_nil].
    - split; [omit_same|intros _; apply (est_ext X); assumption].
    - split; reflexivity.
    - split; reflexivity.
    - split; reflexivity.
    - split; reflexivity.
  }
  cbn [c_SparseIndices c_struct enc]. unfold enc_struct. rewrite G. reflexivity.
Qed.

Lemma norm_idem_Sparse x : settled_Sparse X x -> norm_Sparse X (norm_Sparse X x) = norm_Sparse X x.
Proof.
  intros W. unfold settled_Sparse in W. decompose [and] W. apply ext_Sparse; cbn [norm_Sparse spa_Extensions spa_Extras spa_Count spa_Indices spa_Values].
  - apply norm_ext_idem; assumption.
  - reflexivity.
  - reflexivity.
  - apply norm_idem_SparseIndices; assumption.
  - apply norm_idem_SparseValues; assumption.
Qed.
Lemma est_Sparse : est (c_Sparse F X) (norm_Sparse X) (canon_Sparse X).
Proof.
  intros x C. unfold canon_Sparse in C. decompose [and] C.
  assert (G : enc_fields (fields_Sparse F X) (norm_Sparse X x) = enc_fields (fields_Sparse F X) x).
  { apply est_fields. repeat apply Forall_cons; [..|apply Forall_nil].
    - split; [omit_same|intros _; apply (est_ext X); assumption].
    - split; reflexivity.
    - split; reflexivity.
    - split; [omit_same|intros _; apply est_SparseIndices; assumption].
    - split; [omit_same|intros _; apply est_SparseValues; assumption].
  }
  cbn [c_Sparse c_struct enc]. unfold enc_struct. rewrite G. reflexivity.
Qed.

Lemma norm_idem_Accessor x : settled_Accessor X x -> norm_Accessor X (norm_Accessor X x) = norm_Accessor X x.
Proof.
  intros W. unfold settled_Accessor in W. decompose [and] W. apply ext_Accessor; cbn [norm_Accessor acr_Extensions acr_Extras acr_Name acr_BufferView acr_ByteOffset acr_ComponentType acr_Normalized acr_Count acr_Type acr_Max acr_Min acr_Sparse].
  - apply norm_ext_idem; assumption.
  - reflexivity.
  - reflexivity.
  - reflexivity.
  - reflexivity.
  - reflexivity.
  - reflexivity.
  - reflexivity.
  - reflexivity.
  - reflexivity.
  - reflexivity.
  - refine (opt_idem _ _ _ norm_idem_Sparse _); assumption.
Qed.
Lemma est_Accessor : est (c_Accessor F X) (norm_Accessor X) (canon_Accessor X).
Proof.
  intros x C. unfold canon_Accessor in C. decompose [and] C.
  assert (G : enc_fields (fields_Accessor F X) (norm_Accessor X x) = enc_fields (fields_Accessor F X) x).
  { apply est_fields. repeat apply Forall_cons; [..|apply Forall_nil].
    - split; [omit_same|intros _; apply (est_ext X); assumption].
    - split; reflexivity.
    - split; reflexivity.
    - split; reflexivity.
    - split; reflexivity.
    - split; reflexivity.
    - split; reflexivity.
    - split; reflexivity.
    - split; reflexivity.
    - split; reflexivity.
    - split; reflexivity.
    - split; [omit_same|intros _; apply (est_ptr zero_Sparse _ _ _ est_Sparse); assumption].
  }
  cbn [c_Accessor c_struct enc]. unfold enc_struct. rewrite G. reflexivity.
Qed.

Lemma norm_idem_Buffer x : settled_Buffer X x -> norm_Buffer X (norm_Buffer X x) = norm_Buffer X x.
Proof.
  intros W. unfold settled_Buffer in W. decompose [and] W. apply ext_Buffer; cbn [norm_Buffer buf_Extensions buf_Extras buf_Name buf_URI buf_ByteLength buf_Data].
  - apply norm_ext_idem; assumption.
  - reflexivity.
  - reflexivity.
  - reflexivity.
  - reflexivity.
  - reflexivity.
Qed.
Lemma est_Buffer : est (c_Buffer F X) (norm_Buffer X) (canon_Buffer X).
Proof.
  intros x C. unfold canon_Buffer in C. decompose [and] C.
  assert (G : enc_fields (fields_Buffer F X) (norm_Buffer X x) = enc_fields (fields_Buffer F X) x).
  { apply est_fields. repeat apply Forall_cons; [..|apply Forall_nil].
    - split; [omit_same|intros _; apply (est_ext X); assumption].
    - split; reflexivity.
    - split; reflexivity.
    - split; reflexivity.
    - split; reflexivity.
  }
  cbn [c_Buffer c_struct enc]. unfold enc_struct. rewrite G. reflexivity.
Qed.

Lemma norm_idem_BufferView x : settled_BufferView X x -> norm_BufferView X (norm_BufferView X x) = norm_BufferView X x.
Proof.
  intros W. unfold settled_BufferView in W. decompose [and] W. apply ext_BufferView; cbn [norm_BufferView bvw_Extensions bvw_Extras bvw_Buffer bvw_ByteOffset bvw_ByteLength bvw_ByteStride bvw_Target bvw_Name].
  - apply norm_ext_idem; assumption.
  - reflexivity.
  - reflexivity.
  - reflexivity.
  - reflexivity.
  - reflexivity.
  - reflexivity.
  - reflexivity.
Qed.
Lemma est_BufferView : est (c_BufferView F X) (norm_BufferView X) (canon_BufferView X).
Proof.
  intros x C. unfold canon_BufferView in C. decompose [and] C.
  assert (G : enc_fields (fields_BufferView F X) (norm_BufferView X x) = enc_fields (fields_BufferView F X) x).
  { apply est_fields. repeat apply Forall_cons; [..|apply Forall_nil].
    - split; [omit_same|intros _; apply (est_ext X); assumption].
    - split; reflexivity.
    - split; reflexivity.
    - split; reflexivity.
    - split; reflexivity.
    - split; reflexivity.
    - split; reflexivity.
    - split; reflexivity.
  }
  cbn [c_BufferView c_struct enc]. unfold enc_struct. rewrite G. reflexivity.
Qed.

Lemma norm_idem_Scene x : settled_Scene X x -> norm_Scene X (norm_Scene X x) = norm_Scene X x.
Proof.
  intros W. unfold settled_Scene in W. decompose [and] W. apply ext_Scene; cbn [norm_Scene scn_Extensions scn_Extras scn_Name scn_Nodes].
  - apply norm_ext_idem; assumption.
  - reflexivity.
  - reflexivity.
  - reflexivity.
Qed.
Lemma est_Scene : est (c_Scene F X) (norm_Scene X) (canon_Scene X).
Proof.
  intros x C. unfold canon_Scene in C. decompose [and] C.
  assert (G : enc_fields (fields_Scene F X) (norm_Scene X x) = enc_fields (fields_Scene F X) x).
  { apply est_fields. repeat apply Forall_cons; [..|apply Forall_nil].
    - split; [omit_same|intros _; apply (est_ext X); assumption].
    - split; reflexivity.
    - split; reflexivity.
    - split; reflexivity.
  }
  cbn [c_Scene c_struct enc]. unfold enc_struct. rewrite G. reflexivity.
Qed.

Lemma norm_idem_Node x : settled_Node X x -> norm_Node X (norm_Node X x) = norm_Node X x.
Proof.
  intros W. unfold settled_Node in W. decompose [and] W. apply ext_Node; cbn [norm_Node nod_Extensions nod_Extras nod_Name nod_Camera nod_Children nod_Skin nod_Matrix nod_Mesh nod_Rotation nod_Scale nod_Translation nod_Weights].
  - apply norm_ext_idem; assumption.
  - reflexivity.
  - reflexivity.
  - reflexivity.
  - reflexivity.
  - reflexivity.
  - apply or_default_idem; [reflexivity|..]; reflexivity.
  - reflexivity.
  - apply or_default_idem; [reflexivity|..]; reflexivity.
  - apply or_default_idem; [reflexivity|..]; reflexivity.
  - apply or_default_idem; [reflexivity|..]; reflexivity.
  - reflexivity.
Qed.
Lemma est_Node : est (c_Node F X) (norm_Node X) (canon_Node X).
Proof.
  intros x C. unfold canon_Node in C. decompose [and] C.
  assert (G : enc_fields (out_Node F X) (norm_Node X x) = enc_fields (out_Node F X) x).
  { apply est_fields. repeat apply Forall_cons; [..|apply Forall_nil].
    - fest_default_tac.
    - fest_default_tac.
    - fest_default_tac.
    - fest_default_tac.
    - split; [omit_same|intros _; apply (est_ext X); assumption].
    - split; reflexivity.
    - split; reflexivity.
    - split; reflexivity.
    - split; reflexivity.
    - split; reflexivity.
    - split; reflexivity.
    - split; reflexivity.
  }
  cbn [c_Node c_struct enc]. unfold enc_struct. rewrite G. reflexivity.
Qed.

Lemma norm_idem_Skin x : settled_Skin X x -> norm_Skin X (norm_Skin X x) = norm_Skin X x.
Proof.
  intros W. unfold settled_Skin in W. decompose [and] W. apply ext_Skin; cbn [norm_Skin skn_Extensions skn_Extras skn_Name skn_InverseBindMatrices skn_Skeleton skn_Joints].
  - apply norm_ext_idem; assumption.
  - reflexivity.
  - reflexivity.
  - reflexivity.
  - reflexivity.
  - reflexivity.
Qed.
Lemma est_Skin : est (c_Skin F X) (norm_Skin X) (canon_Skin X).
Proof.
  intros x C. unfold canon_Skin in C. decompose [and] C.
  assert (G : enc_fields (fields_Skin F X) (norm_Skin X x) = enc_fields (fields_Skin F X) x).
  { apply est_fields. repeat apply Forall_cons; [..|apply Forall_nil].
    - split; [omit_same|intros _; apply (est_ext X); assumption].
    - split; reflexivity.
    - split; reflexivity.
    - split; reflexivity.
    - split; reflexivity.
    - split; reflexivity.
  }
  cbn [c_Skin c_struct enc]. unfold enc_struct. rewrite G. reflexivity.
Qed.

Lemma norm_idem_Orthographic x : settled_Orthographic X x -> norm_Orthographic X (norm_Orthographic X x) = norm_Orthographic X x.
Proof.
  intros W. unfold settled_Orthographic in W. decompose [and] W. apply ext_Orthographic; cbn [norm_Orthographic ort_Extensions ort_Extras ort_Xmag ort_Ymag ort_Zfar ort_Znear].
  - apply norm_ext_idem; assumption.
  - reflexivity.
  - reflexivity.
  - reflexivity.
  - reflexivity.
  - reflexivity.
Qed.
Lemma est_Orthographic : est (c_Orthographic F X) (norm_Orthographic X) (canon_Orthographic X).
Proof.
  intros x C. unfold canon_Orthographic in C. decompose [and] C.
  assert (G : enc_fields (fields_Orthographic F X) (norm_Orthographic X x) = enc_fields (fields_Orthographic F X) x).
  { apply est_fields. repeat apply Forall_cons; [..|apply Forall_nil].
    - split; [omit_same|intros _; apply (est_ext X); assumption].
    - split; reflexivity.
    - split; reflexivity.
    - split; reflexivity.
    - split; reflexivity.
    - split; reflexivity.
  }
  cbn [c_Orthographic c_struct enc]. unfold enc_struct. rewrite G. reflexivity.
Qed.

Lemma norm_idem_Perspective x : settled_Perspective X x -> norm_Perspective X (norm_Perspective X x) = norm_Perspective X x.
Proof.
  intros W. unfold settled_Perspective in W. decompose [and] W. apply ext_Perspective; cbn [norm_Perspective per_Extensions per_Extras per_AspectRatio per_Yfov per_Zfar per_Znear].
  - apply norm_ext_idem; assumption.
  - reflexivity.
  - reflexivity.
  - reflexivity.
  - reflexivity.
  - reflexivity.
Qed.
Lemma est_Perspective : est (c_Perspective F X) (norm_Perspective X) (canon_Perspective X).
Proof.
  intros x C. unfold canon_Perspective in C. decompose [and] C.
  assert (G : enc_fields (fields_Perspective F X) (norm_Perspective X x) = enc_fields (fields_Perspective F X) x).
  { apply est_fields. repeat apply Forall_cons; [..|apply Forall_nil].
    - split; [omit_same|intros _; apply (est_ext X); assumption].
    - split; reflexivity.
    - split; reflexivity.
    - split; reflexivity.
    - split; reflexivity.
    - split; reflexivity.
  }
  cbn [c_Perspective c_struct enc]. unfold enc_struct. rewrite G. reflexivity.
Qed.

Lemma norm_idem_Camera x : settled_Camera X x -> norm_Camera X (norm_Camera X x) = norm_Camera X x.
Proof.
  intros W. unfold settled_Camera in W. decompose [and] W. apply ext_Camera; cbn [norm_Camera cam_Extensions cam_Extras cam_Name cam_Orthographic cam_Perspective].
  - apply norm_ext_idem; assumption.
  - reflexivity.
  - reflexivity.
  - refine (opt_idem _ _ _ norm_idem_Orthographic _); assumption.
  - refine (opt_idem _ _ _ norm_idem_Perspective _); assumption.
Qed.
Lemma est_Camera : est (c_Camera F X) (norm_Camera X) (canon_Camera X).
Proof.
  intros x C. unfold canon_Camera in C. decompose [and] C.
  assert (G : enc_fields (fields_Camera F X) (norm_Camera X x) = enc_fields (fields_Camera F X) x).
  { apply est_fields. repeat apply Forall_cons; [..|apply Forall_nil].
    - split; [omit_same|intros _; apply (est_ext X); assumption].
    - split; reflexivity.
    - split; reflexivity.
    - split; [omit_same|intros _; apply (est_ptr zero_Orthographic _ _ _ est_Orthographic); assumption].
    - split; [omit_same|intros _; apply (est_ptr zero_Perspective _ _ _ est_Perspective); assumption].
  }
  cbn [c_Camera enc]. unfold enc_Camera. rewrite G. cbn [norm_Camera cam_Perspective cam_Orthographic].
  destruct (cam_Perspective x), (cam_Orthographic x); reflexivity.
Qed.

Lemma norm_idem_Primitive x : settled_Primitive X x -> norm_Primitive X (norm_Primitive X x) = norm_Primitive X x.
Proof.
  intros W. unfold settled_Primitive in W. decompose [and] W. apply ext_Primitive; cbn [norm_Primitive pri_Extensions pri_Extras pri_Attributes pri_Indices pri_Material pri_Mode pri_Targets].
  - apply norm_ext_idem; assumption.
  - reflexivity.
  - reflexivity.
  - reflexivity.
  - reflexivity.
  - reflexivity.
  - reflexivity.
Qed.
Lemma est_Primitive : est (c_Primitive F X) (norm_Primitive X) (canon_Primitive X).
Proof.
  intros x C. unfold canon_Primitive in C. decompose [and] C.
  assert (G : enc_fields (fields_Primitive F X) (norm_Primitive X x) = enc_fields (fields_Primitive F X) x).
  { apply est_fields. repeat apply Forall_cons; [..|apply Forall_nil].
    - split; [omit_same|intros _; apply (est_ext X); assumption].
    - split; reflexivity.
    - split; reflexivity.
    - split; reflexivity.
    - split; reflexivity.
    - split; reflexivity.
    - split; reflexivity.
  }
  cbn [c_Primitive c_struct enc]. unfold enc_struct. rewrite G. reflexivity.
Qed.

Lemma norm_idem_Mesh x : settled_Mesh X x -> norm_Mesh X (norm_Mesh X x) = norm_Mesh X x.
Proof.
  intros W. unfold settled_Mesh in W. decompose [and] W. apply ext_Mesh; cbn [norm_Mesh msh_Extensions msh_Extras msh_Name msh_Primitives msh_Weights].
  - apply norm_ext_idem; assumption.
  - reflexivity.
  - reflexivity.
  - refine (opt_idem _ _ _ (fun l => map_idem _ _ l (fun o => opt_idem _ _ o norm_idem_Primitive)) _); assumption.
  - reflexivity.
Qed.
Lemma est_Mesh : est (c_Mesh F X) (norm_Mesh X) (canon_Mesh X).
Proof.
  intros x C. unfold canon_Mesh in C. decompose [and] C.
  assert (G : enc_fields (fields_Mesh F X) (norm_Mesh X x) = enc_fields (fields_Mesh F X) x).
  { apply est_fields. repeat apply Forall_cons; [..|apply Forall_nil].
    - split; [omit_same|intros _; apply (est_ext X); assumption].
    - split; reflexivity.
    - split; reflexivity.
    - split; [omit_same|intros _; apply (est_oslice None _ _ _ (est_ptr zero_Primitive _ _ _ est_Primitive)); assumption].
    - split; reflexivity.
  }
  cbn [c_Mesh c_struct enc]. unfold enc_struct. rewrite G. reflexivity.
Qed.

Lemma norm_idem_TextureInfo x : settled_TextureInfo X x -> norm_TextureInfo X (norm_TextureInfo X x) = norm_TextureInfo X x.
Proof.
  intros W. unfold settled_TextureInfo in W. decompose [and] W. apply ext_TextureInfo; cbn [norm_TextureInfo txi_Extensions txi_Extras txi_Index txi_TexCoord].
  - apply norm_ext_idem; assumption.
  - reflexivity.
  - reflexivity.
  - reflexivity.
Qed.
Lemma est_TextureInfo : est (c_TextureInfo F X) (norm_TextureInfo X) (canon_TextureInfo X).
Proof.
  intros x C. unfold canon_TextureInfo in C. decompose [and] C.
  assert (G : enc_fields (fields_TextureInfo F X) (norm_TextureInfo X x) = enc_fields (fields_TextureInfo F X) x).
  { apply est_fields. repeat apply Forall_cons; [..|apply Forall_nil].
    - split; [omit_same|intros _; apply (est_ext X); assumption].
    - split; reflexivity.
    - split; reflexivity.
    - split; reflexivity.
  }
  cbn [c_TextureInfo c_struct enc]. unfold enc_struct. rewrite G. reflexivity.
Qed.

Lemma norm_idem_NormalTexture x : settled_NormalTexture X x -> norm_NormalTexture X (norm_NormalTexture X x) = norm_NormalTexture X x.
Proof.
  intros W. unfold settled_NormalTexture in W. decompose [and] W. apply ext_NormalTexture; cbn [norm_NormalTexture ntx_Extensions ntx_Extras ntx_Index ntx_TexCoord ntx_Scale].
  - apply norm_ext_idem; assumption.
  - reflexivity.
  - reflexivity.
  - reflexivity.
  - apply or_some_idem.
Qed.
Lemma est_NormalTexture : est (c_NormalTexture F X) (norm_NormalTexture X) (canon_NormalTexture X).
Proof.
  intros x C. unfold canon_NormalTexture in C. decompose [and] C.
  assert (G : enc_fields (fields_NormalTexture F X) (norm_NormalTexture X x) = enc_fields (fields_NormalTexture F X) x).
  { apply est_fields. repeat apply Forall_cons; [..|apply Forall_nil].
    - split; [omit_same|intros _; apply (est_ext X); assumption].
    - split; reflexivity.
    - split; reflexivity.
    - split; reflexivity.
    - fest_default_tac.
  }
  cbn [c_NormalTexture c_struct enc]. unfold enc_struct. rewrite G. reflexivity.
Qed.

Lemma norm_idem_OcclusionTexture x : settled_OcclusionTexture X x -> norm_OcclusionTexture X (norm_OcclusionTexture X x) = norm_OcclusionTexture X x.
Proof.
  intros W. unfold settled_OcclusionTexture in W. decompose [and] W. apply ext_OcclusionTexture; cbn [norm_OcclusionTexture otx_Extensions otx_Extras otx_Index otx_TexCoord otx_Strength].
  - apply norm_ext_idem; assumption.
  - reflexivity.
  - reflexivity.
  - reflexivity.
  - apply or_some_idem.
Qed.
Lemma est_OcclusionTexture : est (c_OcclusionTexture F X) (norm_OcclusionTexture X) (canon_OcclusionTexture X).
Proof.
  intros x C. unfold canon_OcclusionTexture in C. decompose [and] C.
  assert (G : enc_fields (fields_OcclusionTexture F X) (norm_OcclusionTexture X x) = enc_fields (fields_OcclusionTexture F X) x).
  { apply est_fields. repeat apply Forall_cons; [..|apply Forall_nil].
    - split; [omit_same|intros _; apply (est_ext X); assumption].
    - split; reflexivity.
    - split; reflexivity.
    - split; reflexivity.
    - fest_default_tac.
  }
  cbn [c_OcclusionTexture c_struct enc]. unfold enc_struct. rewrite G. reflexivity.
Qed.

Lemma norm_idem_PBRMetallicRoughness x : settled_PBRMetallicRoughness X x -> norm_PBRMetallicRoughness X (norm_PBRMetallicRoughness X x) = norm_PBRMetallicRoughness X x.
Proof.
  intros W. unfold settled_PBRMetallicRoughness in W. decompose [and] W. apply ext_PBRMetallicRoughness; cbn [norm_PBRMetallicRoughness pbr_Extensions pbr_Extras pbr_BaseColorFactor pbr_BaseColorTexture pbr_MetallicFactor pbr_RoughnessFactor pbr_MetallicRoughnessTexture].
  - apply norm_ext_idem; assumption.
  - reflexivity.
  - apply or_some_idem.
  - refine (opt_idem _ _ _ norm_idem_TextureInfo _); assumption.
  - apply or_some_idem.
  - apply or_some_idem.
  - refine (opt_idem _ _ _ norm_idem_TextureInfo _); assumption.
Qed.
Lemma est_PBRMetallicRoughness : est (c_PBRMetallicRoughness F X) (norm_PBRMetallicRoughness X) (canon_PBRMetallicRoughness X).
Proof.
  intros x C. unfold canon_PBRMetallicRoughness in C. decompose [and] C.
  assert (G : enc_fields (fields_PBRMetallicRoughness F X) (norm_PBRMetallicRoughness X x) = enc_fields (fields_PBRMetallicRoughness F X) x).
  { apply est_fields. repeat apply Forall_cons; [..|apply Forall_nil].
    - split; [omit_same|intros _; apply (est_ext X); assumption].
    - split; reflexivity.
    - fest_default_tac.
    - split; [omit_same|intros _; apply (est_ptr zero_TextureInfo _ _ _ est_TextureInfo); assumption].
    - fest_default_tac.
    - fest_default_tac.
    - split; [omit_same|intros _; apply (est_ptr zero_TextureInfo _ _ _ est_TextureInfo); assumption].
  }
  cbn [c_PBRMetallicRoughness c_struct enc]. unfold enc_struct. rewrite G. reflexivity.
Qed.

Lemma norm_idem_Material x : settled_Material X x -> norm_Material X (norm_Material X x) = norm_Material X x.
Proof.
  intros W. unfold settled_Material in W. decompose [and] W. apply ext_Material; cbn [norm_Material mat_Extensions mat_Extras mat_Name mat_PBRMetallicRoughness mat_NormalTexture mat_OcclusionTexture mat_EmissiveTexture mat_EmissiveFactor mat_AlphaMode mat_AlphaCutoff mat_DoubleSided].
  - apply norm_ext_idem; assumption.
  - reflexivity.
  - reflexivity.
  - refine (opt_idem _ _ _ norm_idem_PBRMetallicRoughness _); assumption.
  - refine (opt_idem _ _ _ norm_idem_NormalTexture _); assumption.
  - refine (opt_idem _ _ _ norm_idem_OcclusionTexture _); assumption.
  - refine (opt_idem _ _ _ norm_idem_TextureInfo _); assumption.
  - apply or_default_idem; [reflexivity|..]; reflexivity.
  - reflexivity.
  - apply or_some_idem.
  - reflexivity.
Qed.
Lemma est_Material : est (c_Material F X) (norm_Material X) (canon_Material X).
Proof.
  intros x C. unfold canon_Material in C. decompose [and] C.
  assert (G : enc_fields (out_Material F X) (norm_Material X x) = enc_fields (out_Material F X) x).
  { apply est_fields. repeat apply Forall_cons; [..|apply Forall_nil].
    - fest_default_tac.
    - fest_default_tac.
    - split; [omit_same|intros _; apply (est_ext X); assumption].
    - split; reflexivity.
    - split; reflexivity.
    - split; [omit_same|intros _; apply (est_ptr zero_PBRMetallicRoughness _ _ _ est_PBRMetallicRoughness); assumption].
    - split; [omit_same|intros _; apply (est_ptr zero_NormalTexture _ _ _ est_NormalTexture); assumption].
    - split; [omit_same|intros _; apply (est_ptr zero_OcclusionTexture _ _ _ est_OcclusionTexture); assumption].
    - split; [omit_same|intros _; apply (est_ptr zero_TextureInfo _ _ _ est_TextureInfo); assumption].
    - split; reflexivity.
    - split; reflexivity.
  }
  cbn [c_Material c_struct enc]. unfold enc_struct. rewrite G. reflexivity.
Qed.

Lemma norm_idem_Texture x : settled_Texture X x -> norm_Texture X (norm_Texture X x) = norm_Texture X x.
Proof.
  intros W. unfold settled_Texture in W. decompose [and] W. apply ext_Texture; cbn [norm_Texture txt_Extensions txt_Extras txt_Name txt_Sampler txt_Source].
  - apply norm_ext_idem; assumption.
  - reflexivity.
  - reflexivity.
  - reflexivity.
  - reflexivity.
Qed.
Lemma est_Texture : est (c_Texture F X) (norm_Texture X) (canon_Texture X).
Proof.
  intros x C. unfold canon_Texture in C. decompose [and] C.
  assert (G : enc_fields (fields_Texture F X) (norm_Texture X x) = enc_fields (fields_Texture F X) x).
  { apply est_fields. repeat apply Forall_cons; [..|apply Forall_nil].
    - split; [omit_same|intros _; apply (est_ext X); assumption].
    - split; reflexivity.
    - split; reflexivity.
    - split; reflexivity.
    - split; reflexivity.
  }
  cbn [c_Texture c_struct enc]. unfold enc_struct. rewrite G. reflexivity.
Qed.

Lemma norm_idem_Sampler x : settled_Sampler X x -> norm_Sampler X (norm_Sampler X x) = norm_Sampler X x.
Proof.
  intros W. unfold settled_Sampler in W. decompose [and] W. apply ext_Sampler; cbn [norm_Sampler smp_Extensions smp_Extras smp_Name smp_MagFilter smp_MinFilter smp_WrapS smp_WrapT].
  - apply norm_ext_idem; assumption.
  - reflexivity.
  - reflexivity.
  - reflexivity.
  - reflexivity.
  - reflexivity.
  - reflexivity.
Qed.
Lemma est_Sampler : est (c_Sampler F X) (norm_Sampler X) (canon_Sampler X).
Proof.
  intros x C. unfold canon_Sampler in C. decompose [and] C.
  assert (G : enc_fields (fields_Sampler F X) (norm_Sampler X x) = enc_fields (fields_Sampler F X) x).
  { apply est_fields. repeat apply Forall_cons; [..|apply Forall_nil].
    - split; [omit_same|intros _; apply (est_ext X); assumption].
    - split; reflexivity.
    - split; reflexivity.
    - split; reflexivity.
    - split; reflexivity.
    - split; reflexivity.
    - split; reflexivity.
  }
  cbn [c_Sampler c_struct enc]. unfold enc_struct. rewrite G. reflexivity.
Qed.

Lemma norm_idem_Image x : settled_Image X x -> norm_Image X (norm_Image X x) = norm_Image X x.
Proof.
  intros W. unfold settled_Image in W. decompose [and] W. apply ext_Image; cbn [norm_Image img_Extensions img_Extras img_Name img_URI img_MimeType img_BufferView].
  - apply norm_ext_idem; assumption.
  - reflexivity.
  - reflexivity.
  - reflexivity.
  - reflexivity.
  - reflexivity.
Qed.
Lemma est_Image : est (c_Image F X) (norm_Image X) (canon_Image X).
Proof.
  intros x C. unfold canon_Image in C. decompose [and] C.
  assert (G : enc_fields (fields_Image F X) (norm_Image X x) = enc_fields (fields_Image F X) x).
  { apply est_fields. repeat apply Forall_cons; [..|apply Forall_nil].
    - split; [omit_same|intros _; apply (est_ext X); assumption].
    - split; reflexivity.
    - split; reflexivity.
    - split; reflexivity.
    - split; reflexivity.
    - split; reflexivity.
  }
  cbn [c_Image c_struct enc]. unfold enc_struct. rewrite G. reflexivity.
Qed.

Lemma norm_idem_AnimationSampler x : settled_AnimationSampler X x -> norm_AnimationSampler X (norm_AnimationSampler X x) = norm_AnimationSampler X x.
Proof.
  intros W. unfold settled_AnimationSampler in W. decompose [and] W. apply ext_AnimationSampler; cbn [norm_AnimationSampler ans_Extensions ans_Extras ans_Input ans_Interpolation ans_Output].
  - apply norm_ext_idem; assumption.
  - reflexivity.
  - reflexivity.
  - reflexivity.
  - reflexivity.
Qed.
Lemma est_AnimationSampler : est (c_AnimationSampler F X) (norm_AnimationSampler X) (canon_AnimationSampler X).
Proof.
  intros x C. unfold canon_AnimationSampler in C. decompose [and] C.
  assert (G : enc_fields (fields_AnimationSampler F X) (norm_AnimationSampler X x) = enc_fields (fields_AnimationSampler F X) x).
  { apply est_fields. repeat apply Forall_cons; [..|apply Forall_nil].
    - split; [omit_same|intros _; apply (est_ext X); assumption].
    - split; reflexivity.
    - split; reflexivity.
    - split; reflexivity.
    - split; reflexivity.
  }
  cbn [c_AnimationSampler c_struct enc]. unfold enc_struct. rewrite G. reflexivity.
Qed.

Lemma norm_idem_AnimationChannelTarget x : settled_AnimationChannelTarget X x -> norm_AnimationChannelTarget X (norm_AnimationChannelTarget X x) = norm_AnimationChannelTarget X x.
Proof.
  intros W. unfold settled_AnimationChannelTarget in W. decompose [and] W. apply ext_AnimationChannelTarget; cbn [norm_AnimationChannelTarget act_Extensions act_Extras act_Node act_Path].
  - apply norm_ext_idem; assumption.
  - reflexivity.
  - reflexivity.
  - reflexivity.
Qed.
Lemma est_AnimationChannelTarget : est (c_AnimationChannelTarget F X) (norm_AnimationChannelTarget X) (canon_AnimationChannelTarget X).
Proof.
  intros x C. unfold canon_AnimationChannelTarget in C. decompose [and] C.
  assert (G : enc_fields (fields_AnimationChannelTarget F X) (norm_AnimationChannelTarget X x) = enc_fields (fields_AnimationChannelTarget F X) x).
  { apply est_fields. repeat apply Forall_cons; [..|apply Forall_nil].
    - split; [omit_same|intros _; apply (est_ext X); assumption].
    - split; reflexivity.
    - split; reflexivity.
    - split; reflexivity.
  }
  cbn [c_AnimationChannelTarget c_struct enc]. unfold enc_struct. rewrite G. reflexivity.
Qed.

Lemma norm_idem_AnimationChannel x : settled_AnimationChannel X x -> norm_AnimationChannel X (norm_AnimationChannel X x) = norm_AnimationChannel X x.
Proof.
  intros W. unfold settled_AnimationChannel in W. decompose [and] W. apply ext_AnimationChannel; cbn [norm_AnimationChannel anc_Extensions anc_Extras anc_Sampler anc_Target].
  - apply norm_ext_idem; assumption.
  - reflexivity.
  - reflexivity.
  - apply norm_idem_AnimationChannelTarget; assumption.
Qed.
Lemma est_AnimationChannel : est (c_AnimationChannel F X) (norm_AnimationChannel X) (canon_AnimationChannel X).
Proof.
  intros x C. unfold canon_AnimationChannel in C. decompose [and] C.
  assert (G : enc_fields (fields_AnimationChannel F X) (norm_AnimationChannel X x) = enc_fields (fields_AnimationChannel F X) x).
  { apply est_fields. repeat apply Forall_cons; [..|apply Forall_nil].
    - split; [omit_same|intros _; apply (est_ext X); assumption].
    - split; reflexivity.
    - split; reflexivity.
    - split; [omit_same|intros _; apply est_AnimationChannelTarget; assumption].
  }
  cbn [c_AnimationChannel c_struct enc]. unfold enc_struct. rewrite G. reflexivity.
Qed.

Lemma norm_idem_Animation x : settled_Animation X x -> norm_Animation X (norm_Animation X x) = norm_Animation X x.
Proof.
  intros W. unfold settled_Animation in W. decompose [and] W. apply ext_Animation; cbn [norm_Animation ani_Extensions ani_Extras ani_Name ani_Channels ani_Samplers].
  - apply norm_ext_idem; assumption.
  - reflexivity.
  - reflexivity.
  - refine (opt_idem _ _ _ (fun l => map_idem _ _ l (fun o => opt_idem _ _ o norm_idem_AnimationChannel)) _); assumption.
  - refine (opt_idem _ _ _ (fun l => map_idem _ _ l (fun o => opt_idem _ _ o norm_idem_AnimationSampler)) _); assumption.
Qed.
Lemma est_Animation : est (c_Animation F X) (norm_Animation X) (canon_Animation X).
Proof.
  intros x C. unfold canon_Animation in C. decompose [and] C.
  assert (G : enc_fields (fields_Animation F X) (norm_Animation X x) = enc_fields (fields_Animation F X) x).
  { apply est_fields. repeat apply Forall_cons; [..|apply Forall_nil].
    - split; [omit_same|intros _; apply (est_ext X); assumption].
    - split; reflexivity.
    - split; reflexivity.
    - split; [omit_same|intros _; apply (est_oslice None _ _ _ (est_ptr zero_AnimationChannel _ _ _ est_AnimationChannel)); assumption].
    - split; [omit_same|intros _; apply (est_oslice None _ _ _ (est_ptr zero_AnimationSampler _ _ _ est_AnimationSampler)); assumption].
  }
  cbn [c_Animation c_struct enc]. unfold enc_struct. rewrite G. reflexivity.
Qed.

Lemma norm_idem_Document x : settled_Document X x -> norm_Document X (norm_Document X x) = norm_Document X x.
Proof.
  intros W. unfold settled_Document in W. decompose [and] W. apply ext_Document; cbn [norm_Document doc_Extensions doc_Extras doc_ExtensionsUsed doc_ExtensionsRequired doc_Accessors doc_Animations doc_Asset doc_Buffers doc_BufferViews doc_Cameras doc_Images doc_Materials doc_Meshes doc_Nodes doc_Samplers doc_Scene doc_Scenes doc_Skins doc_Textures].
  - apply norm_ext_idem; assumption.
  - reflexivity.
  - reflexivity.
  - reflexivity.
  - refine (map_idem _ _ _ (fun o => opt_idem _ _ o norm_idem_Accessor) _); assumption.
  - refine (map_idem _ _ _ (fun o => opt_idem _ _ o norm_idem_Animation) _); assumption.
  - apply norm_idem_Asset; assumption.
  - refine (map_idem _ _ _ (fun o => opt_idem _ _ o norm_idem_Buffer) _); assumption.
  - refine (map_idem _ _ _ (fun o => opt_idem _ _ o norm_idem_BufferView) _); assumption.
  - refine (map_idem _ _ _ (fun o => opt_idem _ _ o norm_idem_Camera) _); assumption.
  - refine (map_idem _ _ _ (fun o => opt_idem _ _ o norm_idem_Image) _); assumption.
  - refine (map_idem _ _ _ (fun o => opt_idem _ _ o norm_idem_Material) _); assumption.
  - refine (map_idem _ _ _ (fun o => opt_idem _ _ o norm_idem_Mesh) _); assumption.
  - refine (map_idem _ _ _ (fun o => opt_idem _ _ o norm_idem_Node) _); assumption.
  - refine (map_idem _ _ _ (fun o => opt_idem _ _ o norm_idem_Sampler) _); assumption.
  - reflexivity.
  - refine (map_idem _ _ _ (fun o => opt_idem _ _ o norm_idem_Scene) _); assumption.
  - refine (map_idem _ _ _ (fun o => opt_idem _ _ o norm_idem_Skin) _); assumption.
  - refine (map_idem _ _ _ (fun o => opt_idem _ _ o norm_idem_Texture) _); assumption.
Qed.
Lemma est_Document : est (c_Document F X) (norm_Document X) (canon_Document X).
Proof.
  intros x C. unfold canon_Document in C. decompose [and] C.
  assert (G : enc_fields (out_Document F X) (norm_Document X x) = enc_fields (out_Document F X) x).
  { apply est_fields. repeat apply Forall_cons; [..|apply Forall_nil].
    - split; [omit_same|intros _; apply (est_slice None _ _ _ (est_ptr zero_Buffer _ _ _ est_Buffer)); assumption].
    - split; [omit_same|intros _; apply (est_ext X); assumption].
    - split; reflexivity.
    - split; reflexivity.
    - split; reflexivity.
    - split; [omit_same|intros _; apply (est_slice None _ _ _ (est_ptr zero_Accessor _ _ _ est_Accessor)); assumption].
    - split; [omit_same|intros _; apply (est_slice None _ _ _ (est_ptr zero_Animation _ _ _ est_Animation)); assumption].
    - split; [omit_same|intros _; apply est_Asset; assumption].
    - split; [omit_same|intros _; apply (est_slice None _ _ _ (est_ptr zero_BufferView _ _ _ est_BufferView)); assumption].
    - split; [omit_same|intros _; apply (est_slice None _ _ _ (est_ptr zero_Camera _ _ _ est_Camera)); assumption].
    - split; [omit_same|intros _; apply (est_slice None _ _ _ (est_ptr zero_Image _ _ _ est_Image)); assumption].
    - split; [omit_same|intros _; apply (est_slice None _ _ _ (est_ptr zero_Material _ _ _ est_Material)); assumption].
    - split; [omit_same|intros _; apply (est_slice None _ _ _ (est_ptr zero_Mesh _ _ _ est_Mesh)); assumption].
    - split; [omit_same|intros _; apply (est_slice None _ _ _ (est_ptr zero_Node _ _ _ est_Node)); assumption].
    - split; [omit_same|intros _; apply (est_slice None _ _ _ (est_ptr zero_Sampler _ _ _ est_Sampler)); assumption].
    - split; reflexivity.
    - split; [omit_same|intros _; apply (est_slice None _ _ _ (est_ptr zero_Scene _ _ _ est_Scene)); assumption].
    - split; [omit_same|intros _; apply (est_slice None _ _ _ (est_ptr zero_Skin _ _ _ est_Skin)); assumption].
    - split; [omit_same|intros _; apply (est_slice None _ _ _ (est_ptr zero_Texture _ _ _ est_Texture)); assumption].
  }
  cbn [c_Document c_struct enc]. unfold enc_struct. rewrite G. reflexivity.
Qed.
End Params.
