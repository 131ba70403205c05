(** Decoding makes loaded documents; loaded documents are documents of a Go
    program, and which of them JSON can carry.  GENERATED by
    tools/gen_loaded.py; do not edit. *)
From Verif Require Import Base BaseFacts Types Doc F64 SpecText JsonText Codec DocCodec SpecJson CodecProofs CodecInv DocCodecBase DocInvBase
  SpecGo SpecGoDoc DocWithin SpecLoaded SpecLoadedDoc LoadedProofs.

Section Inv.
Context (F : float_lib) (X : ext_lib) (Q : string -> extv -> Prop) (PC : parse_contract F) (HQ : registry_gives X Q).

Lemma zero_loaded_Asset : loaded_Asset Q zero_Asset.
Proof. unfold loaded_Asset. split; [lzero_tac|]. split; [lzero_tac|]. split; [lzero_tac|]. split; [lzero_tac|]. split; [lzero_tac|]. lzero_tac. Qed.
Lemma default_loaded_Asset : loaded_Asset Q default_Asset.
Proof. unfold loaded_Asset. split; [lzero_tac|]. split; [lzero_tac|]. split; [lzero_tac|]. split; [lzero_tac|]. split; [lzero_tac|]. lzero_tac. Qed.
Lemma il_Asset : inv (c_Asset F X) lexical (loaded_Asset Q).
Proof.
  intros old j y Ho Hj H. refine (inv_struct _ _ (fields_Asset F X) default_Asset j y closed_lexical _ default_loaded_Asset Hj H).
  repeat apply Forall_cons; [..|apply Forall_nil].
  - finv_tac (inv_loaded_ext X Q HQ) loaded_Asset.
  - finv_tac (inv_loaded_any F PC) loaded_Asset.
  - finv_tac (inv_str lexical) loaded_Asset.
  - finv_tac (inv_str lexical) loaded_Asset.
  - finv_tac (inv_str lexical) loaded_Asset.
  - finv_tac (inv_str lexical) loaded_Asset.
Qed.

Lemma zero_loaded_SparseValues : loaded_SparseValues Q zero_SparseValues.
Proof. unfold loaded_SparseValues. split; [lzero_tac|]. split; [lzero_tac|]. split; [lzero_tac|]. lzero_tac. Qed.
Lemma il_SparseValues : inv (c_SparseValues F X) lexical (loaded_SparseValues Q).
Proof.
  intros old j y Ho Hj H. refine (inv_struct _ _ (fields_SparseValues F X) old j y closed_lexical _ Ho Hj H).
  repeat apply Forall_cons; [..|apply Forall_nil].
  - finv_tac (inv_loaded_ext X Q HQ) loaded_SparseValues.
  - finv_tac (inv_loaded_any F PC) loaded_SparseValues.
  - finv_tac (inv_int lexical) loaded_SparseValues.
  - finv_tac (inv_int lexical) loaded_SparseValues.
Qed.

Lemma zero_loaded_SparseIndices : loaded_SparseIndices Q zero_SparseIndices.
Proof. unfold loaded_SparseIndices. split; [lzero_tac|]. split; [lzero_tac|]. split; [lzero_tac|]. split; [lzero_tac|]. lzero_tac. Qed.
Lemma il_SparseIndices : inv (c_SparseIndices F X) lexical (loaded_SparseIndices Q).
Proof.
  intros old j y Ho Hj H. refine (inv_struct _ _ (fields_SparseIndices F X) old j y closed_lexical _ Ho Hj H).
  repeat apply Forall_cons; [..|apply Forall_nil].
  - finv_tac (inv_loaded_ext X Q HQ) loaded_SparseIndices.
  - finv_tac (inv_loaded_any F PC) loaded_SparseIndices.
  - finv_tac (inv_int lexical) loaded_SparseIndices.
  - finv_tac (inv_int lexical) loaded_SparseIndices.
  - finv_tac (inv_ct lexical) loaded_SparseIndices.
Qed.

Lemma zero_loaded_Sparse : loaded_Sparse Q zero_Sparse.
Proof. unfold loaded_Sparse. split; [lzero_tac|]. split; [lzero_tac|]. split; [lzero_tac|]. split; [exact zero_loaded_SparseIndices|]. exact zero_loaded_SparseValues. Qed.
Lemma il_Sparse : inv (c_Sparse F X) lexical (loaded_Sparse Q).
Proof.
  intros old j y Ho Hj H. refine (inv_struct _ _ (fields_Sparse F X) old j y closed_lexical _ Ho Hj H).
  repeat apply Forall_cons; [..|apply Forall_nil].
  - finv_tac (inv_loaded_ext X Q HQ) loaded_Sparse.
  - finv_tac (inv_loaded_any F PC) loaded_Sparse.
  - finv_tac (inv_int lexical) loaded_Sparse.
  - finv_tac il_SparseIndices loaded_Sparse.
  - finv_tac il_SparseValues loaded_Sparse.
Qed.

Lemma zero_loaded_Accessor : loaded_Accessor Q zero_Accessor.
Proof. unfold loaded_Accessor. split; [lzero_tac|]. split; [lzero_tac|]. split; [lzero_tac|]. split; [lzero_tac|]. split; [lzero_tac|]. split; [lzero_tac|]. split; [lzero_tac|]. split; [lzero_tac|]. split; [lzero_tac|]. split; [lzero_tac|]. lzero_tac. Qed.
Lemma il_Accessor : inv (c_Accessor F X) lexical (loaded_Accessor Q).
Proof.
  intros old j y Ho Hj H. refine (inv_struct _ _ (fields_Accessor F X) old j y closed_lexical _ Ho Hj H).
  repeat apply Forall_cons; [..|apply Forall_nil].
  - finv_tac (inv_loaded_ext X Q HQ) loaded_Accessor.
  - finv_tac (inv_loaded_any F PC) loaded_Accessor.
  - finv_tac (inv_str lexical) loaded_Accessor.
  - finv_tac (inv_ptr 0 c_int _ in_i64 in_i64_0 (inv_int lexical)) loaded_Accessor.
  - finv_tac (inv_int lexical) loaded_Accessor.
  - finv_tac (inv_ct lexical) loaded_Accessor.
  - finv_tac (inv_true c_bool lexical) loaded_Accessor.
  - finv_tac (inv_int lexical) loaded_Accessor.
  - finv_tac (inv_at lexical) loaded_Accessor.
  - finv_tac (inv_slice 0 (c_f64 F) _ float_ok closed_lexical float_ok_0 (inv_f64 F PC lexical)) loaded_Accessor.
  - finv_tac (inv_slice 0 (c_f64 F) _ float_ok closed_lexical float_ok_0 (inv_f64 F PC lexical)) loaded_Accessor.
  - finv_tac (inv_ptr zero_Sparse _ _ (loaded_Sparse Q) zero_loaded_Sparse il_Sparse) loaded_Accessor.
Qed.

Lemma zero_loaded_Buffer : loaded_Buffer Q zero_Buffer.
Proof. unfold loaded_Buffer. split; [lzero_tac|]. split; [lzero_tac|]. split; [lzero_tac|]. split; [lzero_tac|]. lzero_tac. Qed.
Lemma il_Buffer : inv (c_Buffer F X) lexical (loaded_Buffer Q).
Proof.
  intros old j y Ho Hj H. refine (inv_struct _ _ (fields_Buffer F X) old j y closed_lexical _ Ho Hj H).
  repeat apply Forall_cons; [..|apply Forall_nil].
  - finv_tac (inv_loaded_ext X Q HQ) loaded_Buffer.
  - finv_tac (inv_loaded_any F PC) loaded_Buffer.
  - finv_tac (inv_str lexical) loaded_Buffer.
  - finv_tac (inv_str lexical) loaded_Buffer.
  - finv_tac (inv_int lexical) loaded_Buffer.
Qed.

Lemma zero_loaded_BufferView : loaded_BufferView Q zero_BufferView.
Proof. unfold loaded_BufferView. split; [lzero_tac|]. split; [lzero_tac|]. split; [lzero_tac|]. split; [lzero_tac|]. split; [lzero_tac|]. split; [lzero_tac|]. split; [lzero_tac|]. lzero_tac. Qed.
Lemma il_BufferView : inv (c_BufferView F X) lexical (loaded_BufferView Q).
Proof.
  intros old j y Ho Hj H. refine (inv_struct _ _ (fields_BufferView F X) old j y closed_lexical _ Ho Hj H).
  repeat apply Forall_cons; [..|apply Forall_nil].
  - finv_tac (inv_loaded_ext X Q HQ) loaded_BufferView.
  - finv_tac (inv_loaded_any F PC) loaded_BufferView.
  - finv_tac (inv_int lexical) loaded_BufferView.
  - finv_tac (inv_int lexical) loaded_BufferView.
  - finv_tac (inv_int lexical) loaded_BufferView.
  - finv_tac (inv_int lexical) loaded_BufferView.
  - finv_tac (inv_tgt lexical) loaded_BufferView.
  - finv_tac (inv_str lexical) loaded_BufferView.
Qed.

Lemma zero_loaded_Scene : loaded_Scene Q zero_Scene.
Proof. unfold loaded_Scene. split; [lzero_tac|]. split; [lzero_tac|]. split; [lzero_tac|]. lzero_tac. Qed.
Lemma il_Scene : inv (c_Scene F X) lexical (loaded_Scene Q).
Proof.
  intros old j y Ho Hj H. refine (inv_struct _ _ (fields_Scene F X) old j y closed_lexical _ Ho Hj H).
  repeat apply Forall_cons; [..|apply Forall_nil].
  - finv_tac (inv_loaded_ext X Q HQ) loaded_Scene.
  - finv_tac (inv_loaded_any F PC) loaded_Scene.
  - finv_tac (inv_str lexical) loaded_Scene.
  - finv_tac (inv_slice 0 c_int _ in_i64 closed_lexical in_i64_0 (inv_int lexical)) loaded_Scene.
Qed.

Lemma zero_loaded_Node : loaded_Node Q zero_Node.
Proof. unfold loaded_Node. split; [lzero_tac|]. split; [lzero_tac|]. split; [lzero_tac|]. split; [lzero_tac|]. split; [lzero_tac|]. split; [lzero_tac|]. split; [lzero_tac|]. split; [lzero_tac|]. split; [lzero_tac|]. split; [lzero_tac|]. split; [lzero_tac|]. lzero_tac. Qed.
Lemma default_loaded_Node : loaded_Node Q default_Node.
Proof. unfold loaded_Node. split; [lzero_tac|]. split; [lzero_tac|]. split; [lzero_tac|]. split; [lzero_tac|]. split; [lzero_tac|]. split; [lzero_tac|]. split; [lzero_tac|]. split; [lzero_tac|]. split; [lzero_tac|]. split; [lzero_tac|]. split; [lzero_tac|]. lzero_tac. Qed.
Lemma il_Node : inv (c_Node F X) lexical (loaded_Node Q).
Proof.
  intros old j y Ho Hj H. refine (inv_struct _ _ (fields_Node F X) default_Node j y closed_lexical _ default_loaded_Node Hj H).
  repeat apply Forall_cons; [..|apply Forall_nil].
  - finv_tac (inv_loaded_ext X Q HQ) loaded_Node.
  - finv_tac (inv_loaded_any F PC) loaded_Node.
  - finv_tac (inv_str lexical) loaded_Node.
  - finv_tac (inv_ptr 0 c_int _ in_i64 in_i64_0 (inv_int lexical)) loaded_Node.
  - finv_tac (inv_slice 0 c_int _ in_i64 closed_lexical in_i64_0 (inv_int lexical)) loaded_Node.
  - finv_tac (inv_ptr 0 c_int _ in_i64 in_i64_0 (inv_int lexical)) loaded_Node.
  - finv_tac (inv_array 0 (c_f64 F) _ float_ok 16 closed_lexical float_ok_0 (inv_f64 F PC lexical)) loaded_Node.
  - finv_tac (inv_ptr 0 c_int _ in_i64 in_i64_0 (inv_int lexical)) loaded_Node.
  - finv_tac (inv_array 0 (c_f64 F) _ float_ok 4 closed_lexical float_ok_0 (inv_f64 F PC lexical)) loaded_Node.
  - finv_tac (inv_array 0 (c_f64 F) _ float_ok 3 closed_lexical float_ok_0 (inv_f64 F PC lexical)) loaded_Node.
  - finv_tac (inv_array 0 (c_f64 F) _ float_ok 3 closed_lexical float_ok_0 (inv_f64 F PC lexical)) loaded_Node.
  - finv_tac (inv_slice 0 (c_f64 F) _ float_ok closed_lexical float_ok_0 (inv_f64 F PC lexical)) loaded_Node.
Qed.

Lemma zero_loaded_Skin : loaded_Skin Q zero_Skin.
Proof. unfold loaded_Skin. split; [lzero_tac|]. split; [lzero_tac|]. split; [lzero_tac|]. split; [lzero_tac|]. split; [lzero_tac|]. lzero_tac. Qed.
Lemma il_Skin : inv (c_Skin F X) lexical (loaded_Skin Q).
Proof.
  intros old j y Ho Hj H. refine (inv_struct _ _ (fields_Skin F X) old j y closed_lexical _ Ho Hj H).
  repeat apply Forall_cons; [..|apply Forall_nil].
  - finv_tac (inv_loaded_ext X Q HQ) loaded_Skin.
  - finv_tac (inv_loaded_any F PC) loaded_Skin.
  - finv_tac (inv_str lexical) loaded_Skin.
  - finv_tac (inv_ptr 0 c_int _ in_i64 in_i64_0 (inv_int lexical)) loaded_Skin.
  - finv_tac (inv_ptr 0 c_int _ in_i64 in_i64_0 (inv_int lexical)) loaded_Skin.
  - finv_tac (inv_oslice 0 c_int _ in_i64 closed_lexical in_i64_0 (inv_int lexical)) loaded_Skin.
Qed.

Lemma zero_loaded_Orthographic : loaded_Orthographic Q zero_Orthographic.
Proof. unfold loaded_Orthographic. split; [lzero_tac|]. split; [lzero_tac|]. split; [lzero_tac|]. split; [lzero_tac|]. split; [lzero_tac|]. lzero_tac. Qed.
Lemma il_Orthographic : inv (c_Orthographic F X) lexical (loaded_Orthographic Q).
Proof.
  intros old j y Ho Hj H. refine (inv_struct _ _ (fields_Orthographic F X) old j y closed_lexical _ Ho Hj H).
  repeat apply Forall_cons; [..|apply Forall_nil].
  - finv_tac (inv_loaded_ext X Q HQ) loaded_Orthographic.
  - finv_tac (inv_loaded_any F PC) loaded_Orthographic.
  - finv_tac (inv_f64 F PC lexical) loaded_Orthographic.
  - finv_tac (inv_f64 F PC lexical) loaded_Orthographic.
  - finv_tac (inv_f64 F PC lexical) loaded_Orthographic.
  - finv_tac (inv_f64 F PC lexical) loaded_Orthographic.
Qed.

Lemma zero_loaded_Perspective : loaded_Perspective Q zero_Perspective.
Proof. unfold loaded_Perspective. split; [lzero_tac|]. split; [lzero_tac|]. split; [lzero_tac|]. split; [lzero_tac|]. split; [lzero_tac|]. lzero_tac. Qed.
Lemma il_Perspective : inv (c_Perspective F X) lexical (loaded_Perspective Q).
Proof.
  intros old j y Ho Hj H. refine (inv_struct _ _ (fields_Perspective F X) old j y closed_lexical _ Ho Hj H).
  repeat apply Forall_cons; [..|apply Forall_nil].
  - finv_tac (inv_loaded_ext X Q HQ) loaded_Perspective.
  - finv_tac (inv_loaded_any F PC) loaded_Perspective.
  - finv_tac (inv_ptr 0 (c_f64 F) _ float_ok float_ok_0 (inv_f64 F PC lexical)) loaded_Perspective.
  - finv_tac (inv_f64 F PC lexical) loaded_Perspective.
  - finv_tac (inv_ptr 0 (c_f64 F) _ float_ok float_ok_0 (inv_f64 F PC lexical)) loaded_Perspective.
  - finv_tac (inv_f64 F PC lexical) loaded_Perspective.
Qed.

Lemma zero_loaded_Camera : loaded_Camera Q zero_Camera.
Proof. unfold loaded_Camera. split; [lzero_tac|]. split; [lzero_tac|]. split; [lzero_tac|]. split; [lzero_tac|]. lzero_tac. Qed.
Lemma il_Camera : inv (c_Camera F X) lexical (loaded_Camera Q).
Proof.
  intros old j y Ho Hj H. refine (inv_struct _ _ (fields_Camera F X) old j y closed_lexical _ Ho Hj H).
  repeat apply Forall_cons; [..|apply Forall_nil].
  - finv_tac (inv_loaded_ext X Q HQ) loaded_Camera.
  - finv_tac (inv_loaded_any F PC) loaded_Camera.
  - finv_tac (inv_str lexical) loaded_Camera.
  - finv_tac (inv_ptr zero_Orthographic _ _ (loaded_Orthographic Q) zero_loaded_Orthographic il_Orthographic) loaded_Camera.
  - finv_tac (inv_ptr zero_Perspective _ _ (loaded_Perspective Q) zero_loaded_Perspective il_Perspective) loaded_Camera.
Qed.

Lemma zero_loaded_Primitive : loaded_Primitive Q zero_Primitive.
Proof. unfold loaded_Primitive. split; [lzero_tac|]. split; [lzero_tac|]. split; [lzero_tac|]. split; [lzero_tac|]. split; [lzero_tac|]. split; [lzero_tac|]. lzero_tac. Qed.
Lemma il_Primitive : inv (c_Primitive F X) lexical (loaded_Primitive Q).
Proof.
  intros old j y Ho Hj H. refine (inv_struct _ _ (fields_Primitive F X) old j y closed_lexical _ Ho Hj H).
  repeat apply Forall_cons; [..|apply Forall_nil].
  - finv_tac (inv_loaded_ext X Q HQ) loaded_Primitive.
  - finv_tac (inv_loaded_any F PC) loaded_Primitive.
  - finv_tac (inv_attrs lexical) loaded_Primitive.
  - finv_tac (inv_ptr 0 c_int _ in_i64 in_i64_0 (inv_int lexical)) loaded_Primitive.
  - finv_tac (inv_ptr 0 c_int _ in_i64 in_i64_0 (inv_int lexical)) loaded_Primitive.
  - finv_tac (inv_mode lexical) loaded_Primitive.
  - finv_tac (inv_slice None c_attrs _ (opt wf_attrs) closed_lexical I (inv_attrs lexical)) loaded_Primitive.
Qed.

Lemma zero_loaded_Mesh : loaded_Mesh Q zero_Mesh.
Proof. unfold loaded_Mesh. split; [lzero_tac|]. split; [lzero_tac|]. split; [lzero_tac|]. split; [lzero_tac|]. lzero_tac. Qed.
Lemma il_Mesh : inv (c_Mesh F X) lexical (loaded_Mesh Q).
Proof.
  intros old j y Ho Hj H. refine (inv_struct _ _ (fields_Mesh F X) old j y closed_lexical _ Ho Hj H).
  repeat apply Forall_cons; [..|apply Forall_nil].
  - finv_tac (inv_loaded_ext X Q HQ) loaded_Mesh.
  - finv_tac (inv_loaded_any F PC) loaded_Mesh.
  - finv_tac (inv_str lexical) loaded_Mesh.
  - finv_tac (inv_oslice None _ _ (opt (loaded_Primitive Q)) closed_lexical I (inv_ptr zero_Primitive _ _ (loaded_Primitive Q) zero_loaded_Primitive il_Primitive)) loaded_Mesh.
  - finv_tac (inv_slice 0 (c_f64 F) _ float_ok closed_lexical float_ok_0 (inv_f64 F PC lexical)) loaded_Mesh.
Qed.

Lemma zero_loaded_TextureInfo : loaded_TextureInfo Q zero_TextureInfo.
Proof. unfold loaded_TextureInfo. split; [lzero_tac|]. split; [lzero_tac|]. split; [lzero_tac|]. lzero_tac. Qed.
Lemma il_TextureInfo : inv (c_TextureInfo F X) lexical (loaded_TextureInfo Q).
Proof.
  intros old j y Ho Hj H. refine (inv_struct _ _ (fields_TextureInfo F X) old j y closed_lexical _ Ho Hj H).
  repeat apply Forall_cons; [..|apply Forall_nil].
  - finv_tac (inv_loaded_ext X Q HQ) loaded_TextureInfo.
  - finv_tac (inv_loaded_any F PC) loaded_TextureInfo.
  - finv_tac (inv_int lexical) loaded_TextureInfo.
  - finv_tac (inv_int lexical) loaded_TextureInfo.
Qed.

Lemma zero_loaded_NormalTexture : loaded_NormalTexture Q zero_NormalTexture.
Proof. unfold loaded_NormalTexture. split; [lzero_tac|]. split; [lzero_tac|]. split; [lzero_tac|]. split; [lzero_tac|]. lzero_tac. Qed.
Lemma default_loaded_NormalTexture : loaded_NormalTexture Q default_NormalTexture.
Proof. unfold loaded_NormalTexture. split; [lzero_tac|]. split; [lzero_tac|]. split; [lzero_tac|]. split; [lzero_tac|]. lzero_tac. Qed.
Lemma il_NormalTexture : inv (c_NormalTexture F X) lexical (loaded_NormalTexture Q).
Proof.
  intros old j y Ho Hj H. refine (inv_struct _ _ (fields_NormalTexture F X) default_NormalTexture j y closed_lexical _ default_loaded_NormalTexture Hj H).
  repeat apply Forall_cons; [..|apply Forall_nil].
  - finv_tac (inv_loaded_ext X Q HQ) loaded_NormalTexture.
  - finv_tac (inv_loaded_any F PC) loaded_NormalTexture.
  - finv_tac (inv_ptr 0 c_int _ in_i64 in_i64_0 (inv_int lexical)) loaded_NormalTexture.
  - finv_tac (inv_int lexical) loaded_NormalTexture.
  - finv_tac (inv_ptr 0 (c_f64 F) _ float_ok float_ok_0 (inv_f64 F PC lexical)) loaded_NormalTexture.
Qed.

Lemma zero_loaded_OcclusionTexture : loaded_OcclusionTexture Q zero_OcclusionTexture.
Proof. unfold loaded_OcclusionTexture. split; [lzero_tac|]. split; [lzero_tac|]. split; [lzero_tac|]. split; [lzero_tac|]. lzero_tac. Qed.
Lemma default_loaded_OcclusionTexture : loaded_OcclusionTexture Q default_OcclusionTexture.
Proof. unfold loaded_OcclusionTexture. split; [lzero_tac|]. split; [lzero_tac|]. split; [lzero_tac|]. split; [lzero_tac|]. lzero_tac. Qed.
Lemma il_OcclusionTexture : inv (c_OcclusionTexture F X) lexical (loaded_OcclusionTexture Q).
Proof.
  intros old j y Ho Hj H. refine (inv_struct _ _ (fields_OcclusionTexture F X) default_OcclusionTexture j y closed_lexical _ default_loaded_OcclusionTexture Hj H).
  repeat apply Forall_cons; [..|apply Forall_nil].
  - finv_tac (inv_loaded_ext X Q HQ) loaded_OcclusionTexture.
  - finv_tac (inv_loaded_any F PC) loaded_OcclusionTexture.
  - finv_tac (inv_ptr 0 c_int _ in_i64 in_i64_0 (inv_int lexical)) loaded_OcclusionTexture.
  - finv_tac (inv_int lexical) loaded_OcclusionTexture.
  - finv_tac (inv_ptr 0 (c_f64 F) _ float_ok float_ok_0 (inv_f64 F PC lexical)) loaded_OcclusionTexture.
Qed.

Lemma zero_loaded_PBRMetallicRoughness : loaded_PBRMetallicRoughness Q zero_PBRMetallicRoughness.
Proof. unfold loaded_PBRMetallicRoughness. split; [lzero_tac|]. split; [lzero_tac|]. split; [lzero_tac|]. split; [lzero_tac|]. split; [lzero_tac|]. split; [lzero_tac|]. lzero_tac. Qed.
Lemma default_loaded_PBRMetallicRoughness : loaded_PBRMetallicRoughness Q default_PBRMetallicRoughness.
Proof. unfold loaded_PBRMetallicRoughness. split; [lzero_tac|]. split; [lzero_tac|]. split; [lzero_tac|]. split; [lzero_tac|]. split; [lzero_tac|]. split; [lzero_tac|]. lzero_tac. Qed.
Lemma il_PBRMetallicRoughness : inv (c_PBRMetallicRoughness F X) lexical (loaded_PBRMetallicRoughness Q).
Proof.
  intros old j y Ho Hj H. refine (inv_struct _ _ (fields_PBRMetallicRoughness F X) default_PBRMetallicRoughness j y closed_lexical _ default_loaded_PBRMetallicRoughness Hj H).
  repeat apply Forall_cons; [..|apply Forall_nil].
  - finv_tac (inv_loaded_ext X Q HQ) loaded_PBRMetallicRoughness.
  - finv_tac (inv_loaded_any F PC) loaded_PBRMetallicRoughness.
  - finv_tac (inv_ptr (repeat 0 4) _ _ (farray 4) (farray_0 4) (inv_array 0 (c_f64 F) _ float_ok 4 closed_lexical float_ok_0 (inv_f64 F PC lexical))) loaded_PBRMetallicRoughness.
  - finv_tac (inv_ptr zero_TextureInfo _ _ (loaded_TextureInfo Q) zero_loaded_TextureInfo il_TextureInfo) loaded_PBRMetallicRoughness.
  - finv_tac (inv_ptr 0 (c_f64 F) _ float_ok float_ok_0 (inv_f64 F PC lexical)) loaded_PBRMetallicRoughness.
  - finv_tac (inv_ptr 0 (c_f64 F) _ float_ok float_ok_0 (inv_f64 F PC lexical)) loaded_PBRMetallicRoughness.
  - finv_tac (inv_ptr zero_TextureInfo _ _ (loaded_TextureInfo Q) zero_loaded_TextureInfo il_TextureInfo) loaded_PBRMetallicRoughness.
Qed.

Lemma zero_loaded_Material : loaded_Material Q zero_Material.
Proof. unfold loaded_Material. split; [lzero_tac|]. split; [lzero_tac|]. split; [lzero_tac|]. split; [lzero_tac|]. split; [lzero_tac|]. split; [lzero_tac|]. split; [lzero_tac|]. split; [lzero_tac|]. split; [lzero_tac|]. lzero_tac. Qed.
Lemma default_loaded_Material : loaded_Material Q default_Material.
Proof. unfold loaded_Material. split; [lzero_tac|]. split; [lzero_tac|]. split; [lzero_tac|]. split; [lzero_tac|]. split; [lzero_tac|]. split; [lzero_tac|]. split; [lzero_tac|]. split; [lzero_tac|]. split; [lzero_tac|]. lzero_tac. Qed.
Lemma il_Material : inv (c_Material F X) lexical (loaded_Material Q).
Proof.
  intros old j y Ho Hj H. refine (inv_struct _ _ (fields_Material F X) default_Material j y closed_lexical _ default_loaded_Material Hj H).
  repeat apply Forall_cons; [..|apply Forall_nil].
  - finv_tac (inv_loaded_ext X Q HQ) loaded_Material.
  - finv_tac (inv_loaded_any F PC) loaded_Material.
  - finv_tac (inv_str lexical) loaded_Material.
  - finv_tac (inv_ptr zero_PBRMetallicRoughness _ _ (loaded_PBRMetallicRoughness Q) zero_loaded_PBRMetallicRoughness il_PBRMetallicRoughness) loaded_Material.
  - finv_tac (inv_ptr zero_NormalTexture _ _ (loaded_NormalTexture Q) zero_loaded_NormalTexture il_NormalTexture) loaded_Material.
  - finv_tac (inv_ptr zero_OcclusionTexture _ _ (loaded_OcclusionTexture Q) zero_loaded_OcclusionTexture il_OcclusionTexture) loaded_Material.
  - finv_tac (inv_ptr zero_TextureInfo _ _ (loaded_TextureInfo Q) zero_loaded_TextureInfo il_TextureInfo) loaded_Material.
  - finv_tac (inv_array 0 (c_f64 F) _ float_ok 3 closed_lexical float_ok_0 (inv_f64 F PC lexical)) loaded_Material.
  - finv_tac (inv_alpha lexical) loaded_Material.
  - finv_tac (inv_ptr 0 (c_f64 F) _ float_ok float_ok_0 (inv_f64 F PC lexical)) loaded_Material.
  - finv_tac (inv_true c_bool lexical) loaded_Material.
Qed.

Lemma zero_loaded_Texture : loaded_Texture Q zero_Texture.
Proof. unfold loaded_Texture. split; [lzero_tac|]. split; [lzero_tac|]. split; [lzero_tac|]. split; [lzero_tac|]. lzero_tac. Qed.
Lemma il_Texture : inv (c_Texture F X) lexical (loaded_Texture Q).
Proof.
  intros old j y Ho Hj H. refine (inv_struct _ _ (fields_Texture F X) old j y closed_lexical _ Ho Hj H).
  repeat apply Forall_cons; [..|apply Forall_nil].
  - finv_tac (inv_loaded_ext X Q HQ) loaded_Texture.
  - finv_tac (inv_loaded_any F PC) loaded_Texture.
  - finv_tac (inv_str lexical) loaded_Texture.
  - finv_tac (inv_ptr 0 c_int _ in_i64 in_i64_0 (inv_int lexical)) loaded_Texture.
  - finv_tac (inv_ptr 0 c_int _ in_i64 in_i64_0 (inv_int lexical)) loaded_Texture.
Qed.

Lemma zero_loaded_Sampler : loaded_Sampler Q zero_Sampler.
Proof. unfold loaded_Sampler. split; [lzero_tac|]. split; [lzero_tac|]. split; [lzero_tac|]. split; [lzero_tac|]. split; [lzero_tac|]. split; [lzero_tac|]. lzero_tac. Qed.
Lemma il_Sampler : inv (c_Sampler F X) lexical (loaded_Sampler Q).
Proof.
  intros old j y Ho Hj H. refine (inv_struct _ _ (fields_Sampler F X) old j y closed_lexical _ Ho Hj H).
  repeat apply Forall_cons; [..|apply Forall_nil].
  - finv_tac (inv_loaded_ext X Q HQ) loaded_Sampler.
  - finv_tac (inv_loaded_any F PC) loaded_Sampler.
  - finv_tac (inv_str lexical) loaded_Sampler.
  - finv_tac (inv_mag lexical) loaded_Sampler.
  - finv_tac (inv_minf lexical) loaded_Sampler.
  - finv_tac (inv_wrap lexical) loaded_Sampler.
  - finv_tac (inv_wrap lexical) loaded_Sampler.
Qed.

Lemma zero_loaded_Image : loaded_Image Q zero_Image.
Proof. unfold loaded_Image. split; [lzero_tac|]. split; [lzero_tac|]. split; [lzero_tac|]. split; [lzero_tac|]. split; [lzero_tac|]. lzero_tac. Qed.
Lemma il_Image : inv (c_Image F X) lexical (loaded_Image Q).
Proof.
  intros old j y Ho Hj H. refine (inv_struct _ _ (fields_Image F X) old j y closed_lexical _ Ho Hj H).
  repeat apply Forall_cons; [..|apply Forall_nil].
  - finv_tac (inv_loaded_ext X Q HQ) loaded_Image.
  - finv_tac (inv_loaded_any F PC) loaded_Image.
  - finv_tac (inv_str lexical) loaded_Image.
  - finv_tac (inv_str lexical) loaded_Image.
  - finv_tac (inv_str lexical) loaded_Image.
  - finv_tac (inv_ptr 0 c_int _ in_i64 in_i64_0 (inv_int lexical)) loaded_Image.
Qed.

Lemma zero_loaded_AnimationSampler : loaded_AnimationSampler Q zero_AnimationSampler.
Proof. unfold loaded_AnimationSampler. split; [lzero_tac|]. split; [lzero_tac|]. split; [lzero_tac|]. split; [lzero_tac|]. lzero_tac. Qed.
Lemma il_AnimationSampler : inv (c_AnimationSampler F X) lexical (loaded_AnimationSampler Q).
Proof.
  intros old j y Ho Hj H. refine (inv_struct _ _ (fields_AnimationSampler F X) old j y closed_lexical _ Ho Hj H).
  repeat apply Forall_cons; [..|apply Forall_nil].
  - finv_tac (inv_loaded_ext X Q HQ) loaded_AnimationSampler.
  - finv_tac (inv_loaded_any F PC) loaded_AnimationSampler.
  - finv_tac (inv_int lexical) loaded_AnimationSampler.
  - finv_tac (inv_interp lexical) loaded_AnimationSampler.
  - finv_tac (inv_int lexical) loaded_AnimationSampler.
Qed.

Lemma zero_loaded_AnimationChannelTarget : loaded_AnimationChannelTarget Q zero_AnimationChannelTarget.
Proof. unfold loaded_AnimationChannelTarget. split; [lzero_tac|]. split; [lzero_tac|]. split; [lzero_tac|]. lzero_tac. Qed.
Lemma il_AnimationChannelTarget : inv (c_AnimationChannelTarget F X) lexical (loaded_AnimationChannelTarget Q).
Proof.
  intros old j y Ho Hj H. refine (inv_struct _ _ (fields_AnimationChannelTarget F X) old j y closed_lexical _ Ho Hj H).
  repeat apply Forall_cons; [..|apply Forall_nil].
  - finv_tac (inv_loaded_ext X Q HQ) loaded_AnimationChannelTarget.
  - finv_tac (inv_loaded_any F PC) loaded_AnimationChannelTarget.
  - finv_tac (inv_ptr 0 c_int _ in_i64 in_i64_0 (inv_int lexical)) loaded_AnimationChannelTarget.
  - finv_tac (inv_trs lexical) loaded_AnimationChannelTarget.
Qed.

Lemma zero_loaded_AnimationChannel : loaded_AnimationChannel Q zero_AnimationChannel.
Proof. unfold loaded_AnimationChannel. split; [lzero_tac|]. split; [lzero_tac|]. split; [lzero_tac|]. exact zero_loaded_AnimationChannelTarget. Qed.
Lemma il_AnimationChannel : inv (c_AnimationChannel F X) lexical (loaded_AnimationChannel Q).
Proof.
  intros old j y Ho Hj H. refine (inv_struct _ _ (fields_AnimationChannel F X) old j y closed_lexical _ Ho Hj H).
  repeat apply Forall_cons; [..|apply Forall_nil].
  - finv_tac (inv_loaded_ext X Q HQ) loaded_AnimationChannel.
  - finv_tac (inv_loaded_any F PC) loaded_AnimationChannel.
  - finv_tac (inv_int lexical) loaded_AnimationChannel.
  - finv_tac il_AnimationChannelTarget loaded_AnimationChannel.
Qed.

Lemma zero_loaded_Animation : loaded_Animation Q zero_Animation.
Proof. unfold loaded_Animation. split; [lzero_tac|]. split; [lzero_tac|]. split; [lzero_tac|]. split; [lzero_tac|]. lzero_tac. Qed.
Lemma il_Animation : inv (c_Animation F X) lexical (loaded_Animation Q).
Proof.
  intros old j y Ho Hj H. refine (inv_struct _ _ (fields_Animation F X) old j y closed_lexical _ Ho Hj H).
  repeat apply Forall_cons; [..|apply Forall_nil].
  - finv_tac (inv_loaded_ext X Q HQ) loaded_Animation.
  - finv_tac (inv_loaded_any F PC) loaded_Animation.
  - finv_tac (inv_str lexical) loaded_Animation.
  - finv_tac (inv_oslice None _ _ (opt (loaded_AnimationChannel Q)) closed_lexical I (inv_ptr zero_AnimationChannel _ _ (loaded_AnimationChannel Q) zero_loaded_AnimationChannel il_AnimationChannel)) loaded_Animation.
  - finv_tac (inv_oslice None _ _ (opt (loaded_AnimationSampler Q)) closed_lexical I (inv_ptr zero_AnimationSampler _ _ (loaded_AnimationSampler Q) zero_loaded_AnimationSampler il_AnimationSampler)) loaded_Animation.
Qed.

Lemma zero_loaded_Document : loaded_Document Q zero_Document.
Proof. unfold loaded_Document. split; [lzero_tac|]. split; [lzero_tac|]. split; [lzero_tac|]. split; [lzero_tac|]. split; [lzero_tac|]. split; [lzero_tac|]. split; [exact zero_loaded_Asset|]. split; [lzero_tac|]. split; [lzero_tac|]. split; [lzero_tac|]. split; [lzero_tac|]. split; [lzero_tac|]. split; [lzero_tac|]. split; [lzero_tac|]. split; [lzero_tac|]. split; [lzero_tac|]. split; [lzero_tac|]. split; [lzero_tac|]. lzero_tac. Qed.
Lemma il_Document : inv (c_Document F X) lexical (loaded_Document Q).
Proof.
  intros old j y Ho Hj H. refine (inv_struct _ _ (fields_Document F X) old j y closed_lexical _ Ho Hj H).
  repeat apply Forall_cons; [..|apply Forall_nil].
  - finv_tac (inv_loaded_ext X Q HQ) loaded_Document.
  - finv_tac (inv_loaded_any F PC) loaded_Document.
  - finv_tac (inv_slice _ c_str _ utf8_str closed_lexical utf8_nil (inv_str lexical)) loaded_Document.
  - finv_tac (inv_slice _ c_str _ utf8_str closed_lexical utf8_nil (inv_str lexical)) loaded_Document.
  - finv_tac (inv_slice None _ _ (opt (loaded_Accessor Q)) closed_lexical I (inv_ptr zero_Accessor _ _ (loaded_Accessor Q) zero_loaded_Accessor il_Accessor)) loaded_Document.
  - finv_tac (inv_slice None _ _ (opt (loaded_Animation Q)) closed_lexical I (inv_ptr zero_Animation _ _ (loaded_Animation Q) zero_loaded_Animation il_Animation)) loaded_Document.
  - finv_tac il_Asset loaded_Document.
  - finv_tac (inv_slice None _ _ (opt (loaded_Buffer Q)) closed_lexical I (inv_ptr zero_Buffer _ _ (loaded_Buffer Q) zero_loaded_Buffer il_Buffer)) loaded_Document.
  - finv_tac (inv_slice None _ _ (opt (loaded_BufferView Q)) closed_lexical I (inv_ptr zero_BufferView _ _ (loaded_BufferView Q) zero_loaded_BufferView il_BufferView)) loaded_Document.
  - finv_tac (inv_slice None _ _ (opt (loaded_Camera Q)) closed_lexical I (inv_ptr zero_Camera _ _ (loaded_Camera Q) zero_loaded_Camera il_Camera)) loaded_Document.
  - finv_tac (inv_slice None _ _ (opt (loaded_Image Q)) closed_lexical I (inv_ptr zero_Image _ _ (loaded_Image Q) zero_loaded_Image il_Image)) loaded_Document.
  - finv_tac (inv_slice None _ _ (opt (loaded_Material Q)) closed_lexical I (inv_ptr zero_Material _ _ (loaded_Material Q) zero_loaded_Material il_Material)) loaded_Document.
  - finv_tac (inv_slice None _ _ (opt (loaded_Mesh Q)) closed_lexical I (inv_ptr zero_Mesh _ _ (loaded_Mesh Q) zero_loaded_Mesh il_Mesh)) loaded_Document.
  - finv_tac (inv_slice None _ _ (opt (loaded_Node Q)) closed_lexical I (inv_ptr zero_Node _ _ (loaded_Node Q) zero_loaded_Node il_Node)) loaded_Document.
  - finv_tac (inv_slice None _ _ (opt (loaded_Sampler Q)) closed_lexical I (inv_ptr zero_Sampler _ _ (loaded_Sampler Q) zero_loaded_Sampler il_Sampler)) loaded_Document.
  - finv_tac (inv_ptr 0 c_int _ in_i64 in_i64_0 (inv_int lexical)) loaded_Document.
  - finv_tac (inv_slice None _ _ (opt (loaded_Scene Q)) closed_lexical I (inv_ptr zero_Scene _ _ (loaded_Scene Q) zero_loaded_Scene il_Scene)) loaded_Document.
  - finv_tac (inv_slice None _ _ (opt (loaded_Skin Q)) closed_lexical I (inv_ptr zero_Skin _ _ (loaded_Skin Q) zero_loaded_Skin il_Skin)) loaded_Document.
  - finv_tac (inv_slice None _ _ (opt (loaded_Texture Q)) closed_lexical I (inv_ptr zero_Texture _ _ (loaded_Texture Q) zero_loaded_Texture il_Texture)) loaded_Document.
Qed.
End Inv.

Section Go.
Context (X : ext_lib) (Q : string -> extv -> Prop) (HG : forall k e, Q k e -> go_extv X k e).
Lemma lgo_Asset x : loaded_Asset Q x -> go_Asset X x.
Proof.
  intros W. unfold loaded_Asset in W. decompose [and] W. clear W. unfold go_Asset.
  split; [apply (loaded_go_ext X Q _ HG); assumption|].
  apply loaded_go_any; assumption.
Qed.
Lemma lgo_SparseValues x : loaded_SparseValues Q x -> go_SparseValues X x.
Proof.
  intros W. unfold loaded_SparseValues in W. decompose [and] W. clear W. unfold go_SparseValues.
  split; [apply (loaded_go_ext X Q _ HG); assumption|].
  split; [apply loaded_go_any; assumption|].
  split; [assumption|].
  assumption.
Qed.
Lemma lgo_SparseIndices x : loaded_SparseIndices Q x -> go_SparseIndices X x.
Proof.
  intros W. unfold loaded_SparseIndices in W. decompose [and] W. clear W. unfold go_SparseIndices.
  split; [apply (loaded_go_ext X Q _ HG); assumption|].
  split; [apply loaded_go_any; assumption|].
  split; [assumption|].
  assumption.
Qed.
Lemma lgo_Sparse x : loaded_Sparse Q x -> go_Sparse X x.
Proof.
  intros W. unfold loaded_Sparse in W. decompose [and] W. clear W. unfold go_Sparse.
  split; [apply (loaded_go_ext X Q _ HG); assumption|].
  split; [apply loaded_go_any; assumption|].
  split; [assumption|].
  split; [apply lgo_SparseIndices; assumption|].
  apply lgo_SparseValues; assumption.
Qed.
Lemma lgo_Accessor x : loaded_Accessor Q x -> go_Accessor X x.
Proof.
  intros W. unfold loaded_Accessor in W. decompose [and] W. clear W. unfold go_Accessor.
  split; [apply (loaded_go_ext X Q _ HG); assumption|].
  split; [apply loaded_go_any; assumption|].
  split; [assumption|].
  split; [assumption|].
  split; [assumption|].
  split; [eapply impl_all; [exact float_go|assumption]|].
  split; [eapply impl_all; [exact float_go|assumption]|].
  eapply impl_opt; [exact lgo_Sparse|assumption].
Qed.
Lemma lgo_Buffer x : loaded_Buffer Q x -> go_Buffer X x.
Proof.
  intros W. unfold loaded_Buffer in W. decompose [and] W. clear W. unfold go_Buffer.
  split; [apply (loaded_go_ext X Q _ HG); assumption|].
  split; [apply loaded_go_any; assumption|].
  assumption.
Qed.
Lemma lgo_BufferView x : loaded_BufferView Q x -> go_BufferView X x.
Proof.
  intros W. unfold loaded_BufferView in W. decompose [and] W. clear W. unfold go_BufferView.
  split; [apply (loaded_go_ext X Q _ HG); assumption|].
  split; [apply loaded_go_any; assumption|].
  split; [assumption|].
  split; [assumption|].
  split; [assumption|].
  split; [assumption|].
  assumption.
Qed.
Lemma lgo_Scene x : loaded_Scene Q x -> go_Scene X x.
Proof.
  intros W. unfold loaded_Scene in W. decompose [and] W. clear W. unfold go_Scene.
  split; [apply (loaded_go_ext X Q _ HG); assumption|].
  split; [apply loaded_go_any; assumption|].
  assumption.
Qed.
Lemma lgo_Node x : loaded_Node Q x -> go_Node X x.
Proof.
  intros W. unfold loaded_Node in W. decompose [and] W. clear W. unfold go_Node.
  split; [apply (loaded_go_ext X Q _ HG); assumption|].
  split; [apply loaded_go_any; assumption|].
  split; [assumption|].
  split; [assumption|].
  split; [assumption|].
  split; [apply array_go; assumption|].
  split; [assumption|].
  split; [apply array_go; assumption|].
  split; [apply array_go; assumption|].
  split; [apply array_go; assumption|].
  eapply impl_all; [exact float_go|assumption].
Qed.
Lemma lgo_Skin x : loaded_Skin Q x -> go_Skin X x.
Proof.
  intros W. unfold loaded_Skin in W. decompose [and] W. clear W. unfold go_Skin.
  split; [apply (loaded_go_ext X Q _ HG); assumption|].
  split; [apply loaded_go_any; assumption|].
  split; [assumption|].
  split; [assumption|].
  assumption.
Qed.
Lemma lgo_Orthographic x : loaded_Orthographic Q x -> go_Orthographic X x.
Proof.
  intros W. unfold loaded_Orthographic in W. decompose [and] W. clear W. unfold go_Orthographic.
  split; [apply (loaded_go_ext X Q _ HG); assumption|].
  split; [apply loaded_go_any; assumption|].
  split; [apply float_go; assumption|].
  split; [apply float_go; assumption|].
  split; [apply float_go; assumption|].
  apply float_go; assumption.
Qed.
Lemma lgo_Perspective x : loaded_Perspective Q x -> go_Perspective X x.
Proof.
  intros W. unfold loaded_Perspective in W. decompose [and] W. clear W. unfold go_Perspective.
  split; [apply (loaded_go_ext X Q _ HG); assumption|].
  split; [apply loaded_go_any; assumption|].
  split; [eapply impl_opt; [exact float_go|assumption]|].
  split; [apply float_go; assumption|].
  split; [eapply impl_opt; [exact float_go|assumption]|].
  apply float_go; assumption.
Qed.
Lemma lgo_Camera x : loaded_Camera Q x -> go_Camera X x.
Proof.
  intros W. unfold loaded_Camera in W. decompose [and] W. clear W. unfold go_Camera.
  split; [apply (loaded_go_ext X Q _ HG); assumption|].
  split; [apply loaded_go_any; assumption|].
  split; [eapply impl_opt; [exact lgo_Orthographic|assumption]|].
  eapply impl_opt; [exact lgo_Perspective|assumption].
Qed.
Lemma lgo_Primitive x : loaded_Primitive Q x -> go_Primitive X x.
Proof.
  intros W. unfold loaded_Primitive in W. decompose [and] W. clear W. unfold go_Primitive.
  split; [apply (loaded_go_ext X Q _ HG); assumption|].
  split; [apply loaded_go_any; assumption|].
  split; [eapply impl_opt; [exact within_attrs|assumption]|].
  split; [assumption|].
  split; [assumption|].
  eapply impl_all; [exact (fun o => impl_opt _ _ o within_attrs)|assumption].
Qed.
Lemma lgo_Mesh x : loaded_Mesh Q x -> go_Mesh X x.
Proof.
  intros W. unfold loaded_Mesh in W. decompose [and] W. clear W. unfold go_Mesh.
  split; [apply (loaded_go_ext X Q _ HG); assumption|].
  split; [apply loaded_go_any; assumption|].
  split; [eapply impl_opt; [exact (fun l => impl_all _ _ l (fun o => impl_opt _ _ o lgo_Primitive))|assumption]|].
  eapply impl_all; [exact float_go|assumption].
Qed.
Lemma lgo_TextureInfo x : loaded_TextureInfo Q x -> go_TextureInfo X x.
Proof.
  intros W. unfold loaded_TextureInfo in W. decompose [and] W. clear W. unfold go_TextureInfo.
  split; [apply (loaded_go_ext X Q _ HG); assumption|].
  split; [apply loaded_go_any; assumption|].
  split; [assumption|].
  assumption.
Qed.
Lemma lgo_NormalTexture x : loaded_NormalTexture Q x -> go_NormalTexture X x.
Proof.
  intros W. unfold loaded_NormalTexture in W. decompose [and] W. clear W. unfold go_NormalTexture.
  split; [apply (loaded_go_ext X Q _ HG); assumption|].
  split; [apply loaded_go_any; assumption|].
  split; [assumption|].
  split; [assumption|].
  eapply impl_opt; [exact float_go|assumption].
Qed.
Lemma lgo_OcclusionTexture x : loaded_OcclusionTexture Q x -> go_OcclusionTexture X x.
Proof.
  intros W. unfold loaded_OcclusionTexture in W. decompose [and] W. clear W. unfold go_OcclusionTexture.
  split; [apply (loaded_go_ext X Q _ HG); assumption|].
  split; [apply loaded_go_any; assumption|].
  split; [assumption|].
  split; [assumption|].
  eapply impl_opt; [exact float_go|assumption].
Qed.
Lemma lgo_PBRMetallicRoughness x : loaded_PBRMetallicRoughness Q x -> go_PBRMetallicRoughness X x.
Proof.
  intros W. unfold loaded_PBRMetallicRoughness in W. decompose [and] W. clear W. unfold go_PBRMetallicRoughness.
  split; [apply (loaded_go_ext X Q _ HG); assumption|].
  split; [apply loaded_go_any; assumption|].
  split; [eapply impl_opt; [exact (array_go 4)|assumption]|].
  split; [eapply impl_opt; [exact lgo_TextureInfo|assumption]|].
  split; [eapply impl_opt; [exact float_go|assumption]|].
  split; [eapply impl_opt; [exact float_go|assumption]|].
  eapply impl_opt; [exact lgo_TextureInfo|assumption].
Qed.
Lemma lgo_Material x : loaded_Material Q x -> go_Material X x.
Proof.
  intros W. unfold loaded_Material in W. decompose [and] W. clear W. unfold go_Material.
  split; [apply (loaded_go_ext X Q _ HG); assumption|].
  split; [apply loaded_go_any; assumption|].
  split; [eapply impl_opt; [exact lgo_PBRMetallicRoughness|assumption]|].
  split; [eapply impl_opt; [exact lgo_NormalTexture|assumption]|].
  split; [eapply impl_opt; [exact lgo_OcclusionTexture|assumption]|].
  split; [eapply impl_opt; [exact lgo_TextureInfo|assumption]|].
  split; [apply array_go; assumption|].
  eapply impl_opt; [exact float_go|assumption].
Qed.
Lemma lgo_Texture x : loaded_Texture Q x -> go_Texture X x.
Proof.
  intros W. unfold loaded_Texture in W. decompose [and] W. clear W. unfold go_Texture.
  split; [apply (loaded_go_ext X Q _ HG); assumption|].
  split; [apply loaded_go_any; assumption|].
  split; [assumption|].
  assumption.
Qed.
Lemma lgo_Sampler x : loaded_Sampler Q x -> go_Sampler X x.
Proof.
  intros W. unfold loaded_Sampler in W. decompose [and] W. clear W. unfold go_Sampler.
  split; [apply (loaded_go_ext X Q _ HG); assumption|].
  apply loaded_go_any; assumption.
Qed.
Lemma lgo_Image x : loaded_Image Q x -> go_Image X x.
Proof.
  intros W. unfold loaded_Image in W. decompose [and] W. clear W. unfold go_Image.
  split; [apply (loaded_go_ext X Q _ HG); assumption|].
  split; [apply loaded_go_any; assumption|].
  assumption.
Qed.
Lemma lgo_AnimationSampler x : loaded_AnimationSampler Q x -> go_AnimationSampler X x.
Proof.
  intros W. unfold loaded_AnimationSampler in W. decompose [and] W. clear W. unfold go_AnimationSampler.
  split; [apply (loaded_go_ext X Q _ HG); assumption|].
  split; [apply loaded_go_any; assumption|].
  split; [assumption|].
  assumption.
Qed.
Lemma lgo_AnimationChannelTarget x : loaded_AnimationChannelTarget Q x -> go_AnimationChannelTarget X x.
Proof.
  intros W. unfold loaded_AnimationChannelTarget in W. decompose [and] W. clear W. unfold go_AnimationChannelTarget.
  split; [apply (loaded_go_ext X Q _ HG); assumption|].
  split; [apply loaded_go_any; assumption|].
  assumption.
Qed.
Lemma lgo_AnimationChannel x : loaded_AnimationChannel Q x -> go_AnimationChannel X x.
Proof.
  intros W. unfold loaded_AnimationChannel in W. decompose [and] W. clear W. unfold go_AnimationChannel.
  split; [apply (loaded_go_ext X Q _ HG); assumption|].
  split; [apply loaded_go_any; assumption|].
  split; [assumption|].
  apply lgo_AnimationChannelTarget; assumption.
Qed.
Lemma lgo_Animation x : loaded_Animation Q x -> go_Animation X x.
Proof.
  intros W. unfold loaded_Animation in W. decompose [and] W. clear W. unfold go_Animation.
  split; [apply (loaded_go_ext X Q _ HG); assumption|].
  split; [apply loaded_go_any; assumption|].
  split; [eapply impl_opt; [exact (fun l => impl_all _ _ l (fun o => impl_opt _ _ o lgo_AnimationChannel))|assumption]|].
  eapply impl_opt; [exact (fun l => impl_all _ _ l (fun o => impl_opt _ _ o lgo_AnimationSampler))|assumption].
Qed.
Lemma lgo_Document x : loaded_Document Q x -> go_Document X x.
Proof.
  intros W. unfold loaded_Document in W. decompose [and] W. clear W. unfold go_Document.
  split; [apply (loaded_go_ext X Q _ HG); assumption|].
  split; [apply loaded_go_any; assumption|].
  split; [eapply impl_all; [exact (fun o => impl_opt _ _ o lgo_Accessor)|assumption]|].
  split; [eapply impl_all; [exact (fun o => impl_opt _ _ o lgo_Animation)|assumption]|].
  split; [apply lgo_Asset; assumption|].
  split; [eapply impl_all; [exact (fun o => impl_opt _ _ o lgo_Buffer)|assumption]|].
  split; [eapply impl_all; [exact (fun o => impl_opt _ _ o lgo_BufferView)|assumption]|].
  split; [eapply impl_all; [exact (fun o => impl_opt _ _ o lgo_Camera)|assumption]|].
  split; [eapply impl_all; [exact (fun o => impl_opt _ _ o lgo_Image)|assumption]|].
  split; [eapply impl_all; [exact (fun o => impl_opt _ _ o lgo_Material)|assumption]|].
  split; [eapply impl_all; [exact (fun o => impl_opt _ _ o lgo_Mesh)|assumption]|].
  split; [eapply impl_all; [exact (fun o => impl_opt _ _ o lgo_Node)|assumption]|].
  split; [eapply impl_all; [exact (fun o => impl_opt _ _ o lgo_Sampler)|assumption]|].
  split; [assumption|].
  split; [eapply impl_all; [exact (fun o => impl_opt _ _ o lgo_Scene)|assumption]|].
  split; [eapply impl_all; [exact (fun o => impl_opt _ _ o lgo_Skin)|assumption]|].
  eapply impl_all; [exact (fun o => impl_opt _ _ o lgo_Texture)|assumption].
Qed.
End Go.

Section Sav.
Context (X : ext_lib) (Q : string -> extv -> Prop) (HS : forall k e, Q k e -> savable_extv X k e).
Lemma sav_Asset x : loaded_Asset Q x -> savable_Asset X x.
Proof.
  intros W. unfold loaded_Asset in W. decompose [and] W. clear W. unfold savable_Asset.
  split; [apply (loaded_sav_ext X Q _ HS); assumption|].
  apply loaded_sav_any; assumption.
Qed.
Lemma sav_SparseValues x : loaded_SparseValues Q x -> savable_SparseValues X x.
Proof.
  intros W. unfold loaded_SparseValues in W. decompose [and] W. clear W. unfold savable_SparseValues.
  split; [apply (loaded_sav_ext X Q _ HS); assumption|].
  apply loaded_sav_any; assumption.
Qed.
Lemma sav_SparseIndices x : loaded_SparseIndices Q x -> savable_SparseIndices X x.
Proof.
  intros W. unfold loaded_SparseIndices in W. decompose [and] W. clear W. unfold savable_SparseIndices.
  split; [apply (loaded_sav_ext X Q _ HS); assumption|].
  apply loaded_sav_any; assumption.
Qed.
Lemma sav_Sparse x : loaded_Sparse Q x -> savable_Sparse X x.
Proof.
  intros W. unfold loaded_Sparse in W. decompose [and] W. clear W. unfold savable_Sparse.
  split; [apply (loaded_sav_ext X Q _ HS); assumption|].
  split; [apply loaded_sav_any; assumption|].
  split; [apply sav_SparseIndices; assumption|].
  apply sav_SparseValues; assumption.
Qed.
Lemma sav_Accessor x : loaded_Accessor Q x -> savable_Accessor X x.
Proof.
  intros W. unfold loaded_Accessor in W. decompose [and] W. clear W. unfold savable_Accessor.
  split; [apply (loaded_sav_ext X Q _ HS); assumption|].
  split; [apply loaded_sav_any; assumption|].
  split; [eapply impl_all; [exact float_fin|assumption]|].
  split; [eapply impl_all; [exact float_fin|assumption]|].
  eapply impl_opt; [exact sav_Sparse|assumption].
Qed.
Lemma sav_Buffer x : loaded_Buffer Q x -> savable_Buffer X x.
Proof.
  intros W. unfold loaded_Buffer in W. decompose [and] W. clear W. unfold savable_Buffer.
  split; [apply (loaded_sav_ext X Q _ HS); assumption|].
  apply loaded_sav_any; assumption.
Qed.
Lemma sav_BufferView x : loaded_BufferView Q x -> savable_BufferView X x.
Proof.
  intros W. unfold loaded_BufferView in W. decompose [and] W. clear W. unfold savable_BufferView.
  split; [apply (loaded_sav_ext X Q _ HS); assumption|].
  apply loaded_sav_any; assumption.
Qed.
Lemma sav_Scene x : loaded_Scene Q x -> savable_Scene X x.
Proof.
  intros W. unfold loaded_Scene in W. decompose [and] W. clear W. unfold savable_Scene.
  split; [apply (loaded_sav_ext X Q _ HS); assumption|].
  apply loaded_sav_any; assumption.
Qed.
Lemma sav_Node x : loaded_Node Q x -> savable_Node X x.
Proof.
  intros W. unfold loaded_Node in W. decompose [and] W. clear W. unfold savable_Node.
  split; [apply (loaded_sav_ext X Q _ HS); assumption|].
  split; [apply loaded_sav_any; assumption|].
  split; [apply (array_fin 16); assumption|].
  split; [apply (array_fin 4); assumption|].
  split; [apply (array_fin 3); assumption|].
  split; [apply (array_fin 3); assumption|].
  eapply impl_all; [exact float_fin|assumption].
Qed.
Lemma sav_Skin x : loaded_Skin Q x -> savable_Skin X x.
Proof.
  intros W. unfold loaded_Skin in W. decompose [and] W. clear W. unfold savable_Skin.
  split; [apply (loaded_sav_ext X Q _ HS); assumption|].
  apply loaded_sav_any; assumption.
Qed.
Lemma sav_Orthographic x : loaded_Orthographic Q x -> savable_Orthographic X x.
Proof.
  intros W. unfold loaded_Orthographic in W. decompose [and] W. clear W. unfold savable_Orthographic.
  split; [apply (loaded_sav_ext X Q _ HS); assumption|].
  split; [apply loaded_sav_any; assumption|].
  split; [apply float_fin; assumption|].
  split; [apply float_fin; assumption|].
  split; [apply float_fin; assumption|].
  apply float_fin; assumption.
Qed.
Lemma sav_Perspective x : loaded_Perspective Q x -> savable_Perspective X x.
Proof.
  intros W. unfold loaded_Perspective in W. decompose [and] W. clear W. unfold savable_Perspective.
  split; [apply (loaded_sav_ext X Q _ HS); assumption|].
  split; [apply loaded_sav_any; assumption|].
  split; [eapply impl_opt; [exact float_fin|assumption]|].
  split; [apply float_fin; assumption|].
  split; [eapply impl_opt; [exact float_fin|assumption]|].
  apply float_fin; assumption.
Qed.
Lemma sav_Camera x : loaded_Camera Q x -> has_projection x -> savable_Camera X x.
Proof.
  intros W C. unfold loaded_Camera in W. decompose [and] W. clear W. unfold savable_Camera.
  split; [apply (loaded_sav_ext X Q _ HS); assumption|].
  split; [apply loaded_sav_any; assumption|].
  split; [eapply impl_opt; [exact sav_Orthographic|assumption]|].
  split; [eapply impl_opt; [exact sav_Perspective|assumption]|].
  assumption.
Qed.
Lemma loaded_cameras l : Forall (opt (loaded_Camera Q)) l -> Forall (opt has_projection) l -> Forall (opt (savable_Camera X)) l.
Proof. apply Forall_opt2. exact sav_Camera. Qed.
Lemma sav_Primitive x : loaded_Primitive Q x -> savable_Primitive X x.
Proof.
  intros W. unfold loaded_Primitive in W. decompose [and] W. clear W. unfold savable_Primitive.
  split; [apply (loaded_sav_ext X Q _ HS); assumption|].
  apply loaded_sav_any; assumption.
Qed.
Lemma sav_Mesh x : loaded_Mesh Q x -> savable_Mesh X x.
Proof.
  intros W. unfold loaded_Mesh in W. decompose [and] W. clear W. unfold savable_Mesh.
  split; [apply (loaded_sav_ext X Q _ HS); assumption|].
  split; [apply loaded_sav_any; assumption|].
  split; [eapply impl_opt; [exact (fun l => impl_all _ _ l (fun o => impl_opt _ _ o sav_Primitive))|assumption]|].
  eapply impl_all; [exact float_fin|assumption].
Qed.
Lemma sav_TextureInfo x : loaded_TextureInfo Q x -> savable_TextureInfo X x.
Proof.
  intros W. unfold loaded_TextureInfo in W. decompose [and] W. clear W. unfold savable_TextureInfo.
  split; [apply (loaded_sav_ext X Q _ HS); assumption|].
  apply loaded_sav_any; assumption.
Qed.
Lemma sav_NormalTexture x : loaded_NormalTexture Q x -> savable_NormalTexture X x.
Proof.
  intros W. unfold loaded_NormalTexture in W. decompose [and] W. clear W. unfold savable_NormalTexture.
  split; [apply (loaded_sav_ext X Q _ HS); assumption|].
  split; [apply loaded_sav_any; assumption|].
  eapply impl_opt; [exact float_fin|assumption].
Qed.
Lemma sav_OcclusionTexture x : loaded_OcclusionTexture Q x -> savable_OcclusionTexture X x.
Proof.
  intros W. unfold loaded_OcclusionTexture in W. decompose [and] W. clear W. unfold savable_OcclusionTexture.
  split; [apply (loaded_sav_ext X Q _ HS); assumption|].
  split; [apply loaded_sav_any; assumption|].
  eapply impl_opt; [exact float_fin|assumption].
Qed.
Lemma sav_PBRMetallicRoughness x : loaded_PBRMetallicRoughness Q x -> savable_PBRMetallicRoughness X x.
Proof.
  intros W. unfold loaded_PBRMetallicRoughness in W. decompose [and] W. clear W. unfold savable_PBRMetallicRoughness.
  split; [apply (loaded_sav_ext X Q _ HS); assumption|].
  split; [apply loaded_sav_any; assumption|].
  split; [eapply impl_opt; [exact (array_fin 4)|assumption]|].
  split; [eapply impl_opt; [exact sav_TextureInfo|assumption]|].
  split; [eapply impl_opt; [exact float_fin|assumption]|].
  split; [eapply impl_opt; [exact float_fin|assumption]|].
  eapply impl_opt; [exact sav_TextureInfo|assumption].
Qed.
Lemma sav_Material x : loaded_Material Q x -> savable_Material X x.
Proof.
  intros W. unfold loaded_Material in W. decompose [and] W. clear W. unfold savable_Material.
  split; [apply (loaded_sav_ext X Q _ HS); assumption|].
  split; [apply loaded_sav_any; assumption|].
  split; [eapply impl_opt; [exact sav_PBRMetallicRoughness|assumption]|].
  split; [eapply impl_opt; [exact sav_NormalTexture|assumption]|].
  split; [eapply impl_opt; [exact sav_OcclusionTexture|assumption]|].
  split; [eapply impl_opt; [exact sav_TextureInfo|assumption]|].
  split; [apply (array_fin 3); assumption|].
  eapply impl_opt; [exact float_fin|assumption].
Qed.
Lemma sav_Texture x : loaded_Texture Q x -> savable_Texture X x.
Proof.
  intros W. unfold loaded_Texture in W. decompose [and] W. clear W. unfold savable_Texture.
  split; [apply (loaded_sav_ext X Q _ HS); assumption|].
  apply loaded_sav_any; assumption.
Qed.
Lemma sav_Sampler x : loaded_Sampler Q x -> savable_Sampler X x.
Proof.
  intros W. unfold loaded_Sampler in W. decompose [and] W. clear W. unfold savable_Sampler.
  split; [apply (loaded_sav_ext X Q _ HS); assumption|].
  apply loaded_sav_any; assumption.
Qed.
Lemma sav_Image x : loaded_Image Q x -> savable_Image X x.
Proof.
  intros W. unfold loaded_Image in W. decompose [and] W. clear W. unfold savable_Image.
  split; [apply (loaded_sav_ext X Q _ HS); assumption|].
  apply loaded_sav_any; assumption.
Qed.
Lemma sav_AnimationSampler x : loaded_AnimationSampler Q x -> savable_AnimationSampler X x.
Proof.
  intros W. unfold loaded_AnimationSampler in W. decompose [and] W. clear W. unfold savable_AnimationSampler.
  split; [apply (loaded_sav_ext X Q _ HS); assumption|].
  apply loaded_sav_any; assumption.
Qed.
Lemma sav_AnimationChannelTarget x : loaded_AnimationChannelTarget Q x -> savable_AnimationChannelTarget X x.
Proof.
  intros W. unfold loaded_AnimationChannelTarget in W. decompose [and] W. clear W. unfold savable_AnimationChannelTarget.
  split; [apply (loaded_sav_ext X Q _ HS); assumption|].
  apply loaded_sav_any; assumption.
Qed.
Lemma sav_AnimationChannel x : loaded_AnimationChannel Q x -> savable_AnimationChannel X x.
Proof.
  intros W. unfold loaded_AnimationChannel in W. decompose [and] W. clear W. unfold savable_AnimationChannel.
  split; [apply (loaded_sav_ext X Q _ HS); assumption|].
  split; [apply loaded_sav_any; assumption|].
  apply sav_AnimationChannelTarget; assumption.
Qed.
Lemma sav_Animation x : loaded_Animation Q x -> savable_Animation X x.
Proof.
  intros W. unfold loaded_Animation in W. decompose [and] W. clear W. unfold savable_Animation.
  split; [apply (loaded_sav_ext X Q _ HS); assumption|].
  split; [apply loaded_sav_any; assumption|].
  split; [eapply impl_opt; [exact (fun l => impl_all _ _ l (fun o => impl_opt _ _ o sav_AnimationChannel))|assumption]|].
  eapply impl_opt; [exact (fun l => impl_all _ _ l (fun o => impl_opt _ _ o sav_AnimationSampler))|assumption].
Qed.
Lemma sav_Document x : loaded_Document Q x -> Forall (opt has_projection) (doc_Cameras x) -> savable_Document X x.
Proof.
  intros W C. unfold loaded_Document in W. decompose [and] W. clear W. unfold savable_Document.
  split; [apply (loaded_sav_ext X Q _ HS); assumption|].
  split; [apply loaded_sav_any; assumption|].
  split; [eapply impl_all; [exact (fun o => impl_opt _ _ o sav_Accessor)|assumption]|].
  split; [eapply impl_all; [exact (fun o => impl_opt _ _ o sav_Animation)|assumption]|].
  split; [apply sav_Asset; assumption|].
  split; [eapply impl_all; [exact (fun o => impl_opt _ _ o sav_Buffer)|assumption]|].
  split; [eapply impl_all; [exact (fun o => impl_opt _ _ o sav_BufferView)|assumption]|].
  split; [apply loaded_cameras; assumption|].
  split; [eapply impl_all; [exact (fun o => impl_opt _ _ o sav_Image)|assumption]|].
  split; [eapply impl_all; [exact (fun o => impl_opt _ _ o sav_Material)|assumption]|].
  split; [eapply impl_all; [exact (fun o => impl_opt _ _ o sav_Mesh)|assumption]|].
  split; [eapply impl_all; [exact (fun o => impl_opt _ _ o sav_Node)|assumption]|].
  split; [eapply impl_all; [exact (fun o => impl_opt _ _ o sav_Sampler)|assumption]|].
  split; [eapply impl_all; [exact (fun o => impl_opt _ _ o sav_Scene)|assumption]|].
  split; [eapply impl_all; [exact (fun o => impl_opt _ _ o sav_Skin)|assumption]|].
  eapply impl_all; [exact (fun o => impl_opt _ _ o sav_Texture)|assumption].
Qed.
End Sav.

Section All.
Context (Q Q' : string -> extv -> Prop).
Lemma lall_Asset x : loaded_Asset Q x -> all_ext Q (exts_Asset x).
Proof.
  intros W. unfold loaded_Asset in W. decompose [and] W. clear W. unfold exts_Asset.
  eapply loaded_all_ext; eassumption.
Qed.
Lemma lwith_Asset x : loaded_Asset Q x -> all_ext Q' (exts_Asset x) -> loaded_Asset Q' x.
Proof.
  intros W A. unfold loaded_Asset in W. decompose [and] W. clear W. unfold exts_Asset in A. repeat (apply all_ext_app_inv in A; let H := fresh in destruct A as [H A]). unfold loaded_Asset.
  split; [eapply loaded_ext_with; eassumption|].
  split; [assumption|].
  split; [assumption|].
  split; [assumption|].
  split; [assumption|].
  assumption.
Qed.
Lemma lall_SparseValues x : loaded_SparseValues Q x -> all_ext Q (exts_SparseValues x).
Proof.
  intros W. unfold loaded_SparseValues in W. decompose [and] W. clear W. unfold exts_SparseValues.
  eapply loaded_all_ext; eassumption.
Qed.
Lemma lwith_SparseValues x : loaded_SparseValues Q x -> all_ext Q' (exts_SparseValues x) -> loaded_SparseValues Q' x.
Proof.
  intros W A. unfold loaded_SparseValues in W. decompose [and] W. clear W. unfold exts_SparseValues in A. repeat (apply all_ext_app_inv in A; let H := fresh in destruct A as [H A]). unfold loaded_SparseValues.
  split; [eapply loaded_ext_with; eassumption|].
  split; [assumption|].
  split; [assumption|].
  assumption.
Qed.
Lemma lall_SparseIndices x : loaded_SparseIndices Q x -> all_ext Q (exts_SparseIndices x).
Proof.
  intros W. unfold loaded_SparseIndices in W. decompose [and] W. clear W. unfold exts_SparseIndices.
  eapply loaded_all_ext; eassumption.
Qed.
Lemma lwith_SparseIndices x : loaded_SparseIndices Q x -> all_ext Q' (exts_SparseIndices x) -> loaded_SparseIndices Q' x.
Proof.
  intros W A. unfold loaded_SparseIndices in W. decompose [and] W. clear W. unfold exts_SparseIndices in A. repeat (apply all_ext_app_inv in A; let H := fresh in destruct A as [H A]). unfold loaded_SparseIndices.
  split; [eapply loaded_ext_with; eassumption|].
  split; [assumption|].
  split; [assumption|].
  split; [assumption|].
  assumption.
Qed.
Lemma lall_Sparse x : loaded_Sparse Q x -> all_ext Q (exts_Sparse x).
Proof.
  intros W. unfold loaded_Sparse in W. decompose [and] W. clear W. unfold exts_Sparse.
  apply all_ext_app; [eapply loaded_all_ext; eassumption|].
  apply all_ext_app; [apply lall_SparseIndices; assumption|].
  apply lall_SparseValues; assumption.
Qed.
Lemma lwith_Sparse x : loaded_Sparse Q x -> all_ext Q' (exts_Sparse x) -> loaded_Sparse Q' x.
Proof.
  intros W A. unfold loaded_Sparse in W. decompose [and] W. clear W. unfold exts_Sparse in A. repeat (apply all_ext_app_inv in A; let H := fresh in destruct A as [H A]). unfold loaded_Sparse.
  split; [eapply loaded_ext_with; eassumption|].
  split; [assumption|].
  split; [assumption|].
  split; [apply lwith_SparseIndices; assumption|].
  apply lwith_SparseValues; assumption.
Qed.
Lemma lall_Accessor x : loaded_Accessor Q x -> all_ext Q (exts_Accessor x).
Proof.
  intros W. unfold loaded_Accessor in W. decompose [and] W. clear W. unfold exts_Accessor.
  apply all_ext_app; [eapply loaded_all_ext; eassumption|].
  eapply all_of_opt; [exact lall_Sparse|assumption].
Qed.
Lemma lwith_Accessor x : loaded_Accessor Q x -> all_ext Q' (exts_Accessor x) -> loaded_Accessor Q' x.
Proof.
  intros W A. unfold loaded_Accessor in W. decompose [and] W. clear W. unfold exts_Accessor in A. repeat (apply all_ext_app_inv in A; let H := fresh in destruct A as [H A]). unfold loaded_Accessor.
  split; [eapply loaded_ext_with; eassumption|].
  split; [assumption|].
  split; [assumption|].
  split; [assumption|].
  split; [assumption|].
  split; [assumption|].
  split; [assumption|].
  split; [assumption|].
  split; [assumption|].
  split; [assumption|].
  eapply opt_with; [exact lwith_Sparse|assumption|assumption].
Qed.
Lemma lall_Buffer x : loaded_Buffer Q x -> all_ext Q (exts_Buffer x).
Proof.
  intros W. unfold loaded_Buffer in W. decompose [and] W. clear W. unfold exts_Buffer.
  eapply loaded_all_ext; eassumption.
Qed.
Lemma lwith_Buffer x : loaded_Buffer Q x -> all_ext Q' (exts_Buffer x) -> loaded_Buffer Q' x.
Proof.
  intros W A. unfold loaded_Buffer in W. decompose [and] W. clear W. unfold exts_Buffer in A. repeat (apply all_ext_app_inv in A; let H := fresh in destruct A as [H A]). unfold loaded_Buffer.
  split; [eapply loaded_ext_with; eassumption|].
  split; [assumption|].
  split; [assumption|].
  split; [assumption|].
  assumption.
Qed.
Lemma lall_BufferView x : loaded_BufferView Q x -> all_ext Q (exts_BufferView x).
Proof.
  intros W. unfold loaded_BufferView in W. decompose [and] W. clear W. unfold exts_BufferView.
  eapply loaded_all_ext; eassumption.
Qed.
Lemma lwith_BufferView x : loaded_BufferView Q x -> all_ext Q' (exts_BufferView x) -> loaded_BufferView Q' x.
Proof.
  intros W A. unfold loaded_BufferView in W. decompose [and] W. clear W. unfold exts_BufferView in A. repeat (apply all_ext_app_inv in A; let H := fresh in destruct A as [H A]). unfold loaded_BufferView.
  split; [eapply loaded_ext_with; eassumption|].
  split; [assumption|].
  split; [assumption|].
  split; [assumption|].
  split; [assumption|].
  split; [assumption|].
  split; [assumption|].
  assumption.
Qed.
Lemma lall_Scene x : loaded_Scene Q x -> all_ext Q (exts_Scene x).
Proof.
  intros W. unfold loaded_Scene in W. decompose [and] W. clear W. unfold exts_Scene.
  eapply loaded_all_ext; eassumption.
Qed.
Lemma lwith_Scene x : loaded_Scene Q x -> all_ext Q' (exts_Scene x) -> loaded_Scene Q' x.
Proof.
  intros W A. unfold loaded_Scene in W. decompose [and] W. clear W. unfold exts_Scene in A. repeat (apply all_ext_app_inv in A; let H := fresh in destruct A as [H A]). unfold loaded_Scene.
  split; [eapply loaded_ext_with; eassumption|].
  split; [assumption|].
  split; [assumption|].
  assumption.
Qed.
Lemma lall_Node x : loaded_Node Q x -> all_ext Q (exts_Node x).
Proof.
  intros W. unfold loaded_Node in W. decompose [and] W. clear W. unfold exts_Node.
  eapply loaded_all_ext; eassumption.
Qed.
Lemma lwith_Node x : loaded_Node Q x -> all_ext Q' (exts_Node x) -> loaded_Node Q' x.
Proof.
  intros W A. unfold loaded_Node in W. decompose [and] W. clear W. unfold exts_Node in A. repeat (apply all_ext_app_inv in A; let H := fresh in destruct A as [H A]). unfold loaded_Node.
  split; [eapply loaded_ext_with; eassumption|].
  split; [assumption|].
  split; [assumption|].
  split; [assumption|].
  split; [assumption|].
  split; [assumption|].
  split; [assumption|].
  split; [assumption|].
  split; [assumption|].
  split; [assumption|].
  split; [assumption|].
  assumption.
Qed.
Lemma lall_Skin x : loaded_Skin Q x -> all_ext Q (exts_Skin x).
Proof.
  intros W. unfold loaded_Skin in W. decompose [and] W. clear W. unfold exts_Skin.
  eapply loaded_all_ext; eassumption.
Qed.
Lemma lwith_Skin x : loaded_Skin Q x -> all_ext Q' (exts_Skin x) -> loaded_Skin Q' x.
Proof.
  intros W A. unfold loaded_Skin in W. decompose [and] W. clear W. unfold exts_Skin in A. repeat (apply all_ext_app_inv in A; let H := fresh in destruct A as [H A]). unfold loaded_Skin.
  split; [eapply loaded_ext_with; eassumption|].
  split; [assumption|].
  split; [assumption|].
  split; [assumption|].
  split; [assumption|].
  assumption.
Qed.
Lemma lall_Orthographic x : loaded_Orthographic Q x -> all_ext Q (exts_Orthographic x).
Proof.
  intros W. unfold loaded_Orthographic in W. decompose [and] W. clear W. unfold exts_Orthographic.
  eapply loaded_all_ext; eassumption.
Qed.
Lemma lwith_Orthographic x : loaded_Orthographic Q x -> all_ext Q' (exts_Orthographic x) -> loaded_Orthographic Q' x.
Proof.
  intros W A. unfold loaded_Orthographic in W. decompose [and] W. clear W. unfold exts_Orthographic in A. repeat (apply all_ext_app_inv in A; let H := fresh in destruct A as [H A]). unfold loaded_Orthographic.
  split; [eapply loaded_ext_with; eassumption|].
  split; [assumption|].
  split; [assumption|].
  split; [assumption|].
  split; [assumption|].
  assumption.
Qed.
Lemma lall_Perspective x : loaded_Perspective Q x -> all_ext Q (exts_Perspective x).
Proof.
  intros W. unfold loaded_Perspective in W. decompose [and] W. clear W. unfold exts_Perspective.
  eapply loaded_all_ext; eassumption.
Qed.
Lemma lwith_Perspective x : loaded_Perspective Q x -> all_ext Q' (exts_Perspective x) -> loaded_Perspective Q' x.
Proof.
  intros W A. unfold loaded_Perspective in W. decompose [and] W. clear W. unfold exts_Perspective in A. repeat (apply all_ext_app_inv in A; let H := fresh in destruct A as [H A]). unfold loaded_Perspective.
  split; [eapply loaded_ext_with; eassumption|].
  split; [assumption|].
  split; [assumption|].
  split; [assumption|].
  split; [assumption|].
  assumption.
Qed.
Lemma lall_Camera x : loaded_Camera Q x -> all_ext Q (exts_Camera x).
Proof.
  intros W. unfold loaded_Camera in W. decompose [and] W. clear W. unfold exts_Camera.
  apply all_ext_app; [eapply loaded_all_ext; eassumption|].
  apply all_ext_app; [eapply all_of_opt; [exact lall_Orthographic|assumption]|].
  eapply all_of_opt; [exact lall_Perspective|assumption].
Qed.
Lemma lwith_Camera x : loaded_Camera Q x -> all_ext Q' (exts_Camera x) -> loaded_Camera Q' x.
Proof.
  intros W A. unfold loaded_Camera in W. decompose [and] W. clear W. unfold exts_Camera in A. repeat (apply all_ext_app_inv in A; let H := fresh in destruct A as [H A]). unfold loaded_Camera.
  split; [eapply loaded_ext_with; eassumption|].
  split; [assumption|].
  split; [assumption|].
  split; [eapply opt_with; [exact lwith_Orthographic|assumption|assumption]|].
  eapply opt_with; [exact lwith_Perspective|assumption|assumption].
Qed.
Lemma lall_Primitive x : loaded_Primitive Q x -> all_ext Q (exts_Primitive x).
Proof.
  intros W. unfold loaded_Primitive in W. decompose [and] W. clear W. unfold exts_Primitive.
  eapply loaded_all_ext; eassumption.
Qed.
Lemma lwith_Primitive x : loaded_Primitive Q x -> all_ext Q' (exts_Primitive x) -> loaded_Primitive Q' x.
Proof.
  intros W A. unfold loaded_Primitive in W. decompose [and] W. clear W. unfold exts_Primitive in A. repeat (apply all_ext_app_inv in A; let H := fresh in destruct A as [H A]). unfold loaded_Primitive.
  split; [eapply loaded_ext_with; eassumption|].
  split; [assumption|].
  split; [assumption|].
  split; [assumption|].
  split; [assumption|].
  split; [assumption|].
  assumption.
Qed.
Lemma lall_Mesh x : loaded_Mesh Q x -> all_ext Q (exts_Mesh x).
Proof.
  intros W. unfold loaded_Mesh in W. decompose [and] W. clear W. unfold exts_Mesh.
  apply all_ext_app; [eapply loaded_all_ext; eassumption|].
  eapply all_of_opt; [exact (fun l => all_of_list _ _ _ l lall_Primitive)|assumption].
Qed.
Lemma lwith_Mesh x : loaded_Mesh Q x -> all_ext Q' (exts_Mesh x) -> loaded_Mesh Q' x.
Proof.
  intros W A. unfold loaded_Mesh in W. decompose [and] W. clear W. unfold exts_Mesh in A. repeat (apply all_ext_app_inv in A; let H := fresh in destruct A as [H A]). unfold loaded_Mesh.
  split; [eapply loaded_ext_with; eassumption|].
  split; [assumption|].
  split; [assumption|].
  split; [eapply opt_with; [exact (fun l => list_with _ _ _ _ l lwith_Primitive)|assumption|assumption]|].
  assumption.
Qed.
Lemma lall_TextureInfo x : loaded_TextureInfo Q x -> all_ext Q (exts_TextureInfo x).
Proof.
  intros W. unfold loaded_TextureInfo in W. decompose [and] W. clear W. unfold exts_TextureInfo.
  eapply loaded_all_ext; eassumption.
Qed.
Lemma lwith_TextureInfo x : loaded_TextureInfo Q x -> all_ext Q' (exts_TextureInfo x) -> loaded_TextureInfo Q' x.
Proof.
  intros W A. unfold loaded_TextureInfo in W. decompose [and] W. clear W. unfold exts_TextureInfo in A. repeat (apply all_ext_app_inv in A; let H := fresh in destruct A as [H A]). unfold loaded_TextureInfo.
  split; [eapply loaded_ext_with; eassumption|].
  split; [assumption|].
  split; [assumption|].
  assumption.
Qed.
Lemma lall_NormalTexture x : loaded_NormalTexture Q x -> all_ext Q (exts_NormalTexture x).
Proof.
  intros W. unfold loaded_NormalTexture in W. decompose [and] W. clear W. unfold exts_NormalTexture.
  eapply loaded_all_ext; eassumption.
Qed.
Lemma lwith_NormalTexture x : loaded_NormalTexture Q x -> all_ext Q' (exts_NormalTexture x) -> loaded_NormalTexture Q' x.
Proof.
  intros W A. unfold loaded_NormalTexture in W. decompose [and] W. clear W. unfold exts_NormalTexture in A. repeat (apply all_ext_app_inv in A; let H := fresh in destruct A as [H A]). unfold loaded_NormalTexture.
  split; [eapply loaded_ext_with; eassumption|].
  split; [assumption|].
  split; [assumption|].
  split; [assumption|].
  assumption.
Qed.
Lemma lall_OcclusionTexture x : loaded_OcclusionTexture Q x -> all_ext Q (exts_OcclusionTexture x).
Proof.
  intros W. unfold loaded_OcclusionTexture in W. decompose [and] W. clear W. unfold exts_OcclusionTexture.
  eapply loaded_all_ext; eassumption.
Qed.
Lemma lwith_OcclusionTexture x : loaded_OcclusionTexture Q x -> all_ext Q' (exts_OcclusionTexture x) -> loaded_OcclusionTexture Q' x.
Proof.
  intros W A. unfold loaded_OcclusionTexture in W. decompose [and] W. clear W. unfold exts_OcclusionTexture in A. repeat (apply all_ext_app_inv in A; let H := fresh in destruct A as [H A]). unfold loaded_OcclusionTexture.
  split; [eapply loaded_ext_with; eassumption|].
  split; [assumption|].
  split; [assumption|].
  split; [assumption|].
  assumption.
Qed.
Lemma lall_PBRMetallicRoughness x : loaded_PBRMetallicRoughness Q x -> all_ext Q (exts_PBRMetallicRoughness x).
Proof.
  intros W. unfold loaded_PBRMetallicRoughness in W. decompose [and] W. clear W. unfold exts_PBRMetallicRoughness.
  apply all_ext_app; [eapply loaded_all_ext; eassumption|].
  apply all_ext_app; [eapply all_of_opt; [exact lall_TextureInfo|assumption]|].
  eapply all_of_opt; [exact lall_TextureInfo|assumption].
Qed.
Lemma lwith_PBRMetallicRoughness x : loaded_PBRMetallicRoughness Q x -> all_ext Q' (exts_PBRMetallicRoughness x) -> loaded_PBRMetallicRoughness Q' x.
Proof.
  intros W A. unfold loaded_PBRMetallicRoughness in W. decompose [and] W. clear W. unfold exts_PBRMetallicRoughness in A. repeat (apply all_ext_app_inv in A; let H := fresh in destruct A as [H A]). unfold loaded_PBRMetallicRoughness.
  split; [eapply loaded_ext_with; eassumption|].
  split; [assumption|].
  split; [assumption|].
  split; [eapply opt_with; [exact lwith_TextureInfo|assumption|assumption]|].
  split; [assumption|].
  split; [assumption|].
  eapply opt_with; [exact lwith_TextureInfo|assumption|assumption].
Qed.
Lemma lall_Material x : loaded_Material Q x -> all_ext Q (exts_Material x).
Proof.
  intros W. unfold loaded_Material in W. decompose [and] W. clear W. unfold exts_Material.
  apply all_ext_app; [eapply loaded_all_ext; eassumption|].
  apply all_ext_app; [eapply all_of_opt; [exact lall_PBRMetallicRoughness|assumption]|].
  apply all_ext_app; [eapply all_of_opt; [exact lall_NormalTexture|assumption]|].
  apply all_ext_app; [eapply all_of_opt; [exact lall_OcclusionTexture|assumption]|].
  eapply all_of_opt; [exact lall_TextureInfo|assumption].
Qed.
Lemma lwith_Material x : loaded_Material Q x -> all_ext Q' (exts_Material x) -> loaded_Material Q' x.
Proof.
  intros W A. unfold loaded_Material in W. decompose [and] W. clear W. unfold exts_Material in A. repeat (apply all_ext_app_inv in A; let H := fresh in destruct A as [H A]). unfold loaded_Material.
  split; [eapply loaded_ext_with; eassumption|].
  split; [assumption|].
  split; [assumption|].
  split; [eapply opt_with; [exact lwith_PBRMetallicRoughness|assumption|assumption]|].
  split; [eapply opt_with; [exact lwith_NormalTexture|assumption|assumption]|].
  split; [eapply opt_with; [exact lwith_OcclusionTexture|assumption|assumption]|].
  split; [eapply opt_with; [exact lwith_TextureInfo|assumption|assumption]|].
  split; [assumption|].
  split; [assumption|].
  assumption.
Qed.
Lemma lall_Texture x : loaded_Texture Q x -> all_ext Q (exts_Texture x).
Proof.
  intros W. unfold loaded_Texture in W. decompose [and] W. clear W. unfold exts_Texture.
  eapply loaded_all_ext; eassumption.
Qed.
Lemma lwith_Texture x : loaded_Texture Q x -> all_ext Q' (exts_Texture x) -> loaded_Texture Q' x.
Proof.
  intros W A. unfold loaded_Texture in W. decompose [and] W. clear W. unfold exts_Texture in A. repeat (apply all_ext_app_inv in A; let H := fresh in destruct A as [H A]). unfold loaded_Texture.
  split; [eapply loaded_ext_with; eassumption|].
  split; [assumption|].
  split; [assumption|].
  split; [assumption|].
  assumption.
Qed.
Lemma lall_Sampler x : loaded_Sampler Q x -> all_ext Q (exts_Sampler x).
Proof.
  intros W. unfold loaded_Sampler in W. decompose [and] W. clear W. unfold exts_Sampler.
  eapply loaded_all_ext; eassumption.
Qed.
Lemma lwith_Sampler x : loaded_Sampler Q x -> all_ext Q' (exts_Sampler x) -> loaded_Sampler Q' x.
Proof.
  intros W A. unfold loaded_Sampler in W. decompose [and] W. clear W. unfold exts_Sampler in A. repeat (apply all_ext_app_inv in A; let H := fresh in destruct A as [H A]). unfold loaded_Sampler.
  split; [eapply loaded_ext_with; eassumption|].
  split; [assumption|].
  split; [assumption|].
  split; [assumption|].
  split; [assumption|].
  split; [assumption|].
  assumption.
Qed.
Lemma lall_Image x : loaded_Image Q x -> all_ext Q (exts_Image x).
Proof.
  intros W. unfold loaded_Image in W. decompose [and] W. clear W. unfold exts_Image.
  eapply loaded_all_ext; eassumption.
Qed.
Lemma lwith_Image x : loaded_Image Q x -> all_ext Q' (exts_Image x) -> loaded_Image Q' x.
Proof.
  intros W A. unfold loaded_Image in W. decompose [and] W. clear W. unfold exts_Image in A. repeat (apply all_ext_app_inv in A; let H := fresh in destruct A as [H A]). unfold loaded_Image.
  split; [eapply loaded_ext_with; eassumption|].
  split; [assumption|].
  split; [assumption|].
  split; [assumption|].
  split; [assumption|].
  assumption.
Qed.
Lemma lall_AnimationSampler x : loaded_AnimationSampler Q x -> all_ext Q (exts_AnimationSampler x).
Proof.
  intros W. unfold loaded_AnimationSampler in W. decompose [and] W. clear W. unfold exts_AnimationSampler.
  eapply loaded_all_ext; eassumption.
Qed.
Lemma lwith_AnimationSampler x : loaded_AnimationSampler Q x -> all_ext Q' (exts_AnimationSampler x) -> loaded_AnimationSampler Q' x.
Proof.
  intros W A. unfold loaded_AnimationSampler in W. decompose [and] W. clear W. unfold exts_AnimationSampler in A. repeat (apply all_ext_app_inv in A; let H := fresh in destruct A as [H A]). unfold loaded_AnimationSampler.
  split; [eapply loaded_ext_with; eassumption|].
  split; [assumption|].
  split; [assumption|].
  split; [assumption|].
  assumption.
Qed.
Lemma lall_AnimationChannelTarget x : loaded_AnimationChannelTarget Q x -> all_ext Q (exts_AnimationChannelTarget x).
Proof.
  intros W. unfold loaded_AnimationChannelTarget in W. decompose [and] W. clear W. unfold exts_AnimationChannelTarget.
  eapply loaded_all_ext; eassumption.
Qed.
Lemma lwith_AnimationChannelTarget x : loaded_AnimationChannelTarget Q x -> all_ext Q' (exts_AnimationChannelTarget x) -> loaded_AnimationChannelTarget Q' x.
Proof.
  intros W A. unfold loaded_AnimationChannelTarget in W. decompose [and] W. clear W. unfold exts_AnimationChannelTarget in A. repeat (apply all_ext_app_inv in A; let H := fresh in destruct A as [H A]). unfold loaded_AnimationChannelTarget.
  split; [eapply loaded_ext_with; eassumption|].
  split; [assumption|].
  split; [assumption|].
  assumption.
Qed.
Lemma lall_AnimationChannel x : loaded_AnimationChannel Q x -> all_ext Q (exts_AnimationChannel x).
Proof.
  intros W. unfold loaded_AnimationChannel in W. decompose [and] W. clear W. unfold exts_AnimationChannel.
  apply all_ext_app; [eapply loaded_all_ext; eassumption|].
  apply lall_AnimationChannelTarget; assumption.
Qed.
Lemma lwith_AnimationChannel x : loaded_AnimationChannel Q x -> all_ext Q' (exts_AnimationChannel x) -> loaded_AnimationChannel Q' x.
Proof.
  intros W A. unfold loaded_AnimationChannel in W. decompose [and] W. clear W. unfold exts_AnimationChannel in A. repeat (apply all_ext_app_inv in A; let H := fresh in destruct A as [H A]). unfold loaded_AnimationChannel.
  split; [eapply loaded_ext_with; eassumption|].
  split; [assumption|].
  split; [assumption|].
  apply lwith_AnimationChannelTarget; assumption.
Qed.
Lemma lall_Animation x : loaded_Animation Q x -> all_ext Q (exts_Animation x).
Proof.
  intros W. unfold loaded_Animation in W. decompose [and] W. clear W. unfold exts_Animation.
  apply all_ext_app; [eapply loaded_all_ext; eassumption|].
  apply all_ext_app; [eapply all_of_opt; [exact (fun l => all_of_list _ _ _ l lall_AnimationChannel)|assumption]|].
  eapply all_of_opt; [exact (fun l => all_of_list _ _ _ l lall_AnimationSampler)|assumption].
Qed.
Lemma lwith_Animation x : loaded_Animation Q x -> all_ext Q' (exts_Animation x) -> loaded_Animation Q' x.
Proof.
  intros W A. unfold loaded_Animation in W. decompose [and] W. clear W. unfold exts_Animation in A. repeat (apply all_ext_app_inv in A; let H := fresh in destruct A as [H A]). unfold loaded_Animation.
  split; [eapply loaded_ext_with; eassumption|].
  split; [assumption|].
  split; [assumption|].
  split; [eapply opt_with; [exact (fun l => list_with _ _ _ _ l lwith_AnimationChannel)|assumption|assumption]|].
  eapply opt_with; [exact (fun l => list_with _ _ _ _ l lwith_AnimationSampler)|assumption|assumption].
Qed.
Lemma lall_Document x : loaded_Document Q x -> all_ext Q (exts_Document x).
Proof.
  intros W. unfold loaded_Document in W. decompose [and] W. clear W. unfold exts_Document.
  apply all_ext_app; [eapply loaded_all_ext; eassumption|].
  apply all_ext_app; [eapply all_of_list; [exact lall_Accessor|assumption]|].
  apply all_ext_app; [eapply all_of_list; [exact lall_Animation|assumption]|].
  apply all_ext_app; [apply lall_Asset; assumption|].
  apply all_ext_app; [eapply all_of_list; [exact lall_Buffer|assumption]|].
  apply all_ext_app; [eapply all_of_list; [exact lall_BufferView|assumption]|].
  apply all_ext_app; [eapply all_of_list; [exact lall_Camera|assumption]|].
  apply all_ext_app; [eapply all_of_list; [exact lall_Image|assumption]|].
  apply all_ext_app; [eapply all_of_list; [exact lall_Material|assumption]|].
  apply all_ext_app; [eapply all_of_list; [exact lall_Mesh|assumption]|].
  apply all_ext_app; [eapply all_of_list; [exact lall_Node|assumption]|].
  apply all_ext_app; [eapply all_of_list; [exact lall_Sampler|assumption]|].
  apply all_ext_app; [eapply all_of_list; [exact lall_Scene|assumption]|].
  apply all_ext_app; [eapply all_of_list; [exact lall_Skin|assumption]|].
  eapply all_of_list; [exact lall_Texture|assumption].
Qed.
Lemma lwith_Document x : loaded_Document Q x -> all_ext Q' (exts_Document x) -> loaded_Document Q' x.
Proof.
  intros W A. unfold loaded_Document in W. decompose [and] W. clear W. unfold exts_Document in A. repeat (apply all_ext_app_inv in A; let H := fresh in destruct A as [H A]). unfold loaded_Document.
  split; [eapply loaded_ext_with; eassumption|].
  split; [assumption|].
  split; [assumption|].
  split; [assumption|].
  split; [eapply list_with; [exact lwith_Accessor|assumption|assumption]|].
  split; [eapply list_with; [exact lwith_Animation|assumption|assumption]|].
  split; [apply lwith_Asset; assumption|].
  split; [eapply list_with; [exact lwith_Buffer|assumption|assumption]|].
  split; [eapply list_with; [exact lwith_BufferView|assumption|assumption]|].
  split; [eapply list_with; [exact lwith_Camera|assumption|assumption]|].
  split; [eapply list_with; [exact lwith_Image|assumption|assumption]|].
  split; [eapply list_with; [exact lwith_Material|assumption|assumption]|].
  split; [eapply list_with; [exact lwith_Mesh|assumption|assumption]|].
  split; [eapply list_with; [exact lwith_Node|assumption|assumption]|].
  split; [eapply list_with; [exact lwith_Sampler|assumption|assumption]|].
  split; [assumption|].
  split; [eapply list_with; [exact lwith_Scene|assumption|assumption]|].
  split; [eapply list_with; [exact lwith_Skin|assumption|assumption]|].
  eapply list_with; [exact lwith_Texture|assumption|assumption].
Qed.
End All.

Section Back.
Context (X : ext_lib) (Q : string -> extv -> Prop).
Notation QS := (fun k e => Q k e /\ savable_extv X k e).
Lemma lback_Asset x : loaded_Asset Q x -> savable_Asset X x -> loaded_Asset QS x.
Proof.
  intros W V. unfold loaded_Asset in W. unfold savable_Asset in V. decompose [and] W. decompose [and] V. clear W V. unfold loaded_Asset.
  split; [apply loaded_ext_back; assumption|].
  split; [assumption|].
  split; [assumption|].
  split; [assumption|].
  split; [assumption|].
  assumption.
Qed.
Lemma lback_SparseValues x : loaded_SparseValues Q x -> savable_SparseValues X x -> loaded_SparseValues QS x.
Proof.
  intros W V. unfold loaded_SparseValues in W. unfold savable_SparseValues in V. decompose [and] W. decompose [and] V. clear W V. unfold loaded_SparseValues.
  split; [apply loaded_ext_back; assumption|].
  split; [assumption|].
  split; [assumption|].
  assumption.
Qed.
Lemma lback_SparseIndices x : loaded_SparseIndices Q x -> savable_SparseIndices X x -> loaded_SparseIndices QS x.
Proof.
  intros W V. unfold loaded_SparseIndices in W. unfold savable_SparseIndices in V. decompose [and] W. decompose [and] V. clear W V. unfold loaded_SparseIndices.
  split; [apply loaded_ext_back; assumption|].
  split; [assumption|].
  split; [assumption|].
  split; [assumption|].
  assumption.
Qed.
Lemma lback_Sparse x : loaded_Sparse Q x -> savable_Sparse X x -> loaded_Sparse QS x.
Proof.
  intros W V. unfold loaded_Sparse in W. unfold savable_Sparse in V. decompose [and] W. decompose [and] V. clear W V. unfold loaded_Sparse.
  split; [apply loaded_ext_back; assumption|].
  split; [assumption|].
  split; [assumption|].
  split; [apply lback_SparseIndices; assumption|].
  apply lback_SparseValues; assumption.
Qed.
Lemma lback_Accessor x : loaded_Accessor Q x -> savable_Accessor X x -> loaded_Accessor QS x.
Proof.
  intros W V. unfold loaded_Accessor in W. unfold savable_Accessor in V. decompose [and] W. decompose [and] V. clear W V. unfold loaded_Accessor.
  split; [apply loaded_ext_back; assumption|].
  split; [assumption|].
  split; [assumption|].
  split; [assumption|].
  split; [assumption|].
  split; [assumption|].
  split; [assumption|].
  split; [assumption|].
  split; [assumption|].
  split; [assumption|].
  eapply opt2; [exact lback_Sparse|assumption|assumption].
Qed.
Lemma lback_Buffer x : loaded_Buffer Q x -> savable_Buffer X x -> loaded_Buffer QS x.
Proof.
  intros W V. unfold loaded_Buffer in W. unfold savable_Buffer in V. decompose [and] W. decompose [and] V. clear W V. unfold loaded_Buffer.
  split; [apply loaded_ext_back; assumption|].
  split; [assumption|].
  split; [assumption|].
  split; [assumption|].
  assumption.
Qed.
Lemma lback_BufferView x : loaded_BufferView Q x -> savable_BufferView X x -> loaded_BufferView QS x.
Proof.
  intros W V. unfold loaded_BufferView in W. unfold savable_BufferView in V. decompose [and] W. decompose [and] V. clear W V. unfold loaded_BufferView.
  split; [apply loaded_ext_back; assumption|].
  split; [assumption|].
  split; [assumption|].
  split; [assumption|].
  split; [assumption|].
  split; [assumption|].
  split; [assumption|].
  assumption.
Qed.
Lemma lback_Scene x : loaded_Scene Q x -> savable_Scene X x -> loaded_Scene QS x.
Proof.
  intros W V. unfold loaded_Scene in W. unfold savable_Scene in V. decompose [and] W. decompose [and] V. clear W V. unfold loaded_Scene.
  split; [apply loaded_ext_back; assumption|].
  split; [assumption|].
  split; [assumption|].
  assumption.
Qed.
Lemma lback_Node x : loaded_Node Q x -> savable_Node X x -> loaded_Node QS x.
Proof.
  intros W V. unfold loaded_Node in W. unfold savable_Node in V. decompose [and] W. decompose [and] V. clear W V. unfold loaded_Node.
  split; [apply loaded_ext_back; assumption|].
  split; [assumption|].
  split; [assumption|].
  split; [assumption|].
  split; [assumption|].
  split; [assumption|].
  split; [assumption|].
  split; [assumption|].
  split; [assumption|].
  split; [assumption|].
  split; [assumption|].
  assumption.
Qed.
Lemma lback_Skin x : loaded_Skin Q x -> savable_Skin X x -> loaded_Skin QS x.
Proof.
  intros W V. unfold loaded_Skin in W. unfold savable_Skin in V. decompose [and] W. decompose [and] V. clear W V. unfold loaded_Skin.
  split; [apply loaded_ext_back; assumption|].
  split; [assumption|].
  split; [assumption|].
  split; [assumption|].
  split; [assumption|].
  assumption.
Qed.
Lemma lback_Orthographic x : loaded_Orthographic Q x -> savable_Orthographic X x -> loaded_Orthographic QS x.
Proof.
  intros W V. unfold loaded_Orthographic in W. unfold savable_Orthographic in V. decompose [and] W. decompose [and] V. clear W V. unfold loaded_Orthographic.
  split; [apply loaded_ext_back; assumption|].
  split; [assumption|].
  split; [assumption|].
  split; [assumption|].
  split; [assumption|].
  assumption.
Qed.
Lemma lback_Perspective x : loaded_Perspective Q x -> savable_Perspective X x -> loaded_Perspective QS x.
Proof.
  intros W V. unfold loaded_Perspective in W. unfold savable_Perspective in V. decompose [and] W. decompose [and] V. clear W V. unfold loaded_Perspective.
  split; [apply loaded_ext_back; assumption|].
  split; [assumption|].
  split; [assumption|].
  split; [assumption|].
  split; [assumption|].
  assumption.
Qed.
Lemma lback_Camera x : loaded_Camera Q x -> savable_Camera X x -> loaded_Camera QS x.
Proof.
  intros W V. unfold loaded_Camera in W. unfold savable_Camera in V. decompose [and] W. decompose [and] V. clear W V. unfold loaded_Camera.
  split; [apply loaded_ext_back; assumption|].
  split; [assumption|].
  split; [assumption|].
  split; [eapply opt2; [exact lback_Orthographic|assumption|assumption]|].
  eapply opt2; [exact lback_Perspective|assumption|assumption].
Qed.
Lemma lback_Primitive x : loaded_Primitive Q x -> savable_Primitive X x -> loaded_Primitive QS x.
Proof.
  intros W V. unfold loaded_Primitive in W. unfold savable_Primitive in V. decompose [and] W. decompose [and] V. clear W V. unfold loaded_Primitive.
  split; [apply loaded_ext_back; assumption|].
  split; [assumption|].
  split; [assumption|].
  split; [assumption|].
  split; [assumption|].
  split; [assumption|].
  assumption.
Qed.
Lemma lback_Mesh x : loaded_Mesh Q x -> savable_Mesh X x -> loaded_Mesh QS x.
Proof.
  intros W V. unfold loaded_Mesh in W. unfold savable_Mesh in V. decompose [and] W. decompose [and] V. clear W V. unfold loaded_Mesh.
  split; [apply loaded_ext_back; assumption|].
  split; [assumption|].
  split; [assumption|].
  split; [eapply opt2; [exact (fun l => Forall_opt2 _ _ _ l lback_Primitive)|assumption|assumption]|].
  assumption.
Qed.
Lemma lback_TextureInfo x : loaded_TextureInfo Q x -> savable_TextureInfo X x -> loaded_TextureInfo QS x.
Proof.
  intros W V. unfold loaded_TextureInfo in W. unfold savable_TextureInfo in V. decompose [and] W. decompose [and] V. clear W V. unfold loaded_TextureInfo.
  split; [apply loaded_ext_back; assumption|].
  split; [assumption|].
  split; [assumption|].
  assumption.
Qed.
Lemma lback_NormalTexture x : loaded_NormalTexture Q x -> savable_NormalTexture X x -> loaded_NormalTexture QS x.
Proof.
  intros W V. unfold loaded_NormalTexture in W. unfold savable_NormalTexture in V. decompose [and] W. decompose [and] V. clear W V. unfold loaded_NormalTexture.
  split; [apply loaded_ext_back; assumption|].
  split; [assumption|].
  split; [assumption|].
  split; [assumption|].
  assumption.
Qed.
Lemma lback_OcclusionTexture x : loaded_OcclusionTexture Q x -> savable_OcclusionTexture X x -> loaded_OcclusionTexture QS x.
Proof.
  intros W V. unfold loaded_OcclusionTexture in W. unfold savable_OcclusionTexture in V. decompose [and] W. decompose [and] V. clear W V. unfold loaded_OcclusionTexture.
  split; [apply loaded_ext_back; assumption|].
  split; [assumption|].
  split; [assumption|].
  split; [assumption|].
  assumption.
Qed.
Lemma lback_PBRMetallicRoughness x : loaded_PBRMetallicRoughness Q x -> savable_PBRMetallicRoughness X x -> loaded_PBRMetallicRoughness QS x.
Proof.
  intros W V. unfold loaded_PBRMetallicRoughness in W. unfold savable_PBRMetallicRoughness in V. decompose [and] W. decompose [and] V. clear W V. unfold loaded_PBRMetallicRoughness.
  split; [apply loaded_ext_back; assumption|].
  split; [assumption|].
  split; [assumption|].
  split; [eapply opt2; [exact lback_TextureInfo|assumption|assumption]|].
  split; [assumption|].
  split; [assumption|].
  eapply opt2; [exact lback_TextureInfo|assumption|assumption].
Qed.
Lemma lback_Material x : loaded_Material Q x -> savable_Material X x -> loaded_Material QS x.
Proof.
  intros W V. unfold loaded_Material in W. unfold savable_Material in V. decompose [and] W. decompose [and] V. clear W V. unfold loaded_Material.
  split; [apply loaded_ext_back; assumption|].
  split; [assumption|].
  split; [assumption|].
  split; [eapply opt2; [exact lback_PBRMetallicRoughness|assumption|assumption]|].
  split; [eapply opt2; [exact lback_NormalTexture|assumption|assumption]|].
  split; [eapply opt2; [exact lback_OcclusionTexture|assumption|assumption]|].
  split; [eapply opt2; [exact lback_TextureInfo|assumption|assumption]|].
  split; [assumption|].
  split; [assumption|].
  assumption.
Qed.
Lemma lback_Texture x : loaded_Texture Q x -> savable_Texture X x -> loaded_Texture QS x.
Proof.
  intros W V. unfold loaded_Texture in W. unfold savable_Texture in V. decompose [and] W. decompose [and] V. clear W V. unfold loaded_Texture.
  split; [apply loaded_ext_back; assumption|].
  split; [assumption|].
  split; [assumption|].
  split; [assumption|].
  assumption.
Qed.
Lemma lback_Sampler x : loaded_Sampler Q x -> savable_Sampler X x -> loaded_Sampler QS x.
Proof.
  intros W V. unfold loaded_Sampler in W. unfold savable_Sampler in V. decompose [and] W. decompose [and] V. clear W V. unfold loaded_Sampler.
  split; [apply loaded_ext_back; assumption|].
  split; [assumption|].
  split; [assumption|].
  split; [assumption|].
  split; [assumption|].
  split; [assumption|].
  assumption.
Qed.
Lemma lback_Image x : loaded_Image Q x -> savable_Image X x -> loaded_Image QS x.
Proof.
  intros W V. unfold loaded_Image in W. unfold savable_Image in V. decompose [and] W. decompose [and] V. clear W V. unfold loaded_Image.
  split; [apply loaded_ext_back; assumption|].
  split; [assumption|].
  split; [assumption|].
  split; [assumption|].
  split; [assumption|].
  assumption.
Qed.
Lemma lback_AnimationSampler x : loaded_AnimationSampler Q x -> savable_AnimationSampler X x -> loaded_AnimationSampler QS x.
Proof.
  intros W V. unfold loaded_AnimationSampler in W. unfold savable_AnimationSampler in V. decompose [and] W. decompose [and] V. clear W V. unfold loaded_AnimationSampler.
  split; [apply loaded_ext_back; assumption|].
  split; [assumption|].
  split; [assumption|].
  split; [assumption|].
  assumption.
Qed.
Lemma lback_AnimationChannelTarget x : loaded_AnimationChannelTarget Q x -> savable_AnimationChannelTarget X x -> loaded_AnimationChannelTarget QS x.
Proof.
  intros W V. unfold loaded_AnimationChannelTarget in W. unfold savable_AnimationChannelTarget in V. decompose [and] W. decompose [and] V. clear W V. unfold loaded_AnimationChannelTarget.
  split; [apply loaded_ext_back; assumption|].
  split; [assumption|].
  split; [assumption|].
  assumption.
Qed.
Lemma lback_AnimationChannel x : loaded_AnimationChannel Q x -> savable_AnimationChannel X x -> loaded_AnimationChannel QS x.
Proof.
  intros W V. unfold loaded_AnimationChannel in W. unfold savable_AnimationChannel in V. decompose [and] W. decompose [and] V. clear W V. unfold loaded_AnimationChannel.
  split; [apply loaded_ext_back; assumption|].
  split; [assumption|].
  split; [assumption|].
  apply lback_AnimationChannelTarget; assumption.
Qed.
Lemma lback_Animation x : loaded_Animation Q x -> savable_Animation X x -> loaded_Animation QS x.
Proof.
  intros W V. unfold loaded_Animation in W. unfold savable_Animation in V. decompose [and] W. decompose [and] V. clear W V. unfold loaded_Animation.
  split; [apply loaded_ext_back; assumption|].
  split; [assumption|].
  split; [assumption|].
  split; [eapply opt2; [exact (fun l => Forall_opt2 _ _ _ l lback_AnimationChannel)|assumption|assumption]|].
  eapply opt2; [exact (fun l => Forall_opt2 _ _ _ l lback_AnimationSampler)|assumption|assumption].
Qed.
Lemma lback_Document x : loaded_Document Q x -> savable_Document X x -> loaded_Document QS x.
Proof.
  intros W V. unfold loaded_Document in W. unfold savable_Document in V. decompose [and] W. decompose [and] V. clear W V. unfold loaded_Document.
  split; [apply loaded_ext_back; assumption|].
  split; [assumption|].
  split; [assumption|].
  split; [assumption|].
  split; [eapply Forall_opt2; [exact lback_Accessor|assumption|assumption]|].
  split; [eapply Forall_opt2; [exact lback_Animation|assumption|assumption]|].
  split; [apply lback_Asset; assumption|].
  split; [eapply Forall_opt2; [exact lback_Buffer|assumption|assumption]|].
  split; [eapply Forall_opt2; [exact lback_BufferView|assumption|assumption]|].
  split; [eapply Forall_opt2; [exact lback_Camera|assumption|assumption]|].
  split; [eapply Forall_opt2; [exact lback_Image|assumption|assumption]|].
  split; [eapply Forall_opt2; [exact lback_Material|assumption|assumption]|].
  split; [eapply Forall_opt2; [exact lback_Mesh|assumption|assumption]|].
  split; [eapply Forall_opt2; [exact lback_Node|assumption|assumption]|].
  split; [eapply Forall_opt2; [exact lback_Sampler|assumption|assumption]|].
  split; [assumption|].
  split; [eapply Forall_opt2; [exact lback_Scene|assumption|assumption]|].
  split; [eapply Forall_opt2; [exact lback_Skin|assumption|assumption]|].
  eapply Forall_opt2; [exact lback_Texture|assumption|assumption].
Qed.
End Back.
