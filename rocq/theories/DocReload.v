(** What decoding does to used values, for the document types.  GENERATED by
    tools/gen_reload.py; do not edit. *)
From Verif Require Import Base BaseFacts Types Doc F64 SpecText JsonText Codec DocCodec SpecJson CodecProofs DocCodecBase DocCodecProofs Reload.

Section Params.
Context (F : float_lib) (X : ext_lib).
Ltac enum := first [apply st_uint | match goal with
  | |- stable ?c => exact (st_ignores c (fun j => dec c 0 j) (fun _ _ => eq_refl))
  | |- stable ?c => exact (st_ignores c (fun j => dec c CFloat j) (fun _ _ => eq_refl))
  | |- stable ?c => exact (st_ignores c (fun j => dec c AScalar j) (fun _ _ => eq_refl))
  end].

Lemma st_Asset : stable (c_Asset F X).
Proof. apply (st_ignores _ (fun j => dec_struct (fields_Asset F X) default_Asset j)). reflexivity. Qed.
Lemma st_SparseValues : stable (c_SparseValues F X).
Proof.
  apply (st_struct (fields_SparseValues F X) (fun _ => tt)).
  - unfold fields_SparseValues. repeat apply Forall_cons; try apply Forall_nil; cbn [st_field];
      repeat first [apply st_str | apply st_bool | apply st_int | apply st_f64 | apply st_any | apply st_ext | apply st_attrs | apply st_Asset | apply st_ptr | apply st_slice | apply st_oslice | enum].
  - lens_tac.
  - indep_tac.
  - keeps_tac.
  - intros x y A R. unfold fields_SparseValues in A. agree_tac A. apply ext_SparseValues; first [assumption | reflexivity].
  - reflexivity.
Qed.
Lemma st_SparseIndices : stable (c_SparseIndices F X).
Proof.
  apply (st_struct (fields_SparseIndices F X) (fun _ => tt)).
  - unfold fields_SparseIndices. repeat apply Forall_cons; try apply Forall_nil; cbn [st_field];
      repeat first [apply st_str | apply st_bool | apply st_int | apply st_f64 | apply st_any | apply st_ext | apply st_attrs | apply st_Asset | apply st_SparseValues | apply st_ptr | apply st_slice | apply st_oslice | enum].
  - lens_tac.
  - indep_tac.
  - keeps_tac.
  - intros x y A R. unfold fields_SparseIndices in A. agree_tac A. apply ext_SparseIndices; first [assumption | reflexivity].
  - reflexivity.
Qed.
Lemma st_Sparse : stable (c_Sparse F X).
Proof.
  apply (st_struct (fields_Sparse F X) (fun _ => tt)).
  - unfold fields_Sparse. repeat apply Forall_cons; try apply Forall_nil; cbn [st_field];
      repeat first [apply st_str | apply st_bool | apply st_int | apply st_f64 | apply st_any | apply st_ext | apply st_attrs | apply st_Asset | apply st_SparseValues | apply st_SparseIndices | apply st_ptr | apply st_slice | apply st_oslice | enum].
  - lens_tac.
  - indep_tac.
  - keeps_tac.
  - intros x y A R. unfold fields_Sparse in A. agree_tac A. apply ext_Sparse; first [assumption | reflexivity].
  - reflexivity.
Qed.
Lemma st_Accessor : stable (c_Accessor F X).
Proof.
  apply (st_struct (fields_Accessor F X) (fun _ => tt)).
  - unfold fields_Accessor. repeat apply Forall_cons; try apply Forall_nil; cbn [st_field];
      repeat first [apply st_str | apply st_bool | apply st_int | apply st_f64 | apply st_any | apply st_ext | apply st_attrs | apply st_Asset | apply st_SparseValues | apply st_SparseIndices | apply st_Sparse | apply st_ptr | apply st_slice | apply st_oslice | enum].
  - lens_tac.
  - indep_tac.
  - keeps_tac.
  - intros x y A R. unfold fields_Accessor in A. agree_tac A. apply ext_Accessor; first [assumption | reflexivity].
  - reflexivity.
Qed.
Lemma st_Buffer : stable (c_Buffer F X).
Proof.
  apply (st_struct (fields_Buffer F X) buf_Data).
  - unfold fields_Buffer. repeat apply Forall_cons; try apply Forall_nil; cbn [st_field];
      repeat first [apply st_str | apply st_bool | apply st_int | apply st_f64 | apply st_any | apply st_ext | apply st_attrs | apply st_Asset | apply st_SparseValues | apply st_SparseIndices | apply st_Sparse | apply st_Accessor | apply st_ptr | apply st_slice | apply st_oslice | enum].
  - lens_tac.
  - indep_tac.
  - keeps_tac.
  - intros x y A R. unfold fields_Buffer in A. agree_tac A. apply ext_Buffer; first [assumption | reflexivity].
  - reflexivity.
Qed.
Lemma st_BufferView : stable (c_BufferView F X).
Proof.
  apply (st_struct (fields_BufferView F X) (fun _ => tt)).
  - unfold fields_BufferView. repeat apply Forall_cons; try apply Forall_nil; cbn [st_field];
      repeat first [apply st_str | apply st_bool | apply st_int | apply st_f64 | apply st_any | apply st_ext | apply st_attrs | apply st_Asset | apply st_SparseValues | apply st_SparseIndices | apply st_Sparse | apply st_Accessor | apply st_Buffer | apply st_ptr | apply st_slice | apply st_oslice | enum].
  - lens_tac.
  - indep_tac.
  - keeps_tac.
  - intros x y A R. unfold fields_BufferView in A. agree_tac A. apply ext_BufferView; first [assumption | reflexivity].
  - reflexivity.
Qed.
Lemma st_Scene : stable (c_Scene F X).
Proof.
  apply (st_struct (fields_Scene F X) (fun _ => tt)).
  - unfold fields_Scene. repeat apply Forall_cons; try apply Forall_nil; cbn [st_field];
      repeat first [apply st_str | apply st_bool | apply st_int | apply st_f64 | apply st_any | apply st_ext | apply st_attrs | apply st_Asset | apply st_SparseValues | apply st_SparseIndices | apply st_Sparse | apply st_Accessor | apply st_Buffer | apply st_BufferView | apply st_ptr | apply st_slice | apply st_oslice | enum].
  - lens_tac.
  - indep_tac.
  - keeps_tac.
  - intros x y A R. unfold fields_Scene in A. agree_tac A. apply ext_Scene; first [assumption | reflexivity].
  - reflexivity.
Qed.
Lemma st_Node : stable (c_Node F X).
Proof. apply (st_ignores _ (fun j => dec_struct (fields_Node F X) default_Node j)). reflexivity. Qed.
Lemma st_Skin : stable (c_Skin F X).
Proof.
  apply (st_struct (fields_Skin F X) (fun _ => tt)).
  - unfold fields_Skin. repeat apply Forall_cons; try apply Forall_nil; cbn [st_field];
      repeat first [apply st_str | apply st_bool | apply st_int | apply st_f64 | apply st_any | apply st_ext | apply st_attrs | apply st_Asset | apply st_SparseValues | apply st_SparseIndices | apply st_Sparse | apply st_Accessor | apply st_Buffer | apply st_BufferView | apply st_Scene | apply st_Node | apply st_ptr | apply st_slice | apply st_oslice | enum].
  - lens_tac.
  - indep_tac.
  - keeps_tac.
  - intros x y A R. unfold fields_Skin in A. agree_tac A. apply ext_Skin; first [assumption | reflexivity].
  - reflexivity.
Qed.
Lemma st_Orthographic : stable (c_Orthographic F X).
Proof.
  apply (st_struct (fields_Orthographic F X) (fun _ => tt)).
  - unfold fields_Orthographic. repeat apply Forall_cons; try apply Forall_nil; cbn [st_field];
      repeat first [apply st_str | apply st_bool | apply st_int | apply st_f64 | apply st_any | apply st_ext | apply st_attrs | apply st_Asset | apply st_SparseValues | apply st_SparseIndices | apply st_Sparse | apply st_Accessor | apply st_Buffer | apply st_BufferView | apply st_Scene | apply st_Node | apply st_Skin | apply st_ptr | apply st_slice | apply st_oslice | enum].
  - lens_tac.
  - indep_tac.
  - keeps_tac.
  - intros x y A R. unfold fields_Orthographic in A. agree_tac A. apply ext_Orthographic; first [assumption | reflexivity].
  - reflexivity.
Qed.
Lemma st_Perspective : stable (c_Perspective F X).
Proof.
  apply (st_struct (fields_Perspective F X) (fun _ => tt)).
  - unfold fields_Perspective. repeat apply Forall_cons; try apply Forall_nil; cbn [st_field];
      repeat first [apply st_str | apply st_bool | apply st_int | apply st_f64 | apply st_any | apply st_ext | apply st_attrs | apply st_Asset | apply st_SparseValues | apply st_SparseIndices | apply st_Sparse | apply st_Accessor | apply st_Buffer | apply st_BufferView | apply st_Scene | apply st_Node | apply st_Skin | apply st_Orthographic | apply st_ptr | apply st_slice | apply st_oslice | enum].
  - lens_tac.
  - indep_tac.
  - keeps_tac.
  - intros x y A R. unfold fields_Perspective in A. agree_tac A. apply ext_Perspective; first [assumption | reflexivity].
  - reflexivity.
Qed.
Lemma st_Camera : stable (c_Camera F X).
Proof.
  apply (st_struct (fields_Camera F X) (fun _ => tt)).
  - unfold fields_Camera. repeat apply Forall_cons; try apply Forall_nil; cbn [st_field];
      repeat first [apply st_str | apply st_bool | apply st_int | apply st_f64 | apply st_any | apply st_ext | apply st_attrs | apply st_Asset | apply st_SparseValues | apply st_SparseIndices | apply st_Sparse | apply st_Accessor | apply st_Buffer | apply st_BufferView | apply st_Scene | apply st_Node | apply st_Skin | apply st_Orthographic | apply st_Perspective | apply st_ptr | apply st_slice | apply st_oslice | enum].
  - lens_tac.
  - indep_tac.
  - keeps_tac.
  - intros x y A R. unfold fields_Camera in A. agree_tac A. apply ext_Camera; first [assumption | reflexivity].
  - reflexivity.
Qed.
Lemma st_Primitive : stable (c_Primitive F X).
Proof.
  apply (st_struct (fields_Primitive F X) (fun _ => tt)).
  - unfold fields_Primitive. repeat apply Forall_cons; try apply Forall_nil; cbn [st_field];
      repeat first [apply st_str | apply st_bool | apply st_int | apply st_f64 | apply st_any | apply st_ext | apply st_attrs | apply st_Asset | apply st_SparseValues | apply st_SparseIndices | apply st_Sparse | apply st_Accessor | apply st_Buffer | apply st_BufferView | apply st_Scene | apply st_Node | apply st_Skin | apply st_Orthographic | apply st_Perspective | apply st_Camera | apply st_ptr | apply st_slice | apply st_oslice | enum].
  - lens_tac.
  - indep_tac.
  - keeps_tac.
  - intros x y A R. unfold fields_Primitive in A. agree_tac A. apply ext_Primitive; first [assumption | reflexivity].
  - reflexivity.
Qed.
Lemma st_Mesh : stable (c_Mesh F X).
Proof.
  apply (st_struct (fields_Mesh F X) (fun _ => tt)).
  - unfold fields_Mesh. repeat apply Forall_cons; try apply Forall_nil; cbn [st_field];
      repeat first [apply st_str | apply st_bool | apply st_int | apply st_f64 | apply st_any | apply st_ext | apply st_attrs | apply st_Asset | apply st_SparseValues | apply st_SparseIndices | apply st_Sparse | apply st_Accessor | apply st_Buffer | apply st_BufferView | apply st_Scene | apply st_Node | apply st_Skin | apply st_Orthographic | apply st_Perspective | apply st_Camera | apply st_Primitive | apply st_ptr | apply st_slice | apply st_oslice | enum].
  - lens_tac.
  - indep_tac.
  - keeps_tac.
  - intros x y A R. unfold fields_Mesh in A. agree_tac A. apply ext_Mesh; first [assumption | reflexivity].
  - reflexivity.
Qed.
Lemma st_TextureInfo : stable (c_TextureInfo F X).
Proof.
  apply (st_struct (fields_TextureInfo F X) (fun _ => tt)).
  - unfold fields_TextureInfo. repeat apply Forall_cons; try apply Forall_nil; cbn [st_field];
      repeat first [apply st_str | apply st_bool | apply st_int | apply st_f64 | apply st_any | apply st_ext | apply st_attrs | apply st_Asset | apply st_SparseValues | apply st_SparseIndices | apply st_Sparse | apply st_Accessor | apply st_Buffer | apply st_BufferView | apply st_Scene | apply st_Node | apply st_Skin | apply st_Orthographic | apply st_Perspective | apply st_Camera | apply st_Primitive | apply st_Mesh | apply st_ptr | apply st_slice | apply st_oslice | enum].
  - lens_tac.
  - indep_tac.
  - keeps_tac.
  - intros x y A R. unfold fields_TextureInfo in A. agree_tac A. apply ext_TextureInfo; first [assumption | reflexivity].
  - reflexivity.
Qed.
Lemma st_NormalTexture : stable (c_NormalTexture F X).
Proof. apply (st_ignores _ (fun j => dec_struct (fields_NormalTexture F X) default_NormalTexture j)). reflexivity. Qed.
Lemma st_OcclusionTexture : stable (c_OcclusionTexture F X).
Proof. apply (st_ignores _ (fun j => dec_struct (fields_OcclusionTexture F X) default_OcclusionTexture j)). reflexivity. Qed.
Lemma st_PBRMetallicRoughness : stable (c_PBRMetallicRoughness F X).
Proof. apply (st_ignores _ (fun j => dec_struct (fields_PBRMetallicRoughness F X) default_PBRMetallicRoughness j)). reflexivity. Qed.
Lemma st_Material : stable (c_Material F X).
Proof. apply (st_ignores _ (fun j => dec_struct (fields_Material F X) default_Material j)). reflexivity. Qed.
Lemma st_Texture : stable (c_Texture F X).
Proof.
  apply (st_struct (fields_Texture F X) (fun _ => tt)).
  - unfold fields_Texture. repeat apply Forall_cons; try apply Forall_nil; cbn [st_field];
      repeat first [apply st_str | apply st_bool | apply st_int | apply st_f64 | apply st_any | apply st_ext | apply st_attrs | apply st_Asset | apply st_SparseValues | apply st_SparseIndices | apply st_Sparse | apply st_Accessor | apply st_Buffer | apply st_BufferView | apply st_Scene | apply st_Node | apply st_Skin | apply st_Orthographic | apply st_Perspective | apply st_Camera | apply st_Primitive | apply st_Mesh | apply st_TextureInfo | apply st_NormalTexture | apply st_OcclusionTexture | apply st_PBRMetallicRoughness | apply st_Material | apply st_ptr | apply st_slice | apply st_oslice | enum].
  - lens_tac.
  - indep_tac.
  - keeps_tac.
  - intros x y A R. unfold fields_Texture in A. agree_tac A. apply ext_Texture; first [assumption | reflexivity].
  - reflexivity.
Qed.
Lemma st_Sampler : stable (c_Sampler F X).
Proof.
  apply (st_struct (fields_Sampler F X) (fun _ => tt)).
  - unfold fields_Sampler. repeat apply Forall_cons; try apply Forall_nil; cbn [st_field];
      repeat first [apply st_str | apply st_bool | apply st_int | apply st_f64 | apply st_any | apply st_ext | apply st_attrs | apply st_Asset | apply st_SparseValues | apply st_SparseIndices | apply st_Sparse | apply st_Accessor | apply st_Buffer | apply st_BufferView | apply st_Scene | apply st_Node | apply st_Skin | apply st_Orthographic | apply st_Perspective | apply st_Camera | apply st_Primitive | apply st_Mesh | apply st_TextureInfo | apply st_NormalTexture | apply st_OcclusionTexture | apply st_PBRMetallicRoughness | apply st_Material | apply st_Texture | apply st_ptr | apply st_slice | apply st_oslice | enum].
  - lens_tac.
  - indep_tac.
  - keeps_tac.
  - intros x y A R. unfold fields_Sampler in A. agree_tac A. apply ext_Sampler; first [assumption | reflexivity].
  - reflexivity.
Qed.
Lemma st_Image : stable (c_Image F X).
Proof.
  apply (st_struct (fields_Image F X) (fun _ => tt)).
  - unfold fields_Image. repeat apply Forall_cons; try apply Forall_nil; cbn [st_field];
      repeat first [apply st_str | apply st_bool | apply st_int | apply st_f64 | apply st_any | apply st_ext | apply st_attrs | apply st_Asset | apply st_SparseValues | apply st_SparseIndices | apply st_Sparse | apply st_Accessor | apply st_Buffer | apply st_BufferView | apply st_Scene | apply st_Node | apply st_Skin | apply st_Orthographic | apply st_Perspective | apply st_Camera | apply st_Primitive | apply st_Mesh | apply st_TextureInfo | apply st_NormalTexture | apply st_OcclusionTexture | apply st_PBRMetallicRoughness | apply st_Material | apply st_Texture | apply st_Sampler | apply st_ptr | apply st_slice | apply st_oslice | enum].
  - lens_tac.
  - indep_tac.
  - keeps_tac.
  - intros x y A R. unfold fields_Image in A. agree_tac A. apply ext_Image; first [assumption | reflexivity].
  - reflexivity.
Qed.
Lemma st_AnimationSampler : stable (c_AnimationSampler F X).
Proof.
  apply (st_struct (fields_AnimationSampler F X) (fun _ => tt)).
  - unfold fields_AnimationSampler. repeat apply Forall_cons; try apply Forall_nil; cbn [st_field];
      repeat first [apply st_str | apply st_bool | apply st_int | apply st_f64 | apply st_any | apply st_ext | apply st_attrs | apply st_Asset | apply st_SparseValues | apply st_SparseIndices | apply st_Sparse | apply st_Accessor | apply st_Buffer | apply st_BufferView | apply st_Scene | apply st_Node | apply st_Skin | apply st_Orthographic | apply st_Perspective | apply st_Camera | apply st_Primitive | apply st_Mesh | apply st_TextureInfo | apply st_NormalTexture | apply st_OcclusionTexture | apply st_PBRMetallicRoughness | apply st_Material | apply st_Texture | apply st_Sampler | apply st_Image | apply st_ptr | apply st_slice | apply st_oslice | enum].
  - lens_tac.
  - indep_tac.
  - keeps_tac.
  - intros x y A R. unfold fields_AnimationSampler in A. agree_tac A. apply ext_AnimationSampler; first [assumption | reflexivity].
  - reflexivity.
Qed.
Lemma st_AnimationChannelTarget : stable (c_AnimationChannelTarget F X).
Proof.
  apply (st_struct (fields_AnimationChannelTarget F X) (fun _ => tt)).
  - unfold fields_AnimationChannelTarget. repeat apply Forall_cons; try apply Forall_nil; cbn [st_field];
      repeat first [apply st_str | apply st_bool | apply st_int | apply st_f64 | apply st_any | apply st_ext | apply st_attrs | apply st_Asset | apply st_SparseValues | apply st_SparseIndices | apply st_Sparse | apply st_Accessor | apply st_Buffer | apply st_BufferView | apply st_Scene | apply st_Node | apply st_Skin | apply st_Orthographic | apply st_Perspective | apply st_Camera | apply st_Primitive | apply st_Mesh | apply st_TextureInfo | apply st_NormalTexture | apply st_OcclusionTexture | apply st_PBRMetallicRoughness | apply st_Material | apply st_Texture | apply st_Sampler | apply st_Image | apply st_AnimationSampler | apply st_ptr | apply st_slice | apply st_oslice | enum].
  - lens_tac.
  - indep_tac.
  - keeps_tac.
  - intros x y A R. unfold fields_AnimationChannelTarget in A. agree_tac A. apply ext_AnimationChannelTarget; first [assumption | reflexivity].
  - reflexivity.
Qed.
Lemma st_AnimationChannel : stable (c_AnimationChannel F X).
Proof.
  apply (st_struct (fields_AnimationChannel F X) (fun _ => tt)).
  - unfold fields_AnimationChannel. repeat apply Forall_cons; try apply Forall_nil; cbn [st_field];
      repeat first [apply st_str | apply st_bool | apply st_int | apply st_f64 | apply st_any | apply st_ext | apply st_attrs | apply st_Asset | apply st_SparseValues | apply st_SparseIndices | apply st_Sparse | apply st_Accessor | apply st_Buffer | apply st_BufferView | apply st_Scene | apply st_Node | apply st_Skin | apply st_Orthographic | apply st_Perspective | apply st_Camera | apply st_Primitive | apply st_Mesh | apply st_TextureInfo | apply st_NormalTexture | apply st_OcclusionTexture | apply st_PBRMetallicRoughness | apply st_Material | apply st_Texture | apply st_Sampler | apply st_Image | apply st_AnimationSampler | apply st_AnimationChannelTarget | apply st_ptr | apply st_slice | apply st_oslice | enum].
  - lens_tac.
  - indep_tac.
  - keeps_tac.
  - intros x y A R. unfold fields_AnimationChannel in A. agree_tac A. apply ext_AnimationChannel; first [assumption | reflexivity].
  - reflexivity.
Qed.
Lemma st_Animation : stable (c_Animation F X).
Proof.
  apply (st_struct (fields_Animation F X) (fun _ => tt)).
  - unfold fields_Animation. repeat apply Forall_cons; try apply Forall_nil; cbn [st_field];
      repeat first [apply st_str | apply st_bool | apply st_int | apply st_f64 | apply st_any | apply st_ext | apply st_attrs | apply st_Asset | apply st_SparseValues | apply st_SparseIndices | apply st_Sparse | apply st_Accessor | apply st_Buffer | apply st_BufferView | apply st_Scene | apply st_Node | apply st_Skin | apply st_Orthographic | apply st_Perspective | apply st_Camera | apply st_Primitive | apply st_Mesh | apply st_TextureInfo | apply st_NormalTexture | apply st_OcclusionTexture | apply st_PBRMetallicRoughness | apply st_Material | apply st_Texture | apply st_Sampler | apply st_Image | apply st_AnimationSampler | apply st_AnimationChannelTarget | apply st_AnimationChannel | apply st_ptr | apply st_slice | apply st_oslice | enum].
  - lens_tac.
  - indep_tac.
  - keeps_tac.
  - intros x y A R. unfold fields_Animation in A. agree_tac A. apply ext_Animation; first [assumption | reflexivity].
  - reflexivity.
Qed.
Lemma st_Document : stable (c_Document F X).
Proof.
  apply (st_struct (fields_Document F X) (fun _ => tt)).
  - unfold fields_Document. repeat apply Forall_cons; try apply Forall_nil; cbn [st_field];
      repeat first [apply st_str | apply st_bool | apply st_int | apply st_f64 | apply st_any | apply st_ext | apply st_attrs | apply st_Asset | apply st_SparseValues | apply st_SparseIndices | apply st_Sparse | apply st_Accessor | apply st_Buffer | apply st_BufferView | apply st_Scene | apply st_Node | apply st_Skin | apply st_Orthographic | apply st_Perspective | apply st_Camera | apply st_Primitive | apply st_Mesh | apply st_TextureInfo | apply st_NormalTexture | apply st_OcclusionTexture | apply st_PBRMetallicRoughness | apply st_Material | apply st_Texture | apply st_Sampler | apply st_Image | apply st_AnimationSampler | apply st_AnimationChannelTarget | apply st_AnimationChannel | apply st_Animation | apply st_ptr | apply st_slice | apply st_oslice | enum].
  - lens_tac.
  - indep_tac.
  - keeps_tac.
  - intros x y A R. unfold fields_Document in A. agree_tac A. apply ext_Document; first [assumption | reflexivity].
  - reflexivity.
Qed.
End Params.
