(** Well-formed documents (SpecJsonDoc) are documents of a Go program that JSON
    can carry (SpecGoDoc).  GENERATED by tools/gen_within.py; do not edit. *)
From Verif Require Import Base BaseFacts Types Doc F64 SpecText JsonText Codec SpecJson SpecJsonDoc CodecProofs SpecGo SpecGoDoc.

Lemma impl_opt {A} (P Q : A -> Prop) o : (forall x, P x -> Q x) -> opt P o -> opt Q o.
Proof. intros H. destruct o; cbn [opt]; auto. Qed.
Lemma impl_all {A} (P Q : A -> Prop) l : (forall x, P x -> Q x) -> Forall P l -> Forall Q l.
Proof. intros H. apply Forall_impl. exact H. Qed.
Lemma within_any v : forall n, wf_any n v -> go_any v /\ savable_any v.
Proof.
  induction v as [| | | |l IH|m IH] using any_ind'; intros n W; inversion W; subst.
  - split; constructor.
  - split; constructor.
  - match goal with H : float_ok _ |- _ => destruct H end. split; constructor; assumption.
  - split; constructor.
  - match goal with H : Forall _ l |- _ => rename H into Q end. rewrite Forall_forall in IH, Q.
    split; constructor; rewrite Forall_forall; intros x I; apply (IH x I _ (Q x I)).
  - match goal with H : Forall _ m |- _ => rename H into Q end. rewrite Forall_forall in IH, Q.
    split; constructor; rewrite Forall_forall; intros x I; apply (IH x I _ (proj2 (Q x I))).
Qed.
Lemma within_float f : float_ok f -> go_float f /\ finite f.
Proof. intros [H1 H2]. split; assumption. Qed.
Lemma within_array k l : farray k l -> go_array k l /\ Forall finite l.
Proof. intros [H1 H2]. split; [split; [exact H1|]|]; (eapply Forall_impl; [|exact H2]); intros f Hf; apply (within_float f Hf). Qed.
Lemma within_attrs m : wf_attrs m -> go_attrs m.
Proof. intros [_ H]. eapply Forall_impl; [|exact H]. intros p [_ Hp]. exact Hp. Qed.
Lemma both {A B C : Prop} : (A -> B /\ C) -> (A -> B) /\ (A -> C).
Proof. tauto. Qed.

Section Within.
Context (X : ext_lib) (n : nat).
Lemma within_ext m : wf_ext X n m -> go_ext X m /\ savable_ext X m.
Proof.
  intros [_ H]. split; (eapply Forall_impl; [|exact H]); intros [k e] [_ He]; cbn [fst snd] in *; destruct e as [j|v].
  - exists n. exact (proj1 He).
  - destruct He as (j & E & W). cbn [go_extv]. rewrite E. exists n. exact (proj1 W).
  - exact I.
  - destruct He as (j & E & W). exists j. exact E.
Qed.
Ltac leaf := first [ assumption | tauto
  | match goal with H : wf_ext X n ?m |- _ ?m => apply (within_ext m H) end
  | match goal with H : wf_any n ?v |- _ ?v => apply (within_any v n H) end
  | match goal with H : float_ok ?v |- _ ?v => apply (within_float v H) end
  | match goal with H : farray _ ?v |- _ ?v => apply (within_array _ v H) end
  | match goal with H : wf_attrs ?v |- _ ?v => apply (within_attrs v H) end ].
Ltac part := first [ leaf
  | match goal with H : Forall _ ?l |- Forall _ ?l => refine (impl_all _ _ l _ H); clear; intros ? ?; part end
  | match goal with H : opt _ ?o |- opt _ ?o => refine (impl_opt _ _ o _ H); clear; intros ? ?; part end ].
Lemma within_Asset x : wf_Asset X n x -> go_Asset X x /\ savable_Asset X x.
Proof. intros W. unfold wf_Asset in W. decompose [and] W. clear W. unfold go_Asset, savable_Asset. split; repeat match goal with |- _ /\ _ => split end; part. Qed.
Lemma within_SparseValues x : wf_SparseValues X n x -> go_SparseValues X x /\ savable_SparseValues X x.
Proof. intros W. unfold wf_SparseValues in W. decompose [and] W. clear W. unfold go_SparseValues, savable_SparseValues. split; repeat match goal with |- _ /\ _ => split end; part. Qed.
Lemma within_SparseIndices x : wf_SparseIndices X n x -> go_SparseIndices X x /\ savable_SparseIndices X x.
Proof. intros W. unfold wf_SparseIndices in W. decompose [and] W. clear W. unfold go_SparseIndices, savable_SparseIndices. split; repeat match goal with |- _ /\ _ => split end; part. Qed.
Ltac leaf ::= first [ assumption | tauto
  | match goal with H : wf_ext X n ?m |- _ ?m => apply (within_ext m H) end
  | match goal with H : wf_any n ?v |- _ ?v => apply (within_any v n H) end
  | match goal with H : float_ok ?v |- _ ?v => apply (within_float v H) end
  | match goal with H : farray _ ?v |- _ ?v => apply (within_array _ v H) end
  | match goal with H : wf_attrs ?v |- _ ?v => apply (within_attrs v H) end
  | match goal with H : wf_SparseValues X n ?v |- _ ?v => apply (within_SparseValues v H) end
  | match goal with H : wf_SparseIndices X n ?v |- _ ?v => apply (within_SparseIndices v H) end ].
Lemma within_Sparse x : wf_Sparse X n x -> go_Sparse X x /\ savable_Sparse X x.
Proof. intros W. unfold wf_Sparse in W. decompose [and] W. clear W. unfold go_Sparse, savable_Sparse. split; repeat match goal with |- _ /\ _ => split end; part. Qed.
Ltac leaf ::= first [ assumption | tauto
  | match goal with H : wf_ext X n ?m |- _ ?m => apply (within_ext m H) end
  | match goal with H : wf_any n ?v |- _ ?v => apply (within_any v n H) end
  | match goal with H : float_ok ?v |- _ ?v => apply (within_float v H) end
  | match goal with H : farray _ ?v |- _ ?v => apply (within_array _ v H) end
  | match goal with H : wf_attrs ?v |- _ ?v => apply (within_attrs v H) end
  | match goal with H : wf_Sparse X n ?v |- _ ?v => apply (within_Sparse v H) end ].
Lemma within_Accessor x : wf_Accessor X n x -> go_Accessor X x /\ savable_Accessor X x.
Proof. intros W. unfold wf_Accessor in W. decompose [and] W. clear W. unfold go_Accessor, savable_Accessor. split; repeat match goal with |- _ /\ _ => split end; part. Qed.
Lemma within_Buffer x : wf_Buffer X n x -> go_Buffer X x /\ savable_Buffer X x.
Proof. intros W. unfold wf_Buffer in W. decompose [and] W. clear W. unfold go_Buffer, savable_Buffer. split; repeat match goal with |- _ /\ _ => split end; part. Qed.
Lemma within_BufferView x : wf_BufferView X n x -> go_BufferView X x /\ savable_BufferView X x.
Proof. intros W. unfold wf_BufferView in W. decompose [and] W. clear W. unfold go_BufferView, savable_BufferView. split; repeat match goal with |- _ /\ _ => split end; part. Qed.
Lemma within_Scene x : wf_Scene X n x -> go_Scene X x /\ savable_Scene X x.
Proof. intros W. unfold wf_Scene in W. decompose [and] W. clear W. unfold go_Scene, savable_Scene. split; repeat match goal with |- _ /\ _ => split end; part. Qed.
Lemma within_Node x : wf_Node X n x -> go_Node X x /\ savable_Node X x.
Proof. intros W. unfold wf_Node in W. decompose [and] W. clear W. unfold go_Node, savable_Node. split; repeat match goal with |- _ /\ _ => split end; part. Qed.
Lemma within_Skin x : wf_Skin X n x -> go_Skin X x /\ savable_Skin X x.
Proof. intros W. unfold wf_Skin in W. decompose [and] W. clear W. unfold go_Skin, savable_Skin. split; repeat match goal with |- _ /\ _ => split end; part. Qed.
Lemma within_Orthographic x : wf_Orthographic X n x -> go_Orthographic X x /\ savable_Orthographic X x.
Proof. intros W. unfold wf_Orthographic in W. decompose [and] W. clear W. unfold go_Orthographic, savable_Orthographic. split; repeat match goal with |- _ /\ _ => split end; part. Qed.
Lemma within_Perspective x : wf_Perspective X n x -> go_Perspective X x /\ savable_Perspective X x.
Proof. intros W. unfold wf_Perspective in W. decompose [and] W. clear W. unfold go_Perspective, savable_Perspective. split; repeat match goal with |- _ /\ _ => split end; part. Qed.
Ltac leaf ::= first [ assumption | tauto
  | match goal with H : wf_ext X n ?m |- _ ?m => apply (within_ext m H) end
  | match goal with H : wf_any n ?v |- _ ?v => apply (within_any v n H) end
  | match goal with H : float_ok ?v |- _ ?v => apply (within_float v H) end
  | match goal with H : farray _ ?v |- _ ?v => apply (within_array _ v H) end
  | match goal with H : wf_attrs ?v |- _ ?v => apply (within_attrs v H) end
  | match goal with H : wf_Orthographic X n ?v |- _ ?v => apply (within_Orthographic v H) end
  | match goal with H : wf_Perspective X n ?v |- _ ?v => apply (within_Perspective v H) end ].
Lemma within_Camera x : wf_Camera X n x -> go_Camera X x /\ savable_Camera X x.
Proof. intros W. unfold wf_Camera in W. decompose [and] W. clear W. unfold go_Camera, savable_Camera. split; repeat match goal with |- _ /\ _ => split end; part. Qed.
Lemma within_Primitive x : wf_Primitive X n x -> go_Primitive X x /\ savable_Primitive X x.
Proof. intros W. unfold wf_Primitive in W. decompose [and] W. clear W. unfold go_Primitive, savable_Primitive. split; repeat match goal with |- _ /\ _ => split end; part. Qed.
Ltac leaf ::= first [ assumption | tauto
  | match goal with H : wf_ext X n ?m |- _ ?m => apply (within_ext m H) end
  | match goal with H : wf_any n ?v |- _ ?v => apply (within_any v n H) end
  | match goal with H : float_ok ?v |- _ ?v => apply (within_float v H) end
  | match goal with H : farray _ ?v |- _ ?v => apply (within_array _ v H) end
  | match goal with H : wf_attrs ?v |- _ ?v => apply (within_attrs v H) end
  | match goal with H : wf_Primitive X n ?v |- _ ?v => apply (within_Primitive v H) end ].
Lemma within_Mesh x : wf_Mesh X n x -> go_Mesh X x /\ savable_Mesh X x.
Proof. intros W. unfold wf_Mesh in W. decompose [and] W. clear W. unfold go_Mesh, savable_Mesh. split; repeat match goal with |- _ /\ _ => split end; part. Qed.
Lemma within_TextureInfo x : wf_TextureInfo X n x -> go_TextureInfo X x /\ savable_TextureInfo X x.
Proof. intros W. unfold wf_TextureInfo in W. decompose [and] W. clear W. unfold go_TextureInfo, savable_TextureInfo. split; repeat match goal with |- _ /\ _ => split end; part. Qed.
Lemma within_NormalTexture x : wf_NormalTexture X n x -> go_NormalTexture X x /\ savable_NormalTexture X x.
Proof. intros W. unfold wf_NormalTexture in W. decompose [and] W. clear W. unfold go_NormalTexture, savable_NormalTexture. split; repeat match goal with |- _ /\ _ => split end; part. Qed.
Lemma within_OcclusionTexture x : wf_OcclusionTexture X n x -> go_OcclusionTexture X x /\ savable_OcclusionTexture X x.
Proof. intros W. unfold wf_OcclusionTexture in W. decompose [and] W. clear W. unfold go_OcclusionTexture, savable_OcclusionTexture. split; repeat match goal with |- _ /\ _ => split end; part. Qed.
Ltac leaf ::= first [ assumption | tauto
  | match goal with H : wf_ext X n ?m |- _ ?m => apply (within_ext m H) end
  | match goal with H : wf_any n ?v |- _ ?v => apply (within_any v n H) end
  | match goal with H : float_ok ?v |- _ ?v => apply (within_float v H) end
  | match goal with H : farray _ ?v |- _ ?v => apply (within_array _ v H) end
  | match goal with H : wf_attrs ?v |- _ ?v => apply (within_attrs v H) end
  | match goal with H : wf_TextureInfo X n ?v |- _ ?v => apply (within_TextureInfo v H) end ].
Lemma within_PBRMetallicRoughness x : wf_PBRMetallicRoughness X n x -> go_PBRMetallicRoughness X x /\ savable_PBRMetallicRoughness X x.
Proof. intros W. unfold wf_PBRMetallicRoughness in W. decompose [and] W. clear W. unfold go_PBRMetallicRoughness, savable_PBRMetallicRoughness. split; repeat match goal with |- _ /\ _ => split end; part. Qed.
Ltac leaf ::= first [ assumption | tauto
  | match goal with H : wf_ext X n ?m |- _ ?m => apply (within_ext m H) end
  | match goal with H : wf_any n ?v |- _ ?v => apply (within_any v n H) end
  | match goal with H : float_ok ?v |- _ ?v => apply (within_float v H) end
  | match goal with H : farray _ ?v |- _ ?v => apply (within_array _ v H) end
  | match goal with H : wf_attrs ?v |- _ ?v => apply (within_attrs v H) end
  | match goal with H : wf_TextureInfo X n ?v |- _ ?v => apply (within_TextureInfo v H) end
  | match goal with H : wf_NormalTexture X n ?v |- _ ?v => apply (within_NormalTexture v H) end
  | match goal with H : wf_OcclusionTexture X n ?v |- _ ?v => apply (within_OcclusionTexture v H) end
  | match goal with H : wf_PBRMetallicRoughness X n ?v |- _ ?v => apply (within_PBRMetallicRoughness v H) end ].
Lemma within_Material x : wf_Material X n x -> go_Material X x /\ savable_Material X x.
Proof. intros W. unfold wf_Material in W. decompose [and] W. clear W. unfold go_Material, savable_Material. split; repeat match goal with |- _ /\ _ => split end; part. Qed.
Lemma within_Texture x : wf_Texture X n x -> go_Texture X x /\ savable_Texture X x.
Proof. intros W. unfold wf_Texture in W. decompose [and] W. clear W. unfold go_Texture, savable_Texture. split; repeat match goal with |- _ /\ _ => split end; part. Qed.
Lemma within_Sampler x : wf_Sampler X n x -> go_Sampler X x /\ savable_Sampler X x.
Proof. intros W. unfold wf_Sampler in W. decompose [and] W. clear W. unfold go_Sampler, savable_Sampler. split; repeat match goal with |- _ /\ _ => split end; part. Qed.
Lemma within_Image x : wf_Image X n x -> go_Image X x /\ savable_Image X x.
Proof. intros W. unfold wf_Image in W. decompose [and] W. clear W. unfold go_Image, savable_Image. split; repeat match goal with |- _ /\ _ => split end; part. Qed.
Lemma within_AnimationSampler x : wf_AnimationSampler X n x -> go_AnimationSampler X x /\ savable_AnimationSampler X x.
Proof. intros W. unfold wf_AnimationSampler in W. decompose [and] W. clear W. unfold go_AnimationSampler, savable_AnimationSampler. split; repeat match goal with |- _ /\ _ => split end; part. Qed.
Lemma within_AnimationChannelTarget x : wf_AnimationChannelTarget X n x -> go_AnimationChannelTarget X x /\ savable_AnimationChannelTarget X x.
Proof. intros W. unfold wf_AnimationChannelTarget in W. decompose [and] W. clear W. unfold go_AnimationChannelTarget, savable_AnimationChannelTarget. split; repeat match goal with |- _ /\ _ => split end; part. Qed.
Ltac leaf ::= first [ assumption | tauto
  | match goal with H : wf_ext X n ?m |- _ ?m => apply (within_ext m H) end
  | match goal with H : wf_any n ?v |- _ ?v => apply (within_any v n H) end
  | match goal with H : float_ok ?v |- _ ?v => apply (within_float v H) end
  | match goal with H : farray _ ?v |- _ ?v => apply (within_array _ v H) end
  | match goal with H : wf_attrs ?v |- _ ?v => apply (within_attrs v H) end
  | match goal with H : wf_AnimationChannelTarget X n ?v |- _ ?v => apply (within_AnimationChannelTarget v H) end ].
Lemma within_AnimationChannel x : wf_AnimationChannel X n x -> go_AnimationChannel X x /\ savable_AnimationChannel X x.
Proof. intros W. unfold wf_AnimationChannel in W. decompose [and] W. clear W. unfold go_AnimationChannel, savable_AnimationChannel. split; repeat match goal with |- _ /\ _ => split end; part. Qed.
Ltac leaf ::= first [ assumption | tauto
  | match goal with H : wf_ext X n ?m |- _ ?m => apply (within_ext m H) end
  | match goal with H : wf_any n ?v |- _ ?v => apply (within_any v n H) end
  | match goal with H : float_ok ?v |- _ ?v => apply (within_float v H) end
  | match goal with H : farray _ ?v |- _ ?v => apply (within_array _ v H) end
  | match goal with H : wf_attrs ?v |- _ ?v => apply (within_attrs v H) end
  | match goal with H : wf_AnimationSampler X n ?v |- _ ?v => apply (within_AnimationSampler v H) end
  | match goal with H : wf_AnimationChannel X n ?v |- _ ?v => apply (within_AnimationChannel v H) end ].
Lemma within_Animation x : wf_Animation X n x -> go_Animation X x /\ savable_Animation X x.
Proof. intros W. unfold wf_Animation in W. decompose [and] W. clear W. unfold go_Animation, savable_Animation. split; repeat match goal with |- _ /\ _ => split end; part. Qed.
Ltac leaf ::= first [ assumption | tauto
  | match goal with H : wf_ext X n ?m |- _ ?m => apply (within_ext m H) end
  | match goal with H : wf_any n ?v |- _ ?v => apply (within_any v n H) end
  | match goal with H : float_ok ?v |- _ ?v => apply (within_float v H) end
  | match goal with H : farray _ ?v |- _ ?v => apply (within_array _ v H) end
  | match goal with H : wf_attrs ?v |- _ ?v => apply (within_attrs v H) end
  | match goal with H : wf_Asset X n ?v |- _ ?v => apply (within_Asset v H) end
  | match goal with H : wf_Accessor X n ?v |- _ ?v => apply (within_Accessor v H) end
  | match goal with H : wf_Buffer X n ?v |- _ ?v => apply (within_Buffer v H) end
  | match goal with H : wf_BufferView X n ?v |- _ ?v => apply (within_BufferView v H) end
  | match goal with H : wf_Scene X n ?v |- _ ?v => apply (within_Scene v H) end
  | match goal with H : wf_Node X n ?v |- _ ?v => apply (within_Node v H) end
  | match goal with H : wf_Skin X n ?v |- _ ?v => apply (within_Skin v H) end
  | match goal with H : wf_Camera X n ?v |- _ ?v => apply (within_Camera v H) end
  | match goal with H : wf_Mesh X n ?v |- _ ?v => apply (within_Mesh v H) end
  | match goal with H : wf_Material X n ?v |- _ ?v => apply (within_Material v H) end
  | match goal with H : wf_Texture X n ?v |- _ ?v => apply (within_Texture v H) end
  | match goal with H : wf_Sampler X n ?v |- _ ?v => apply (within_Sampler v H) end
  | match goal with H : wf_Image X n ?v |- _ ?v => apply (within_Image v H) end
  | match goal with H : wf_Animation X n ?v |- _ ?v => apply (within_Animation v H) end ].
Lemma within_Document x : wf_Document X n x -> go_Document X x /\ savable_Document X x.
Proof. intros W. unfold wf_Document in W. decompose [and] W. clear W. unfold go_Document, savable_Document. split; repeat match goal with |- _ /\ _ => split end; part. Qed.
End Within.
