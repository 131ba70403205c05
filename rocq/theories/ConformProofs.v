(** What a JSON that conforms to the schema says has the values the schema asks
    for. *)
From Verif Require Import Base BaseFacts Types Doc SpecText SpecString JsonText JsonStringProofs Codec SpecJson
  SpecSchema SchemaProofs SchemaAccept SpecMeaning MeaningProofs MeaningUnique PropsString.

Notation ok := (conforms (fun _ => True) unrelated).
(** All that conforms to [s] and says [a] gives [P a]. *)
Definition gives {A} (r : meaning A) (s : schema) (P : A -> Prop) : Prop :=
  forall n j a, wf_json n j -> ok s j -> r a j -> P a.

Lemma gv_int lo : gives m_int (SInt lo) (fun n => lo <= n).
Proof.
  intros n j a _ C (lit & -> & D). inversion C as [| | | | |? ? k Dk L _| | | | | |]; subst. rewrite (decimal_func _ _ _ D Dk). exact L.
Qed.
Lemma gv_any {A} (r : meaning A) s : gives r s (fun _ => True).
Proof. intros n j a _ _ _. exact I. Qed.
Lemma gv_code {A} (tbl : list (A * Z)) l (P : A -> Prop) : (forall a n, In (a, n) tbl -> In n l -> P a) -> gives (m_code tbl) (SEnumZ l) P.
Proof.
  intros H n j a _ C (k & I & lit & -> & D). inversion C as [| | | | | |? ? k' Dk Ik| | | | |]; subst. rewrite (decimal_func _ _ _ D Dk) in I. exact (H a k' I Ik).
Qed.
Lemma gv_some {A} (r : meaning A) s (P : A -> Prop) : gives r s P -> gives (m_some r) s (present P).
Proof. intros H n j o W C (a & -> & R). exact (H n j a W C R). Qed.
Lemma gv_opt {A} (r : meaning A) s (P : A -> Prop) : gives r s P -> gives (m_some r) s (opt P).
Proof. intros H n j o W C (a & -> & R). exact (H n j a W C R). Qed.
Lemma gv_list {A} (r : meaning A) lo s (P : A -> Prop) : gives r s P -> gives (m_list r) (SList lo s) (fun l => (lo <= List.length l)%nat /\ Forall P l).
Proof.
  intros H n j l W C (js & -> & R). inversion C as [| | | | | | | |? ? ? L FJ| | |]; subst. inversion W as [| | | |k ? FW|]; subst.
  split; [replace (List.length l) with (List.length js); [exact L|clear -R; induction R; cbn; congruence]|]. clear C W L. induction R as [|a j l js Ra R IH]; constructor.
  - exact (H k j a (Forall_inv FW) (Forall_inv FJ) Ra).
  - exact (IH (Forall_inv_tail FJ) (Forall_inv_tail FW)).
Qed.
Lemma gv_dict {A} (r : meaning A) s (P : A -> Prop) : gives r s P ->
  gives (m_dict (fun _ => r)) (SDict 1 s) (fun m => m <> [] /\ Forall (fun p => P (snd p)) m).
Proof.
  intros H n j m W C (ms & -> & S & Y & N). inversion C as [| | | | | | | | | |? ? ? L FJ|]; subst. inversion W as [| | | | |k ? FW]; subst. split.
  - intros ->. destruct ms as [|[raw v] ms]; [cbn in L; lia|]. pose proof (proj1 (Forall_inv FW)) as B. destruct (unquote_str_total _ B) as [q U].
    apply (says_unquote _ _ B) in U. exact (Forall_inv (N q (fun x => x)) U).
  - apply Forall_forall. intros [q a] I. destruct (Y q a I) as (v & M & R). destruct (member_in_list _ _ _ M) as [raw Ir].
    rewrite Forall_forall in FJ, FW. exact (H k v a (proj2 (FW _ Ir)) (FJ _ Ir) R).
Qed.

(** The members of an object. *)
Lemma gv_member {T A} req opts (es : list (property T)) name (get : T -> A) r absent s (P : A -> Prop) n j x :
  wf_json n j -> ok (SObj req opts) j -> m_obj es x j -> NoDup (map fst (req ++ opts)) ->
  In (Prp name get r absent) es -> In (name, s) (req ++ opts) -> gives r s P -> P (get x) \/ absent (get x).
Proof.
  intros W C (ms & -> & H) ND Ie Is G. rewrite Forall_forall in H. destruct (H _ Ie) as [(v & M & R)|(_ & Z)]; [left|right; exact Z].
  inversion C as [| | | | | | | | | | |? ? ? _ _ FJ]; subst. inversion W as [| | | | |k ? FW]; subst.
  destruct M as (a & raw & b & -> & S & _). rewrite Forall_forall in FJ, FW. assert (I : In (raw, v) (a ++ (raw, v) :: b)) by (apply in_or_app; right; left; reflexivity).
  destruct (FW _ I) as [B Wv]. apply (says_unquote _ _ B) in S. destruct (FJ _ I) as (q & U & Q). cbn [fst snd] in *. rewrite S in U. injection U as <-.
  destruct Q as [(s' & I' & Cv)|Q].
  - assert (s' = s) as ->; [|exact (G k v (get x) Wv Cv R)].
    clear -ND I' Is. revert ND I' Is. generalize (req ++ opts). induction l as [|[q t] l IH]; intros ND I' Is; [destruct I'|]. cbn [map fst] in ND. inversion ND; subst.
    destruct I' as [E|I'], Is as [E'|Is].
    + congruence.
    + injection E as -> ->. exfalso. match goal with H : ~ In _ _ |- _ => apply H end. exact (in_map fst _ _ Is).
    + injection E' as -> ->. exfalso. match goal with H : ~ In _ _ |- _ => apply H end. exact (in_map fst _ _ I').
    + apply IH; assumption.
  - exfalso. unfold unrelated in Q. rewrite Forall_forall in Q. apply (in_map fst) in Is. specialize (Q _ Is). cbn [fst] in Q. rewrite fold_eq_refl in Q. discriminate.
Qed.

Lemma gv_field {T A} req opts (es : list (property T)) name (get : T -> A) r absent s (P Q : A -> Prop) n j x :
  wf_json n j -> ok (SObj req opts) j -> m_obj es x j -> NoDup (map fst (req ++ opts)) ->
  In (Prp name get r absent) es -> In (name, s) (req ++ opts) -> gives r s P ->
  (forall a, P a -> Q a) -> (forall a, absent a -> Q a) -> Q (get x).
Proof. intros W C M ND Ie Is G HP HA. destruct (gv_member req opts es name get r absent s P n j x W C M ND Ie Is G) as [H|H]; auto. Qed.

Ltac inn := cbn [app extensible s_property s_named In]; repeat first [left; reflexivity | right].
Ltac nodup := cbn [app s_property s_named map fst]; repeat (constructor; [cbn [In]; intuition discriminate|]); constructor.
Ltac field nm get G :=
  match goal with M : m_obj ?es ?x ?j, C : ok (SObj ?req ?opts) ?j, W : wf_json ?n ?j |- _ =>
    pattern (get x);
    match goal with |- ?Q _ => refine (gv_field req opts es nm%string get _ _ _ _ Q n j x W C M _ _ _ G _ _); [nodup|inn|inn| |] end end;
  unfold needed, is_zero, nothing, empty_list, index, opt, present in *;
  try solve [intros; subst; cbn; first [assumption | tauto | lia | contradiction]];
  try solve [intros a Ha; rewrite Ha; cbn; auto; try lia]; try solve [intros ? []]; try solve [tauto].

Local Open Scope string_scope.
Local Open Scope list_scope.
Local Open Scope Z_scope.
Section Types.
Context (F : float_lib) (X : ext_lib).
Ltac start := let n := fresh "n" in let j := fresh "j" in intros n j ?x W C M.
Lemma gv_sparse_values : gives (m_sparse_values F X) s_sparse_values (fun v => index (spv_BufferView v) /\ 0 <= spv_ByteOffset v).
Proof.
  start. unfold m_sparse_values, s_sparse_values in *. split.
  - field "bufferView" spv_BufferView (gv_int 0).
  - field "byteOffset" spv_ByteOffset (gv_int 0).
Qed.
Lemma gv_index_type : gives m_componentType (SEnumZ [5121; 5123; 5125]) (fun c => In c [CUbyte; CUshort; CUint]).
Proof.
  apply gv_code. intros c n I J. cbn [In] in *.
  repeat match goal with H : _ \/ _ |- _ => destruct H | H : (_, _) = (_, _) |- _ => injection H as <- <- | H : False |- _ => destruct H end; try tauto; try discriminate.
Qed.
Lemma gv_sparse_indices : gives (m_sparse_indices F X) s_sparse_indices
  (fun v => index (spi_BufferView v) /\ 0 <= spi_ByteOffset v /\ In (spi_ComponentType v) [CUbyte; CUshort; CUint]).
Proof.
  start. unfold m_sparse_indices, s_sparse_indices in *. split; [|split].
  - field "bufferView" spi_BufferView (gv_int 0).
  - field "byteOffset" spi_ByteOffset (gv_int 0).
  - field "componentType" spi_ComponentType gv_index_type.
Qed.
Lemma gv_sparse : gives (m_sparse F X) s_sparse r_sparse.
Proof.
  start. unfold m_sparse, s_sparse, r_sparse in *.
  assert (I : index (spi_BufferView (spa_Indices x)) /\ 0 <= spi_ByteOffset (spa_Indices x) /\ In (spi_ComponentType (spa_Indices x)) [CUbyte; CUshort; CUint])
    by (field "indices" spa_Indices gv_sparse_indices).
  assert (V : index (spv_BufferView (spa_Values x)) /\ 0 <= spv_ByteOffset (spa_Values x)) by (field "values" spa_Values gv_sparse_values).
  split; [field "count" spa_Count (gv_int 1)|]. tauto.
Qed.
(** Component types and shapes that glTF has. *)
Lemma gv_accessor : gives (m_accessor F X) s_accessor r_accessor.
Proof.
  start. unfold m_accessor, s_accessor, r_accessor in *. split; [|split; [|split]].
  - field "bufferView" acr_BufferView (gv_opt _ _ _ (gv_int 0)).
  - field "byteOffset" acr_ByteOffset (gv_int 0).
  - field "count" acr_Count (gv_int 1).
  - field "sparse" acr_Sparse (gv_opt _ _ _ gv_sparse).
Qed.
Lemma gv_buffer : gives (m_buffer F X) s_buffer r_buffer.
Proof. start. unfold m_buffer, s_buffer, r_buffer in *. field "byteLength" buf_ByteLength (gv_int 1). Qed.
Lemma gv_target : gives m_target (SEnumZ [34962; 34963]) (fun t => In t [34962; 34963]).
Proof.
  apply gv_code. intros c n I J. cbn [In] in *.
  repeat match goal with H : _ \/ _ |- _ => destruct H | H : (_, _) = (_, _) |- _ => injection H as <- <- | H : False |- _ => destruct H end; try tauto; try discriminate.
Qed.
Lemma gv_bufferView : gives (m_bufferView F X) s_bufferView r_bufferView.
Proof.
  start. unfold m_bufferView, s_bufferView, r_bufferView in *. split; [|split; [|split; [|split]]].
  - field "buffer" bvw_Buffer (gv_int 0).
  - field "byteOffset" bvw_ByteOffset (gv_int 0).
  - field "byteLength" bvw_ByteLength (gv_int 1).
  - field "byteStride" bvw_ByteStride (gv_int 4).
  - field "target" bvw_Target gv_target.
Qed.
Lemma gv_ids lo : gives (m_list m_int) (SList lo s_id) (fun l => Forall index l).
Proof. start. exact (proj2 (gv_list _ lo _ _ (gv_int 0) _ _ _ W C M)). Qed.
Lemma gv_scene : gives (m_scene F X) s_scene r_scene.
Proof. start. unfold m_scene, s_scene, r_scene in *. field "nodes" scn_Nodes (gv_ids 1). Qed.
Lemma gv_node : gives (m_node F X) s_node r_node.
Proof.
  start. unfold m_node, s_node, r_node in *. split; [|split; [|split]].
  - field "camera" nod_Camera (gv_opt _ _ _ (gv_int 0)).
  - field "children" nod_Children (gv_ids 1).
  - field "skin" nod_Skin (gv_opt _ _ _ (gv_int 0)).
  - field "mesh" nod_Mesh (gv_opt _ _ _ (gv_int 0)).
Qed.
Lemma gv_filled {A} (r : meaning A) s (P : A -> Prop) : gives r s P -> gives (m_list r) (SList 1 s) (fun l => l <> [] /\ Forall P l).
Proof. intros H. start. destruct (gv_list _ 1 _ _ H _ _ _ W C M) as [L Q]. split; [intros ->; cbn in L; lia|exact Q]. Qed.
Lemma gv_skin : gives (m_skin F X) s_skin r_skin.
Proof.
  start. unfold m_skin, s_skin, r_skin in *. split; [|split].
  - field "inverseBindMatrices" skn_InverseBindMatrices (gv_opt _ _ _ (gv_int 0)).
  - field "skeleton" skn_Skeleton (gv_opt _ _ _ (gv_int 0)).
  - field "joints" skn_Joints (gv_some _ _ _ (gv_filled _ _ _ (gv_int 0))).
Qed.
Lemma gv_attributes : gives m_attributes (SDict 1 s_id) filled_attrs.
Proof. exact (gv_some _ _ _ (gv_dict _ _ _ (gv_int 0))). Qed.
Lemma gv_primitive : gives (m_primitive F X) s_primitive r_primitive.
Proof.
  start. unfold m_primitive, s_primitive, r_primitive in *. split; [|split; [|split]].
  - field "attributes" pri_Attributes gv_attributes.
  - field "indices" pri_Indices (gv_opt _ _ _ (gv_int 0)).
  - field "material" pri_Material (gv_opt _ _ _ (gv_int 0)).
  - field "targets" pri_Targets (gv_list _ 1 _ _ gv_attributes).
Qed.
Lemma gv_all {A} (r : meaning A) s (P : A -> Prop) : gives r s P -> gives (m_all r) (SList 1 s) (fun l => l <> [] /\ Forall (present P) l).
Proof. intros H. exact (gv_filled _ _ _ (gv_some _ _ _ H)). Qed.
Lemma gv_mesh : gives (m_mesh F X) s_mesh r_mesh.
Proof. start. unfold m_mesh, s_mesh, r_mesh in *. field "primitives" msh_Primitives (gv_some _ _ _ (gv_all _ _ _ gv_primitive)). Qed.
Lemma gv_textureInfo : gives (m_textureInfo F X) s_textureInfo r_textureInfo.
Proof.
  start. unfold m_textureInfo, s_textureInfo, r_textureInfo in *. split.
  - field "index" txi_Index (gv_int 0).
  - field "texCoord" txi_TexCoord (gv_int 0).
Qed.
Lemma gv_normalTexture : gives (m_normalTexture F X) s_normalTexture r_normalTexture.
Proof.
  start. unfold m_normalTexture, s_normalTexture, r_normalTexture in *. split.
  - field "index" ntx_Index (gv_some _ _ _ (gv_int 0)).
  - field "texCoord" ntx_TexCoord (gv_int 0).
Qed.
Lemma gv_occlusionTexture : gives (m_occlusionTexture F X) s_occlusionTexture r_occlusionTexture.
Proof.
  start. unfold m_occlusionTexture, s_occlusionTexture, r_occlusionTexture in *. split.
  - field "index" otx_Index (gv_some _ _ _ (gv_int 0)).
  - field "texCoord" otx_TexCoord (gv_int 0).
Qed.
Lemma gv_pbr : gives (m_pbr F X) s_pbr r_pbr.
Proof.
  start. unfold m_pbr, s_pbr, r_pbr in *. split.
  - field "baseColorTexture" pbr_BaseColorTexture (gv_opt _ _ _ gv_textureInfo).
  - field "metallicRoughnessTexture" pbr_MetallicRoughnessTexture (gv_opt _ _ _ gv_textureInfo).
Qed.
Lemma gv_material : gives (m_material F X) s_material r_material.
Proof.
  start. unfold m_material, s_material, r_material in *. split; [|split; [|split]].
  - field "pbrMetallicRoughness" mat_PBRMetallicRoughness (gv_opt _ _ _ gv_pbr).
  - field "normalTexture" mat_NormalTexture (gv_opt _ _ _ gv_normalTexture).
  - field "occlusionTexture" mat_OcclusionTexture (gv_opt _ _ _ gv_occlusionTexture).
  - field "emissiveTexture" mat_EmissiveTexture (gv_opt _ _ _ gv_textureInfo).
Qed.
Lemma gv_texture : gives (m_texture F X) s_texture r_texture.
Proof.
  start. unfold m_texture, s_texture, r_texture in *. split.
  - field "sampler" txt_Sampler (gv_opt _ _ _ (gv_int 0)).
  - field "source" txt_Source (gv_opt _ _ _ (gv_int 0)).
Qed.
Lemma gv_image : gives (m_image F X) s_image r_image.
Proof. start. unfold m_image, s_image, r_image in *. field "bufferView" img_BufferView (gv_opt _ _ _ (gv_int 0)). Qed.
Lemma gv_animationSampler : gives (m_animationSampler F X) s_animationSampler r_animationSampler.
Proof.
  start. unfold m_animationSampler, s_animationSampler, r_animationSampler in *. split.
  - field "input" ans_Input (gv_int 0).
  - field "output" ans_Output (gv_int 0).
Qed.
Lemma gv_animationTarget : gives (m_animationTarget F X) s_animationTarget (fun t => opt index (act_Node t)).
Proof. start. unfold m_animationTarget, s_animationTarget in *. field "node" act_Node (gv_opt _ _ _ (gv_int 0)). Qed.
Lemma gv_animationChannel : gives (m_animationChannel F X) s_animationChannel r_animationChannel.
Proof.
  start. unfold m_animationChannel, s_animationChannel, r_animationChannel in *. split.
  - field "sampler" anc_Sampler (gv_int 0).
  - field "target" anc_Target gv_animationTarget.
Qed.
Lemma gv_animation : gives (m_animation F X) s_animation r_animation.
Proof.
  start. unfold m_animation, s_animation, r_animation in *. split.
  - field "channels" ani_Channels (gv_some _ _ _ (gv_all _ _ _ gv_animationChannel)).
  - field "samplers" ani_Samplers (gv_some _ _ _ (gv_all _ _ _ gv_animationSampler)).
Qed.
Lemma gv_gltf : gives (m_gltf F X) s_gltf ready.
Proof.
  start. unfold m_gltf, s_gltf, ready in *. repeat match goal with |- _ /\ _ => split end.
  - field "accessors" doc_Accessors (gv_all _ _ _ gv_accessor).
  - field "animations" doc_Animations (gv_all _ _ _ gv_animation).
  - field "buffers" doc_Buffers (gv_all _ _ _ gv_buffer).
  - field "bufferViews" doc_BufferViews (gv_all _ _ _ gv_bufferView).
  - field "cameras" doc_Cameras (gv_all _ _ _ (gv_any (m_camera F X) s_camera)).
  - field "images" doc_Images (gv_all _ _ _ gv_image).
  - field "materials" doc_Materials (gv_all _ _ _ gv_material).
  - field "meshes" doc_Meshes (gv_all _ _ _ gv_mesh).
  - field "nodes" doc_Nodes (gv_all _ _ _ gv_node).
  - field "samplers" doc_Samplers (gv_all _ _ _ (gv_any (m_sampler F X) s_sampler)).
  - field "scene" doc_Scene (gv_opt _ _ _ (gv_int 0)).
  - field "scenes" doc_Scenes (gv_all _ _ _ gv_scene).
  - field "skins" doc_Skins (gv_all _ _ _ gv_skin).
  - field "textures" doc_Textures (gv_all _ _ _ gv_texture).
Qed.
End Types.
