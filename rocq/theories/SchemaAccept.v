(** Every JSON value that conforms to the glTF schema is decoded. *)
From Verif Require Import Base BaseFacts Types Doc F64 SpecText JsonText JsonStringProofs Codec DocCodec SpecJson SpecJsonDoc
  CodecProofs CodecInv DocCodecBase Marshal SpecMarshal MarshalProofs SpecSchema SchemaProofs.

Section Accept.
Context (F : float_lib) (X : ext_lib) (RT : registry_total X).
Definition in_float_range (s : string) : Prop := parse64 F s <> None.
Definition unrelated (names : list string) (k : string) : Prop := Forall (fun m => fold_eq m k = false) names.
Notation ok := (conforms in_float_range unrelated).
Definition dc {A} (c : codec A) (s : schema) : Prop := forall m old j, wf_json m j -> ok s j -> exists y, dec c old j = Ok y.

Lemma dc_int lo : dc c_int (SInt lo).
Proof. intros m old j _ C. inversion C; subst. cbn. rewrite (parse_of_decimal _ n) by assumption. eexists; reflexivity. Qed.
Lemma unquote_str_total s : string_body (str_bytes s) -> exists v, unquote_str s = Some v.
Proof. intros B. destruct (unquote_total _ B) as [v E]. exists (bytes_str v). unfold unquote_str. rewrite E. reflexivity. Qed.
Lemma dc_str : dc c_str SStr.
Proof.
  intros m old j W C. inversion C; subst. inversion W; subst. cbn. destruct (unquote_str_total s) as [v E]; [assumption|].
  rewrite E. eexists; reflexivity.
Qed.
Lemma dc_bool : dc c_bool SBool.
Proof. intros m old j _ C. inversion C; subst. eexists; reflexivity. Qed.
Lemma dc_f64 : dc (c_f64 F) SNum.
Proof.
  intros m old j _ C. inversion C; subst. cbn. unfold in_float_range in *. destruct (parse64 F s); [eexists; reflexivity|congruence].
Qed.
Lemma dc_ptr {A} (z : A) c s : dc c s -> dc (c_ptr z c) s.
Proof.
  intros H m old j W C.
  assert (G : forall o, exists y, (a <- dec c o j ;; Ok (Some a)) = Ok y).
  { intros o. destruct (H m o j W C) as [y E]. rewrite E. eexists; reflexivity. }
  destruct j; cbn; try apply G. eexists; reflexivity.
Qed.
Lemma wf_arr_inv m l : wf_json m (JArr l) -> exists k, Forall (wf_json k) l.
Proof. intros W. inversion W; subst. eexists; eassumption. Qed.
Lemma wf_obj_inv m l : wf_json m (JObj l) -> exists k, Forall (fun p => string_body (str_bytes (fst p)) /\ wf_json k (snd p)) l.
Proof. intros W. inversion W; subst. eexists; eassumption. Qed.
Lemma dc_elems {A} (z : A) c s m l : dc c s -> Forall (wf_json m) l -> Forall (ok s) l -> forall old, exists y, dec_elems z c old l = Ok y.
Proof.
  intros H W C. induction l as [|j l IH]; intros old; [eexists; reflexivity|]. cbn [dec_elems].
  destruct (H m (match old with a :: _ => a | [] => z end) j (Forall_inv W) (Forall_inv C)) as [a ->]. cbn [bind].
  destruct (IH (Forall_inv_tail W) (Forall_inv_tail C) (match old with _ :: o => o | [] => [] end)) as [r ->]. eexists; reflexivity.
Qed.
Lemma dc_array_elems {A} (z : A) c s m old : dc c s -> forall l, Forall (wf_json m) l -> Forall (ok s) l -> exists y, dec_array z c old l = Ok y.
Proof.
  intros H. induction old as [|a old IH]; intros l W C; [eexists; reflexivity|]. cbn [dec_array]. destruct l as [|j l].
  - destruct (IH [] (Forall_nil _) (Forall_nil _)) as [r ->]. eexists; reflexivity.
  - destruct (H m a j (Forall_inv W) (Forall_inv C)) as [y ->]. cbn [bind].
    destruct (IH l (Forall_inv_tail W) (Forall_inv_tail C)) as [r ->]. eexists; reflexivity.
Qed.
Lemma dc_slice {A} (z : A) c lo s : dc c s -> dc (c_slice z c) (SList lo s).
Proof.
  intros H m old j W C. inversion C; subst. destruct (wf_arr_inv _ _ W) as [k Wl]. cbn. exact (dc_elems z c s k l H Wl ltac:(assumption) old).
Qed.
Lemma dc_oslice {A} (z : A) c lo s : dc c s -> dc (c_oslice z c) (SList lo s).
Proof.
  intros H m old j W C. inversion C; subst. destruct (wf_arr_inv _ _ W) as [k Wl]. cbn.
  destruct (dc_elems z c s k l H Wl ltac:(assumption) (match old with Some o => o | None => [] end)) as [y ->]. eexists; reflexivity.
Qed.
Lemma dc_array {A} (z : A) c k s : dc c s -> dc (c_array z c) (STuple k s).
Proof.
  intros H m old j W C. inversion C; subst. destruct (wf_arr_inv _ _ W) as [k Wl]. cbn. exact (dc_array_elems z c s k old H l Wl ltac:(assumption)).
Qed.
Lemma dc_attrs lo : dc c_attrs (SDict lo s_id).
Proof.
  intros m old j W C. inversion C; subst. destruct (wf_obj_inv _ _ W) as [k Wl]. cbn [dec c_attrs].
  assert (G : exists kvs, traverse (fun p => k <- key_of (fst p) ;; v <- dec c_int 0 (snd p) ;; Ok (k, v)) m0 = Ok kvs).
  { clear C W. match goal with H : (_ <= List.length _)%nat |- _ => clear H end. induction m0 as [|p m0 IH]; [eexists; reflexivity|]. cbn [traverse].
    destruct (key_total _ (proj1 (Forall_inv Wl))) as [kk ->]. cbn [bind].
    destruct (dc_int 0 k 0 (snd p) (proj2 (Forall_inv Wl)) (Forall_inv H3)) as [v ->]. cbn [bind].
    destruct IH as [kvs ->]; [exact (Forall_inv_tail H3)|exact (Forall_inv_tail Wl)|]. eexists; reflexivity. }
  destruct G as [kvs ->]. eexists; reflexivity.
Qed.
Lemma dc_any : dc (c_any F) SFree.
Proof.
  intros m old j W C. inversion C as [|? Fr| | | | | | | | | |]; subst. cbn [dec c_any]. clear C. revert m W Fr.
  induction j as [|b|s|s|l IH|l IH] using json_ind'; intros m W Fr.
  - eexists; reflexivity.
  - eexists; reflexivity.
  - inversion Fr; subst. cbn. unfold in_float_range in *. destruct (parse64 F s); [eexists; reflexivity|congruence].
  - inversion W; subst. cbn. destruct (unquote_str_total s) as [v E]; [assumption|]. rewrite E. eexists; reflexivity.
  - inversion Fr as [| | | |? Fl|]; subst. destruct (wf_arr_inv _ _ W) as [k Wl]. cbn [dec_any].
    assert (G : exists vs, traverse (dec_any F) l = Ok vs).
    { clear W Fr. induction IH as [|j l Hj IH IH2]; [eexists; reflexivity|]. cbn [traverse].
      destruct (Hj k (Forall_inv Wl) (Forall_inv Fl)) as [y ->]. cbn [bind].
      destruct (IH2 (Forall_inv_tail Fl) (Forall_inv_tail Wl)) as [ys ->]. eexists; reflexivity. }
    destruct G as [vs ->]. eexists; reflexivity.
  - inversion Fr as [| | | | |? Fl]; subst. destruct (wf_obj_inv _ _ W) as [k Wl]. cbn [dec_any].
    assert (G : exists vs, traverse (fun p => k <- key_of (fst p) ;; v <- dec_any F (snd p) ;; Ok (k, v)) l = Ok vs).
    { clear W Fr. induction IH as [|j l Hj IH IH2]; [eexists; reflexivity|]. cbn [traverse].
      destruct (key_total _ (proj1 (Forall_inv Wl))) as [kk ->]. cbn [bind].
      destruct (Hj k (proj2 (Forall_inv Wl)) (Forall_inv Fl)) as [y ->]. cbn [bind].
      destruct (IH2 (Forall_inv_tail Fl) (Forall_inv_tail Wl)) as [ys ->]. eexists; reflexivity. }
    destruct G as [vs ->]. eexists; reflexivity.
Qed.
Lemma dc_ext lo : dc (c_ext X) (SDict lo SRaw).
Proof.
  intros m old j W C. inversion C; subst. destruct (wf_obj_inv _ _ W) as [k Wl]. cbn [dec c_ext dec_ext].
  assert (G : exists raw, traverse (fun p => k <- key_of (fst p) ;; Ok (k, snd p)) m0 = Ok raw).
  { clear - Wl. induction m0 as [|p m0 IH]; [eexists; reflexivity|]. cbn [traverse].
    destruct (key_total _ (proj1 (Forall_inv Wl))) as [kk ->]. cbn [bind]. destruct (IH (Forall_inv_tail Wl)) as [r ->]. eexists; reflexivity. }
  destruct G as [raw ->]. cbn [bind].
  assert (G : forall l, exists kvs, traverse (fun p => v <- dec_extv X (fst p) (snd p) ;; Ok (fst p, v)) l = Ok kvs).
  { induction l as [|p l [kvs IH]]; [eexists; reflexivity|]. cbn [traverse]. rewrite (dec_extv_total X _ _ RT). cbn [bind]. rewrite IH. eexists; reflexivity. }
  destruct (G (map_sets [] raw)) as [kvs ->]. eexists; reflexivity.
Qed.

(** Enumerations *)
Lemma dc_enum_num {E} eqb (zero : E) max tbl l : Forall (fun v => 0 <= v <= max) l -> dc (c_enum_num eqb zero max tbl) (SEnumZ l).
Proof.
  intros B m old j _ C. inversion C; subst. rewrite Forall_forall in B. cbn. rewrite (uint_of_decimal s n max) by auto. eexists; reflexivity.
Qed.
Lemma dc_uint max l : Forall (fun v => 0 <= v <= max) l -> dc (c_uint max) (SEnumZ l).
Proof.
  intros B m old j _ C. inversion C; subst. rewrite Forall_forall in B. cbn. rewrite (uint_of_decimal s n max) by auto. eexists; reflexivity.
Qed.
Lemma dc_enum_str {E} eqb (zero : E) strict tbl l :
  (strict = true -> Forall (fun v => lookup_by String.eqb (swap tbl) v <> None) l) -> dc (c_enum_str eqb zero strict tbl) (SEnum l).
Proof.
  intros B m old j _ C. inversion C; subst. cbn.
  match goal with H : unquote_str _ = Some _ |- _ => rewrite H end. cbn.
  destruct (lookup_by String.eqb (swap tbl) v) eqn:L; [eexists; reflexivity|]. destruct strict; [|eexists; reflexivity].
  exfalso. specialize (B eq_refl). rewrite Forall_forall in B. exact (B v ltac:(assumption) L).
Qed.

(** Structs *)
Definition fdc {T} (f : field T) (s : schema) : Prop := match f with Fld _ _ _ c _ => dc c s end.
Lemma fold_eq_refl a : fold_eq a a = true.
Proof. unfold fold_eq. destruct (list_eq_dec _ _ _); congruence. Qed.
Lemma find_none {T} (fs : list (field T)) names k : Forall (fun f => In (fname f) names) fs -> unrelated names k -> find_field fs k = None.
Proof.
  intros I U. unfold unrelated in U. rewrite Forall_forall in U.
  assert (N : Forall (fun f => fold_eq (fname f) k = false) fs) by (eapply Forall_impl; [|exact I]; intros f; apply U).
  unfold find_field. clear I U.
  assert (N1 : find (fun f => String.eqb (fname f) k) fs = None).
  { induction N as [|f fs Hf N IH]; [reflexivity|]. cbn [find]. destruct (String.eqb (fname f) k) eqn:E; [|exact IH].
    apply String.eqb_eq in E. rewrite E, fold_eq_refl in Hf. discriminate. }
  rewrite N1. clear N1. induction N as [|f fs Hf N IH]; [reflexivity|]. cbn [find]. rewrite Hf. exact IH.
Qed.
Lemma dc_struct {T} (fs : list (field T)) c req opts : (forall old, exists x, forall j, dec c old j = dec_struct fs x j) ->
  forallb (fun k => existsb (String.eqb k) (map fst (req ++ opts))) (map fname fs) = true ->
  Forall (fun e => find_field fs (fst e) = None \/ exists f, find_field fs (fst e) = Some f /\ fdc f (snd e)) (req ++ opts) ->
  dc c (SObj req opts).
Proof.
  intros D N H m old j W C. inversion C as [| | | | | | | | | | |? ? ms ND RQ FM]; subst. destruct (wf_obj_inv _ _ W) as [k Wl].
  destruct (D old) as [x E]. rewrite E. cbn [dec_struct]. clear C W ND RQ E D old. revert x.
  assert (N' : Forall (fun f => In (fname f) (map fst (req ++ opts))) fs).
  { apply Forall_forall. intros f Hf. apply forallb_forall with (x := fname f) in N; [|apply in_map; exact Hf].
    apply existsb_exists in N. destruct N as (y & I & E). apply String.eqb_eq in E. subst. exact I. }
  induction ms as [|[raw j] ms IH]; intros x; [eexists; reflexivity|]. cbn [dec_members].
  destruct (Forall_inv FM) as (kk & U & [(s & I & Cs)|Ex]); cbn [fst snd] in *; unfold key_of; rewrite U; cbn [bind].
  - rewrite Forall_forall in H. destruct (H (kk, s) I) as [E|(f & E & Df)]; cbn [fst snd] in *; rewrite E.
    + cbn [bind]. apply IH; [exact (Forall_inv_tail FM)|exact (Forall_inv_tail Wl)].
    + destruct f as [A name get set cf om]. cbn [dec_field]. destruct (Df k (get x) j (proj2 (Forall_inv Wl)) Cs) as [y ->].
      cbn [bind]. apply IH; [exact (Forall_inv_tail FM)|exact (Forall_inv_tail Wl)].
  - rewrite (find_none fs _ kk N' Ex). cbn [bind]. apply IH; [exact (Forall_inv_tail FM)|exact (Forall_inv_tail Wl)].
Qed.

Ltac range_tac := repeat apply Forall_cons; try apply Forall_nil; lia.
Ltac dc_tac :=
  first [ apply dc_ext | apply dc_any | apply dc_str | apply dc_bool | apply dc_int | apply dc_f64 | apply dc_attrs
        | apply dc_enum_num; range_tac | apply dc_uint; range_tac
        | apply dc_enum_str; first [discriminate | intros _; repeat apply Forall_cons; try apply Forall_nil; vm_compute; discriminate]
        | assumption
        | apply dc_ptr; dc_tac | apply dc_slice; dc_tac | apply dc_oslice; dc_tac | apply dc_array; dc_tac ].
Ltac sdc_tac fs := apply (dc_struct fs); [intros old; eexists; intros j; reflexivity|vm_compute; reflexivity|
  repeat apply Forall_cons; try apply Forall_nil;
  first [left; reflexivity | right; eexists; split; [reflexivity|cbn [fdc snd]; dc_tac]]].

Lemma dc_Document : dc (c_Document F X) s_gltf.
Proof.
  assert (dc (c_SparseValues F X) s_sparse_values) by sdc_tac (fields_SparseValues F X).
  assert (dc (c_SparseIndices F X) s_sparse_indices) by sdc_tac (fields_SparseIndices F X).
  assert (dc (c_Sparse F X) s_sparse) by sdc_tac (fields_Sparse F X).
  assert (dc (c_Accessor F X) s_accessor) by sdc_tac (fields_Accessor F X).
  assert (dc (c_Asset F X) s_asset) by sdc_tac (fields_Asset F X).
  assert (dc (c_Buffer F X) s_buffer) by sdc_tac (fields_Buffer F X).
  assert (dc (c_BufferView F X) s_bufferView) by sdc_tac (fields_BufferView F X).
  assert (dc (c_Scene F X) s_scene) by sdc_tac (fields_Scene F X).
  assert (dc (c_Node F X) s_node) by sdc_tac (fields_Node F X).
  assert (dc (c_Skin F X) s_skin) by sdc_tac (fields_Skin F X).
  assert (dc (c_Orthographic F X) s_orthographic) by sdc_tac (fields_Orthographic F X).
  assert (dc (c_Perspective F X) s_perspective) by sdc_tac (fields_Perspective F X).
  assert (dc (c_Camera F X) s_camera) by sdc_tac (fields_Camera F X).
  assert (dc (c_Primitive F X) s_primitive) by sdc_tac (fields_Primitive F X).
  assert (dc (c_Mesh F X) s_mesh) by sdc_tac (fields_Mesh F X).
  assert (dc (c_TextureInfo F X) s_textureInfo) by sdc_tac (fields_TextureInfo F X).
  assert (dc (c_NormalTexture F X) s_normalTexture) by sdc_tac (fields_NormalTexture F X).
  assert (dc (c_OcclusionTexture F X) s_occlusionTexture) by sdc_tac (fields_OcclusionTexture F X).
  assert (dc (c_PBRMetallicRoughness F X) s_pbr) by sdc_tac (fields_PBRMetallicRoughness F X).
  assert (dc (c_Material F X) s_material) by sdc_tac (fields_Material F X).
  assert (dc (c_Texture F X) s_texture) by sdc_tac (fields_Texture F X).
  assert (dc (c_Sampler F X) s_sampler) by sdc_tac (fields_Sampler F X).
  assert (dc (c_Image F X) s_image) by sdc_tac (fields_Image F X).
  assert (dc (c_AnimationSampler F X) s_animationSampler) by sdc_tac (fields_AnimationSampler F X).
  assert (dc (c_AnimationChannelTarget F X) s_animationTarget) by sdc_tac (fields_AnimationChannelTarget F X).
  assert (dc (c_AnimationChannel F X) s_animationChannel) by sdc_tac (fields_AnimationChannel F X).
  assert (dc (c_Animation F X) s_animation) by sdc_tac (fields_Animation F X).
  sdc_tac (fields_Document F X).
Qed.
End Accept.
