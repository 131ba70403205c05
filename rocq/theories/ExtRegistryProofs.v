(** The registry of the ext packages: proofs. *)
From Verif Require Import Base BaseFacts Types Doc F64 SpecText JsonText JsonStringProofs Codec DocCodec SpecJson SpecJsonDoc
  CodecProofs CodecInv DocCodecBase DocCodecProofs DocInvBase DocCodecInv Ext SpecExt HtmlFixed ExtTransform ExtSpecular ExtProofs PropsExt ExtRegistry.

(** ** The trees stand for the values *)
Lemma json_any j : json_of_any (any_of_json j) = j.
Proof.
  induction j as [|b|s|s|l IH|m IH] using json_ind'; try reflexivity; cbn [any_of_json json_of_any].
  - f_equal. rewrite map_map. induction IH as [|j l Hj IH IHl]; [reflexivity|]. cbn [map]. rewrite Hj, IHl. reflexivity.
  - f_equal. rewrite map_map. induction IH as [|[k j] m Hj IH IHl]; [reflexivity|]. cbn [map fst snd] in *. rewrite Hj, IHl. reflexivity.
Qed.
Lemma all_map {A B} (f : A -> B) (g : B -> option A) l : (forall a, g (f a) = Some a) -> all g (map f l) = Some l.
Proof. intros H. induction l as [|a l IH]; [reflexivity|]. cbn [map all]. rewrite H, IH. reflexivity. Qed.
Lemma num_inv o : any_num (num_any o) = Some o.
Proof. destruct o; reflexivity. Qed.
Lemma nums_inv l : any_nums (nums_any l) = Some l.
Proof. apply all_map. reflexivity. Qed.
Lemma opt_inv {A} (f : A -> any) g o : (forall a, g (f a) = Some a) -> (forall a, f a <> VNull) -> any_opt g (opt_any f o) = Some o.
Proof.
  intros H N. destruct o as [a|]; [|reflexivity]. cbn [opt_any]. specialize (H a). specialize (N a). unfold any_opt. rewrite H.
  destruct (f a); try reflexivity. congruence.
Qed.
Lemma tt_inv t : any_tt (tt_any t) = Some t.
Proof. destruct t as [o r s c]. cbn [tt_any any_tt tt_Offset tt_Rotation tt_Scale tt_TexCoord]. rewrite !nums_inv, num_inv. reflexivity. Qed.
Lemma unlit_inv u : any_unlit (unlit_any u) = Some u.
Proof. unfold any_unlit, unlit_any. rewrite json_any. reflexivity. Qed.
Lemma spot_inv s : any_spot (spot_any s) = Some s.
Proof. destruct s as [i o]. cbn [spot_any any_spot spo_InnerConeAngle spo_OuterConeAngle]. rewrite num_inv. reflexivity. Qed.
Lemma light_inv l : any_light (light_any l) = Some l.
Proof.
  destruct l as [t n c i r s]. cbn [light_any any_light lig_Type lig_Name lig_Color lig_Intensity lig_Range lig_Spot]. rewrite !num_inv.
  rewrite (opt_inv nums_any any_nums c nums_inv) by discriminate. rewrite (opt_inv spot_any any_spot s spot_inv) by discriminate. reflexivity.
Qed.
Lemma lights_inv v : any_lights (lights_any v) = Some v.
Proof.
  destruct v as [i|[l|]]; [reflexivity| |reflexivity]. cbn [lights_any opt_any any_lights].
  rewrite (all_map (opt_any light_any)); [reflexivity|]. intros o. apply opt_inv; [exact light_inv|discriminate].
Qed.
Lemma extv_inv e : any_extv (extv_any e) = Some e.
Proof. destruct e as [j|v]; cbn [extv_any any_extv]; [|reflexivity]. rewrite json_any. destruct (any_of_json j); reflexivity. Qed.
Lemma texture_inv t : any_texture (texture_any t) = Some t.
Proof.
  destruct t as [e x i c]. cbn [texture_any any_texture txi_Extensions txi_Extras txi_Index txi_TexCoord].
  rewrite (all_map (fun p => (fst p, extv_any (snd p)))); [reflexivity|]. intros [k v]. cbn [fst snd]. rewrite extv_inv. reflexivity.
Qed.
Lemma sg_inv p : any_sg (sg_any p) = Some p.
Proof.
  destruct p as [d dt s g st]. cbn [sg_any any_sg sg_DiffuseFactor sg_DiffuseTexture sg_SpecularFactor sg_GlossinessFactor sg_SpecularGlossinessTexture].
  rewrite num_inv, !(opt_inv nums_any any_nums _ nums_inv) by discriminate.
  rewrite !(opt_inv texture_any any_texture _ texture_inv) by discriminate. reflexivity.
Qed.

(** ** Lookup *)
Lemma package_of_name p : package_of (ext_name p) = Some p.
Proof. destruct p; reflexivity. Qed.
Lemma package_of_some k p : package_of k = Some p -> k = ext_name p.
Proof.
  unfold package_of. destruct (String.eqb_spec k (ext_name Lightspunctual)); [congruence|].
  destruct (String.eqb_spec k (ext_name Specular)); [congruence|]. destruct (String.eqb_spec k (ext_name Texturetransform)); [congruence|].
  destruct (String.eqb_spec k (ext_name Unlitpkg)); [congruence|discriminate].
Qed.

Definition inner (F : float_lib) (imports : package -> bool) (depth : nat) : option ext_lib :=
  match depth with O => None | S d => Some (go_exts F imports d) end.
Lemma go_registered F imports depth p : imports p = true -> registry (go_exts F imports depth) (ext_name p) = Unmarshal F (inner F imports depth) p.
Proof. intros I. destruct depth; cbn [go_exts registry inner]; rewrite package_of_name, I; reflexivity. Qed.
Lemma go_encoder F imports depth p v : imports p = true -> ext_enc (go_exts F imports depth) (ext_name p) v = Marshal F (inner F imports depth) p v.
Proof. intros I. destruct depth; cbn [go_exts ext_enc inner]; rewrite package_of_name, I; reflexivity. Qed.
Lemma go_registered_inv F imports depth k f : registry (go_exts F imports depth) k = Some f ->
  exists p, k = ext_name p /\ imports p = true /\ Unmarshal F (inner F imports depth) p = Some f.
Proof.
  intros R. assert (E : match package_of k with Some p => if imports p then Unmarshal F (inner F imports depth) p else None | None => None end = Some f)
    by (destruct depth; exact R).
  destruct (package_of k) as [p|] eqn:P; [|discriminate]. exists p. split; [exact (package_of_some k p P)|]. destruct (imports p); [|discriminate]. split; [reflexivity|exact E].
Qed.

(** ** No panic *)
Lemma np_tt F j : tt_UnmarshalJSON F j <> Panic.
Proof.
  apply (np_struct (fields_TT F)). repeat apply Forall_cons; [..|apply Forall_nil];
    [exact (np_array _ _ (np_f64 F))|exact (np_f64 F)|exact (np_array _ _ (np_f64 F))|exact (np_ptr _ _ np_int)].
Qed.
Lemma np_sg F X j : registry_total X -> sg_UnmarshalJSON F X j <> Panic.
Proof.
  intros RT. apply (np_struct (fields_SG F X)). repeat apply Forall_cons; [..|apply Forall_nil];
    [exact (np_ptr _ _ (np_array _ _ (np_f64 F)))|exact (np_ptr _ _ (np_TextureInfo F X RT))|exact (np_ptr _ _ (np_array _ _ (np_f64 F)))
    |exact (np_ptr _ _ (np_f64 F))|exact (np_ptr _ _ (np_TextureInfo F X RT))].
Qed.
Lemma np_Spot F : nopanic (c_Spot F).
Proof.
  intros old j. apply (np_struct (fields_Spot F)). repeat apply Forall_cons; [..|apply Forall_nil]; [exact (np_f64 F)|exact (np_ptr _ _ (np_f64 F))].
Qed.
Lemma np_Light F : nopanic (c_Light F).
Proof.
  intros old j. apply (np_struct (fields_Light F)). repeat apply Forall_cons; [..|apply Forall_nil];
    [exact np_str|exact np_str|exact (np_ptr _ _ (np_array _ _ (np_f64 F)))|exact (np_ptr _ _ (np_f64 F))|exact (np_ptr _ _ (np_f64 F))|exact (np_ptr _ _ (np_Spot F))].
Qed.
Lemma np_lights F j : lights_Unmarshal F j <> Panic.
Proof.
  unfold lights_Unmarshal. apply bind_np; [|discriminate]. apply (np_struct (fields_envelop F)). repeat apply Forall_cons; [..|apply Forall_nil];
    [exact (np_oslice _ _ (np_ptr _ _ (np_Light F)))|exact (np_ptr _ _ np_int)].
Qed.
Lemma np_unlit j : unlit_UnmarshalJSON j <> Panic.
Proof.
  destruct j; try discriminate. cbn [unlit_UnmarshalJSON]. apply bind_np; [|discriminate]. apply traverse_np. intros [k v]. apply bind_np; [apply np_key|discriminate].
Qed.
Lemma go_total F imports depth : registry_total (go_exts F imports depth).
Proof.
  induction depth as [|d IH]; intros k f j; cbn [go_exts registry]; destruct (package_of k) as [p|]; try discriminate; destruct (imports p); try discriminate;
    destruct p; cbn [Unmarshal]; try discriminate; intros [= <-]; (apply bind_np; [|discriminate]); first [apply np_lights|apply np_tt|apply np_unlit|apply np_sg; exact IH].
Qed.

(** ** What is read is not changed by HTML escaping *)
Definition plain {A} (c : codec A) : Prop := forall n old j, wf_json n j -> dec c old (html_json j) = dec c old j.
Lemma plain_f64 F : plain (c_f64 F).
Proof. intros n old [] W; reflexivity. Qed.
Lemma plain_int : plain c_int.
Proof. intros n old [] W; reflexivity. Qed.
Lemma plain_str : plain c_str.
Proof. intros n old [] W; try reflexivity. cbn [html_json dec c_str str_of_json]. inversion W; subst. rewrite html_key by assumption. reflexivity. Qed.
Lemma plain_ptr {A} (z : A) c : plain c -> plain (c_ptr z c).
Proof. intros H n old j W. pose proof (H n (match old with Some x => x | None => z end) j W) as E. destruct j; try reflexivity; cbn [html_json dec c_ptr] in *; rewrite E; reflexivity. Qed.
Lemma plain_array {A} (z : A) c : plain c -> plain (c_array z c).
Proof.
  intros H n old [] W; try reflexivity. cbn [html_json dec c_array]. inversion W as [| | | |n' l' Wl|]; subst. clear W.
  revert l Wl. induction old as [|a old IH]; intros l Wl; [reflexivity|]. destruct l as [|j l]; [reflexivity|]. inversion Wl; subst. cbn [map dec_array].
  rewrite (H _ a j) by eassumption. destruct (dec c a j); cbn [bind]; [|reflexivity..]. rewrite IH by assumption. reflexivity.
Qed.
Definition plainf {T} (f : field T) : Prop := match f with Fld _ _ _ c _ => plain c end.
Lemma plain_struct {T} (fs : list (field T)) n x j : Forall plainf fs -> wf_json n j -> dec_struct fs x (html_json j) = dec_struct fs x j.
Proof.
  intros HF W. destruct j; try reflexivity. cbn [html_json dec_struct]. inversion W as [| | | | |n' m' Wm]; subst. clear W.
  revert x. induction Wm as [|[k v] m [Hk Hv] Wm IH]; intros x; [reflexivity|]. cbn [map dec_members fst snd] in *. unfold key_of. rewrite html_key by assumption.
  destruct (unquote_str k) as [s|]; cbn [bind]; [|reflexivity].
  replace (match find_field fs s with Some f => dec_field f x (html_json v) | None => Ok x end) with (match find_field fs s with Some f => dec_field f x v | None => Ok x end).
  - destruct (match find_field fs s with Some f => dec_field f x v | None => Ok x end); cbn [bind]; [apply IH|reflexivity..].
  - destruct (find_field fs s) as [f|] eqn:E; [|reflexivity]. apply find_field_in in E. rewrite Forall_forall in HF. specialize (HF f E).
    destruct f. cbn [dec_field plainf] in *. rewrite (HF n' _ v Hv). reflexivity.
Qed.
Lemma plain_tt F n j : wf_json n j -> tt_UnmarshalJSON F (html_json j) = tt_UnmarshalJSON F j.
Proof.
  intros W. apply (plain_struct (fields_TT F) n); [|exact W]. repeat apply Forall_cons; [..|apply Forall_nil];
    [exact (plain_array _ _ (plain_f64 F))|exact (plain_f64 F)|exact (plain_array _ _ (plain_f64 F))|exact (plain_ptr _ _ plain_int)].
Qed.

(** ** Texture transforms *)
Lemma float_ok_0 : float_ok 0.
Proof. split; vm_compute; intuition discriminate. Qed.
Lemma float_ok_one : float_ok one.
Proof. split; vm_compute; intuition discriminate. Qed.
Lemma inv_tt F n j t : parse_contract F -> wf_json n j -> tt_UnmarshalJSON F j = Ok t -> wf_TT t.
Proof.
  intros PC W H. refine (inv_struct _ _ (fields_TT F) (mkTT [0; 0] 0 tt_DefaultScale None) j t (closed_wf n) _ _ W H).
  - repeat apply Forall_cons; [..|apply Forall_nil].
    + finv_tac (inv_array 0 (c_f64 F) (wf_json n) float_ok 2 (closed_wf n) float_ok_0 (inv_f64 F PC (wf_json n))) wf_TT.
    + finv_tac (inv_f64 F PC (wf_json n)) wf_TT.
    + finv_tac (inv_array 0 (c_f64 F) (wf_json n) float_ok 2 (closed_wf n) float_ok_0 (inv_f64 F PC (wf_json n))) wf_TT.
    + finv_tac (inv_ptr 0 c_int (wf_json n) in_i64 ltac:(unfold in_i64; lia) (inv_int (wf_json n))) wf_TT.
  - pose proof float_ok_0. pose proof float_ok_one. split; [split; [reflexivity|repeat constructor; apply float_ok_0]|]. split; [exact float_ok_0|].
    split; [split; [reflexivity|unfold tt_DefaultScale; change f64_one with one; repeat (constructor; [assumption|]); constructor]|exact I].
Qed.
Lemma norm_tt_wf t : wf_TT t -> wf_TT (norm_TT t).
Proof.
  intros (W1 & W2 & W3 & W4). split; [exact W1|]. split.
  - cbn [norm_TT tt_Rotation]. unfold plain_zero. destruct (f64_eq (tt_Rotation t) 0); [exact float_ok_0|exact W2].
  - split; [|exact W4]. cbn [norm_TT tt_Scale]. pose proof float_ok_one.
    assert (farray 2 [one; one]) by (split; [reflexivity|repeat (constructor; [assumption|]); constructor]).
    destruct (tt_Scale t) as [|[| |] [|[| |] [|]]]; assumption.
Qed.
Lemma norm_tt_idem t : norm_TT (norm_TT t) = norm_TT t.
Proof.
  unfold norm_TT. cbn [tt_Offset tt_Rotation tt_Scale tt_TexCoord]. f_equal.
  - unfold plain_zero. destruct (f64_eq (tt_Rotation t) 0) eqn:E; [reflexivity|]. rewrite E. reflexivity.
  - destruct (tt_Scale t) as [|[| |] [|[| |] [|]]]; reflexivity.
Qed.
Lemma tt_saved F t : float_contract F -> float_text F -> wf_TT t ->
  exists j, marshaler (tt_MarshalJSON F t) = Ok j /\ wf_json 2 j /\ html_json j = j /\ tt_UnmarshalJSON F j = Ok (norm_TT t).
Proof.
  intros HF HT W. destruct (tt_text F HF HT t W) as (m & Em & T). destruct (tt_fields F HF t W) as (m' & Em' & Wm & D).
  rewrite Em in Em'. injection Em' as <-. destruct (C48_texture_transform F t HF HT W) as (text & j & T' & _ & P & M & D').
  rewrite T in T'. injection T' as <-. rewrite (parse_print m 2 Wm ltac:(discriminate)) in P. injection P as <-.
  exists (JObj m). split; [exact M|]. split; [exact Wm|]. split; [|exact D].
  unfold marshaler in M. apply bind_ok in M. destruct M as (tx & _ & M). apply bind_ok in M. destruct M as (jj & _ & M). injection M as M.
  rewrite <- M. apply html_json_idem.
Qed.

(** ** Unlit *)
Lemma unlit_saved n u : sorted_keys u -> Forall (fun p => utf8_str (fst p) /\ wf_json n (snd p)) u ->
  exists j, unlit_Marshal u = Ok j /\ wf_json (S n) j /\ html_json j = j /\ unlit_UnmarshalJSON j = Ok (rendered u) /\ unlit_Marshal (rendered u) = Ok j.
Proof.
  intros S V. destruct (unlit_writes n u S V) as (j & M & W & D). exists j. split; [exact M|]. split; [exact W|]. split; [|split; [exact D|]].
  - injection M as <-. cbn [html_json]. f_equal. rewrite map_map. apply map_ext. intros [k v]. cbn [fst snd]. rewrite html_json_idem, html_quote_str. reflexivity.
  - rewrite <- M. unfold unlit_Marshal, rendered. rewrite map_map. do 2 f_equal. apply map_ext. intros [k v]. cbn [fst snd]. rewrite html_json_idem. reflexivity.
Qed.
Lemma unlit_ok n j u : (1 <= n)%nat -> wf_json n j -> unlit_UnmarshalJSON j = Ok u ->
  sorted_keys u /\ Forall (fun p => utf8_str (fst p) /\ wf_json (n - 1) (snd p)) u.
Proof.
  intros N W E. destruct j; try discriminate; [injection E as <-; split; constructor|].
  destruct n as [|n]; [lia|]. replace (S n - 1)%nat with n by lia. destruct (unlit_reads n m W) as (u' & E' & S & L). rewrite E in E'. injection E' as <-.
  split; [exact S|]. apply Forall_forall. intros [k v] I. apply L in I. exact (last_member_wf n m k v W I).
Qed.
Lemma unlit_err n j e : wf_json n j -> unlit_UnmarshalJSON j = Err e -> exists e', unlit_UnmarshalJSON (html_json j) = Err e'.
Proof.
  intros W E. destruct j; try discriminate; try (eexists; reflexivity). exfalso. destruct n as [|n]; [inversion W|].
  destruct (unlit_reads n m W) as (u & E' & _). rewrite E in E'. discriminate.
Qed.

(** ** Imports that keep documents encodable *)
Definition lossless_imports (imports : package -> bool) : Prop := imports Lightspunctual = false /\ imports Specular = false.
Lemma go_registry_ok F imports depth n : float_contract F -> parse_contract F -> float_text F -> lossless_imports imports -> (2 <= n)%nat ->
  registry_ok (go_exts F imports depth) n.
Proof.
  intros HF PC HT [IL IS] N. apply registry_ok_intro; [apply go_total|]. intros k f j R W.
  destruct (go_registered_inv F imports depth k f R) as (p & -> & Ip & U).
  pose proof (fun v => go_encoder F imports depth p v Ip) as G. clear R. destruct p; [congruence|congruence|..]; cbn [Unmarshal Marshal] in *; injection U as <-.
  - destruct (tt_UnmarshalJSON F j) as [t|e|] eqn:D; cbn [bind]; [|rewrite (plain_tt F n j W), D; eexists; reflexivity|exact I].
    destruct (tt_saved F t HF HT (inv_tt F n j t PC W D)) as (j1 & M1 & W1 & H1 & D1).
    destruct (tt_saved F (norm_TT t) HF HT (norm_tt_wf t (inv_tt F n j t PC W D))) as (j2 & M2 & W2 & H2 & D2).
    exists j1, (tt_any (norm_TT t)). rewrite G, tt_inv. cbn [with_value]. split; [exact M1|]. split; [exact (wf_json_mono _ _ _ W1 N)|].
    rewrite H1, D1. split; [reflexivity|]. exists j2. rewrite G, tt_inv. cbn [with_value]. split; [exact M2|]. rewrite H2, D2, norm_tt_idem. reflexivity.
  - destruct (unlit_UnmarshalJSON j) as [u|e|] eqn:D; cbn [bind]; [| |exact I].
    + destruct (unlit_ok n j u ltac:(lia) W D) as [S V]. destruct (unlit_saved (n - 1) u S V) as (j1 & M1 & W1 & H1 & D1 & M1').
      replace (Datatypes.S (n - 1)) with n in W1 by lia.
      exists j1, (unlit_any (rendered u)). rewrite G, unlit_inv. cbn [with_value]. split; [exact M1|]. split; [exact W1|].
      rewrite H1, D1. split; [reflexivity|]. exists j1. rewrite G, unlit_inv. cbn [with_value]. split; [exact M1'|]. rewrite H1, D1. reflexivity.
    + destruct (unlit_err n j e W D) as [e' ->]. eexists. reflexivity.
Qed.

(** ** The depth is enough *)
Definition fsame {T} (n : nat) (f g : field T) : Prop := fname f = fname g /\ forall x j, wf_json n j -> dec_field f x j = dec_field g x j.
Lemma find_same {T} n (fs gs : list (field T)) : Forall2 (fsame n) fs gs -> forall b : string -> bool,
  match find (fun f => b (fname f)) fs, find (fun f => b (fname f)) gs with
  | Some f, Some g => fsame n f g | None, None => True | _, _ => False end.
Proof.
  induction 1 as [|f g fs gs S _ IH]; intros b; [exact I|]. cbn [find]. rewrite <- (proj1 S). destruct (b (fname f)); [exact S|apply IH].
Qed.
Lemma struct_same {T} n (fs gs : list (field T)) x j : (forall n', n = S n' -> Forall2 (fsame n') fs gs) -> wf_json n j -> dec_struct fs x j = dec_struct gs x j.
Proof.
  intros S0 W. destruct j; try reflexivity. cbn [dec_struct]. inversion W as [| | | | |n' m' Wm]; subst. clear W. pose proof (S0 n' eq_refl) as S. clear S0. revert x.
  induction Wm as [|[k v] m [_ Hv] Wm IH]; intros x; [reflexivity|]. cbn [dec_members fst snd] in *. destruct (key_of k) as [s| |]; cbn [bind]; [|reflexivity..].
  assert (E : match find_field fs s with Some f => dec_field f x v | None => Ok x end = match find_field gs s with Some f => dec_field f x v | None => Ok x end).
  { unfold find_field. pose proof (find_same n' fs gs S (fun a => String.eqb a s)) as H. cbv beta in H.
    destruct (find (fun f => String.eqb (fname f) s) fs) as [f|], (find (fun f => String.eqb (fname f) s) gs) as [g|]; try contradiction.
    - apply (proj2 H). exact Hv.
    - pose proof (find_same n' fs gs S (fun a => fold_eq a s)) as H'. cbv beta in H'.
      destruct (find (fun f => fold_eq (fname f) s) fs) as [f|], (find (fun f => fold_eq (fname f) s) gs) as [g|]; try contradiction; [apply (proj2 H'); exact Hv|reflexivity]. }
  rewrite E. destruct (match find_field gs s with Some f => dec_field f x v | None => Ok x end); cbn [bind]; [apply IH|reflexivity..].
Qed.
Lemma fsame_refl {T} n (f : field T) : fsame n f f.
Proof. split; [reflexivity|]. reflexivity. Qed.
Lemma ext_same X X' n old j : (forall n', n = S n' -> forall k v, wf_json n' v -> dec_extv X k v = dec_extv X' k v) -> wf_json n j -> dec_ext X old j = dec_ext X' old j.
Proof.
  intros H0 W. destruct j; try reflexivity. cbn [dec_ext]. inversion W as [| | | | |n' m' Wm]; subst. clear W. pose proof (H0 n' eq_refl) as H. clear H0. rename n' into n.
  destruct (traverse _ m) as [raw| |] eqn:T; cbn [bind]; [|reflexivity..].
  assert (V : Forall (fun p => wf_json n (snd p)) raw).
  { revert raw T. induction Wm as [|[k v] m [_ Hv] Wm IH]; intros raw T; cbn [traverse fst snd] in *; [injection T as <-; constructor|].
    apply bind_ok in T. destruct T as (a & Ea & T). apply bind_ok in T. destruct T as (r & Er & T). injection T as <-.
    apply bind_ok in Ea. destruct Ea as (s & _ & Ea). injection Ea as <-. constructor; [exact Hv|exact (IH r Er)]. }
  clear T Wm.
  match goal with |- (_ <- traverse ?f ?l ;; _) = (_ <- traverse ?g ?l ;; _) => assert (G : Forall (fun p => wf_json n (snd p)) l -> traverse f l = traverse g l) end.
  { intros U. induction U as [|[k v] l Hv U IH]; [reflexivity|]. cbn [traverse fst snd] in *. rewrite (H k v Hv), IH. reflexivity. }
  rewrite G; [reflexivity|].
  exact (proj2 (map_sets_inv (fun p => wf_json n (snd p)) raw [] sk_nil (Forall_nil _) V)).
Qed.
Lemma texture_same F X X' n old j : (forall n', n = S (S n') -> forall k v, wf_json n' v -> dec_extv X k v = dec_extv X' k v) -> wf_json n j ->
  dec (c_TextureInfo F X) old j = dec (c_TextureInfo F X') old j.
Proof.
  intros H W. apply (struct_same n (fields_TextureInfo F X) (fields_TextureInfo F X')); [|exact W]. intros n1 ->.
  repeat apply Forall2_cons; try apply Forall2_nil; try apply fsame_refl. split; [reflexivity|]. intros x v Wv. cbn [dec_field dec c_ext].
  rewrite (ext_same X X' n1 _ v); [reflexivity| |exact Wv]. intros n2 ->. exact (H n2 eq_refl).
Qed.
Lemma sg_same F X X' n j : (forall n', n = S (S (S n')) -> forall k v, wf_json n' v -> dec_extv X k v = dec_extv X' k v) -> wf_json n j ->
  sg_UnmarshalJSON F X j = sg_UnmarshalJSON F X' j.
Proof.
  intros H W. apply (struct_same n (fields_SG F X) (fields_SG F X')); [|exact W]. intros n1 ->.
  assert (T : forall o v, wf_json n1 v -> dec (c_ptr zero_TextureInfo (c_TextureInfo F X)) o v = dec (c_ptr zero_TextureInfo (c_TextureInfo F X')) o v).
  { intros o v Wv. assert (E : forall old, dec (c_TextureInfo F X) old v = dec (c_TextureInfo F X') old v).
    { intros old. apply (texture_same F X X' n1); [|exact Wv]. intros n2 ->. exact (H n2 eq_refl). }
    destruct v; cbn [dec c_ptr]; rewrite ?E; reflexivity. }
  repeat apply Forall2_cons; try apply Forall2_nil; try apply fsame_refl; (split; [reflexivity|]); intros x v Wv; cbn [dec_field]; rewrite (T _ v Wv); reflexivity.
Qed.
Lemma go_depth F imports : forall d d' n k j, (d <= d')%nat -> (n < 3 * d)%nat -> wf_json n j ->
  dec_extv (go_exts F imports d) k j = dec_extv (go_exts F imports d') k j.
Proof.
  induction d as [|d IH]; intros d' n k j L N W; [lia|]. destruct d' as [|d']; [lia|]. cbn [go_exts]. unfold dec_extv. cbn [registry].
  destruct (package_of k) as [p|]; [|reflexivity]. destruct (imports p); [|reflexivity]. destruct p; try reflexivity. cbn [Unmarshal].
  rewrite (sg_same F (go_exts F imports d) (go_exts F imports d') n j); [reflexivity| |exact W].
  intros n' -> k' v Wv. apply (IH d' n'); [lia|lia|exact Wv].
Qed.
