(** lightspunctual, unlit, and reading back the edited texts. *)
From Verif Require Import Base BaseFacts Types Doc F64 F64Facts SpecText JsonText JsonTextProofs JsonStringProofs ScanSound Codec DocCodec SpecJson SpecJsonDoc
  CodecProofs DocCodecBase DocCodecProofs Marshal MarshalProofs SpecMarshal CodecInv Ext SpecExt ExtTransform ExtSpecular.

Lemma parse_print m n : wf_json n (JObj m) -> Z.of_nat n <= max_depth -> json_parse (print_compact (JObj m)) = Ok (JObj m).
Proof.
  intros W D. unfold json_parse. pose proof (scan_container (JObj m) (print_compact (JObj m)) n [] (print_compact_text _) I W D) as S.
  rewrite app_nil_r in S. rewrite S. reflexivity.
Qed.

(** ** Lights *)
Section Lights.
Context (F : float_lib) (HF : float_contract F).

Lemma ext_Spot y z : spo_InnerConeAngle y = spo_InnerConeAngle z -> spo_OuterConeAngle y = spo_OuterConeAngle z -> y = z.
Proof. destruct y, z; cbn; intros; subst; reflexivity. Qed.
Lemma ext_Light y z : lig_Type y = lig_Type z -> lig_Name y = lig_Name z -> lig_Color y = lig_Color z -> lig_Intensity y = lig_Intensity z ->
  lig_Range y = lig_Range z -> lig_Spot y = lig_Spot z -> y = z.
Proof. destruct y, z; cbn; intros; subst; reflexivity. Qed.

Lemma none_omit {A} (d : A) o : is_none o = true -> or_some d o = Some d.
Proof. destruct o; [discriminate|reflexivity]. Qed.
Lemma some_kept {A} (d : A) o : is_none o = false -> or_some d o = option_map (fun v => v) o.
Proof. destruct o; [reflexivity|discriminate]. Qed.

Lemma rt_Spot : forall old, rt (c_Spot F) 1 old wf_Spot norm_Spot.
Proof.
  intros old s (Hi & Ho). cbn [c_Spot c_fresh enc dec].
  destruct (rt_fields (fields_Spot F) (fields_Spot F) 0 default_Spot s (norm_Spot s)) with (pre := @nil (string * json)) as (m & Em & Wm & Dm).
  - plain_tac.
  - lens_tac.
  - indep_tac.
  - repeat apply Forall_cons; [..|apply Forall_nil].
    + apply (fspec_intro _ _ _ _ _ _ _ _ _ float_ok (fun v => v)); [apply rt_f64, HF| |].
      * intros O. split; [exact Hi|]. cbn. unfold plain_zero. unfold f64_empty in O. rewrite O. reflexivity.
      * intros O. cbn. unfold plain_zero. unfold f64_empty in O. rewrite O. reflexivity.
    + apply (fspec_intro _ _ _ _ _ _ _ _ _ (opt float_ok) (option_map (fun v => v))); [apply rt_of64, HF| |].
      * intros O. split; [exact Ho|exact (some_kept _ _ O)].
      * intros O. exact (none_omit _ _ O).
  - intros y A K. unfold fields_Spot in A, K. agree_tac A. apply ext_Spot; assumption.
  - apply Forall_nil.
  - exists (JObj m). unfold enc_struct. rewrite Em. split; [reflexivity|]. split; [exact Wm|exact Dm].
Qed.
Lemma rt_Light : forall old, rt (c_Light F) 2 old wf_Light norm_Light.
Proof.
  intros old l (Ht & Hn & Hc & Hi & Hr & Hs). cbn [c_Light c_fresh enc dec].
  destruct (rt_fields (fields_Light F) (fields_Light F) 1 default_Light l (norm_Light l)) with (pre := @nil (string * json)) as (m & Em & Wm & Dm).
  - plain_tac.
  - lens_tac.
  - indep_tac.
  - repeat apply Forall_cons; [..|apply Forall_nil].
    + apply (fspec_intro _ _ _ _ _ _ _ _ _ utf8_str (fun v => v)); [apply rt_str|field_tac|omit_tac].
    + apply (fspec_intro _ _ _ _ _ _ _ _ _ utf8_str (fun v => v)); [apply rt_str|field_tac|omit_tac].
    + apply (fspec_intro _ _ _ _ _ _ _ _ _ (opt (farray 3)) (option_map (fun v => v))); [apply rt_oarr; [exact HF|reflexivity]| |].
      * intros O. split; [exact Hc|exact (some_kept _ _ O)].
      * intros O. exact (none_omit _ _ O).
    + apply (fspec_intro _ _ _ _ _ _ _ _ _ (opt float_ok) (option_map (fun v => v))); [apply rt_of64, HF| |].
      * intros O. split; [exact Hi|exact (some_kept _ _ O)].
      * intros O. exact (none_omit _ _ O).
    + apply (fspec_intro _ _ _ _ _ _ _ _ _ (opt float_ok) (option_map (fun v => v))); [apply rt_of64, HF| |].
      * intros O. split; [exact Hr|exact (some_kept _ _ O)].
      * intros O. exact (none_omit _ _ O).
    + apply (fspec_intro _ _ _ _ _ _ _ _ _ (opt wf_Spot) (option_map norm_Spot)).
      * apply rt_ptr; [intros; apply rt_Spot|intros x j W E; exact (enc_struct_nonnull _ _ _ E)].
      * intros O. split; [exact Hs|reflexivity].
      * intros O. cbn. apply is_none_eq in O. rewrite O. reflexivity.
  - intros y A K. unfold fields_Light in A, K. agree_tac A. apply ext_Light; assumption.
  - apply Forall_nil.
  - exists (JObj m). unfold enc_struct. rewrite Em. split; [reflexivity|]. split; [exact Wm|exact Dm].
Qed.

Lemma light_range m : forall x y, Forall (fun p => forall k, unquote_str (fst p) = Some k -> fold_eq "range" k = false) m ->
  dec_members (fields_Light F) x m = Ok y -> lig_Range y = lig_Range x.
Proof.
  induction m as [|[raw j] m IH]; intros x y H E; cbn [dec_members] in E; [injection E as <-; reflexivity|].
  inversion H as [|? ? Hk H']; subst. cbn [fst] in Hk. apply bind_ok in E. destruct E as (k & K & E).
  apply bind_ok in E. destruct E as (x' & X & E). rewrite (IH _ _ H' E). clear IH E H H'.
  unfold key_of in K. destruct (unquote_str raw) as [k'|]; [|discriminate]. injection K as ->. specialize (Hk k eq_refl).
  destruct (find_field (fields_Light F) k) as [f|] eqn:Ff; [|injection X as <-; reflexivity].
  assert (M : In f (fields_Light F) /\ fold_eq (fname f) k = true).
  { unfold find_field in Ff. destruct (find (fun f => String.eqb (fname f) k) (fields_Light F)) as [g|] eqn:G.
    - injection Ff as <-. apply find_some in G. destruct G as [G1 G2]. split; [exact G1|]. apply String.eqb_eq in G2. rewrite G2.
      unfold fold_eq. destruct (list_eq_dec _ _ _); [reflexivity|contradiction].
    - apply find_some in Ff. exact Ff. }
  destruct M as [M N]. cbn [fields_Light In] in M.
  destruct M as [<-|[<-|[<-|[<-|[<-|[<-|[]]]]]]]; cbn [dec_field fname] in *; try (rewrite Hk in N; discriminate);
    apply bind_ok in X; destruct X as (a & _ & [= <-]); reflexivity.
Qed.
Lemma inf_light l j : lig_Range l = Some f64_inf -> enc (c_Light F) l <> Ok j.
Proof.
  intros R E. cbn [c_Light c_fresh enc] in E. apply bind_ok in E. destruct E as (m & E & _). unfold fields_Light in E. cbn [enc_fields] in E.
  cbn [never] in E. apply bind_ok in E. destruct E as (j1 & _ & E). apply bind_ok in E. destruct E as (m1 & E & _).
  assert (G : forall (b : bool) A (p q : res A) y, (if b then p else q) = Ok y -> p = Ok y \/ q = Ok y) by (intros []; auto).
  apply G in E. destruct E as [E|E]; [|apply bind_ok in E; destruct E as (j2 & _ & E); apply bind_ok in E; destruct E as (m2 & E & _)];
  (apply G in E; destruct E as [E|E]; [|apply bind_ok in E; destruct E as (j3 & _ & E); apply bind_ok in E; destruct E as (m3 & E & _)]);
  (apply G in E; destruct E as [E|E]; [|apply bind_ok in E; destruct E as (j4 & _ & E); apply bind_ok in E; destruct E as (m4 & E & _)]);
  rewrite R in E; cbn in E; discriminate.
Qed.
Lemma traverse_in {A B} (f : A -> res B) l x : In x l -> (forall y, f x <> Ok y) -> forall r, traverse f l <> Ok r.
Proof.
  induction l as [|a l IH]; intros I N r E; [destruct I|]. cbn [traverse] in E. apply bind_ok in E. destruct E as (b & Eb & E).
  apply bind_ok in E. destruct E as (r' & Er & _). destruct I as [->|I]; [exact (N b Eb)|exact (IH I N r' Er)].
Qed.
Lemma rt_Lights : rt (c_Lights F) 3 None (opt (Forall (opt wf_Light))) (option_map (map (option_map norm_Light))).
Proof.
  apply rt_oslice. apply rt_ptr; [intros; apply rt_Light|intros x j W E; exact (enc_struct_nonnull _ _ _ E)].
Qed.

Lemma lights_Marshal_not_object v j : lights_Marshal F v = Ok j -> v <> LightList None -> exists e, lights_Unmarshal F j = Err e.
Proof.
  intros E N. destruct v as [i|[l|]]; cbn in E.
  - injection E as <-. eexists. reflexivity.
  - destruct (traverse _ l) as [js|e|]; cbn in E; try discriminate. injection E as <-. eexists. reflexivity.
  - contradiction.
Qed.
End Lights.

(** ** Unlit *)
Lemma html_key k : string_body (str_bytes k) -> unquote_str (html_str k) = unquote_str k.
Proof. intros H. unfold unquote_str, html_str. rewrite str_bytes_str, (proj2 (html_string _ H)). reflexivity. Qed.
Lemma html_dec_any F j : forall n, wf_json n j -> dec_any F (html_json j) = dec_any F j.
Proof.
  induction j as [|b|s|s|l IH|m IH] using json_ind'; intros n W; try reflexivity.
  - inversion W; subst. cbn [html_json dec_any]. rewrite html_key by assumption. reflexivity.
  - inversion W as [| | | |n' l' H|]; subst. cbn [html_json dec_any].
    replace (traverse (dec_any F) (map html_json l)) with (traverse (dec_any F) l); [reflexivity|].
    clear W. induction l as [|j l IHl]; [reflexivity|]. inversion IH; subst. inversion H; subst. cbn [map traverse].
    rewrite IHl by assumption. erewrite H2 by eassumption. reflexivity.
  - inversion W as [| | | | |n' m' H]; subst. cbn [html_json dec_any].
    match goal with |- (_ <- traverse ?f ?a ;; _) = (_ <- traverse _ ?b ;; _) => replace (traverse f a) with (traverse f b); [reflexivity|] end.
    clear W. induction m as [|[k j] m IHm]; [reflexivity|]. inversion IH; subst. inversion H as [|? ? [Hk Hj] H']; subst. cbn [map traverse fst snd] in *.
    rewrite IHm by assumption. unfold key_of. rewrite html_key by assumption. erewrite H2 by eassumption. reflexivity.
Qed.

Definition rendered (u : list (string * json)) : list (string * json) := map (fun p => (fst p, html_json (snd p))) u.

Lemma unlit_reads n m : wf_json (S n) (JObj m) -> exists u, unlit_UnmarshalJSON (JObj m) = Ok u /\ sorted_keys u /\
  (forall k j, In (k, j) u <-> last_member m k j).
Proof.
  intros W. inversion W as [| | | | |n' m' H]; subst.
  assert (T : exists raw, traverse (fun p => k <- key_of (fst p) ;; Ok (k, snd p)) m = Ok raw).
  { clear W. induction H as [|[k v] m [H _] _ (raw & E)]; [eexists; reflexivity|]. destruct (key_total k H) as [s K].
    cbn [traverse fst snd] in *. rewrite K. cbn [bind]. rewrite E. eexists. reflexivity. }
  destruct T as [raw E]. pose proof (keys_last m raw E) as KL.
  assert (S0 : sorted_keys (@nil (string * json))) by constructor.
  assert (S1 : sorted_keys (map_sets [] raw)).
  { unfold map_sets. revert S0. generalize (@nil (string * json)). clear. induction raw as [|p raw IH]; intros l S; [exact S|]. cbn [fold_left].
    apply IH, map_set_sorted, S. }
  exists (map_sets [] raw). cbn [unlit_UnmarshalJSON]. rewrite E. cbn [bind]. rewrite (map_sets_sorted _ S1).
  split; [reflexivity|]. split; [exact S1|]. intros k j. rewrite (map_sets_iff raw [] S0 k j), (proj1 (KL k j)).
  split; [intros [A|[_ []]]; exact A|left; assumption].
Qed.
Lemma unlit_writes n u : sorted_keys u -> Forall (fun p => utf8_str (fst p) /\ wf_json n (snd p)) u ->
  exists j, unlit_Marshal u = Ok j /\ wf_json (S n) j /\ unlit_UnmarshalJSON j = Ok (rendered u).
Proof.
  intros S H. eexists. split; [reflexivity|]. split.
  - constructor. induction H as [|[k j] u [Hk Hj] _ IH]; [constructor|]. cbn [map fst snd] in *. constructor.
    + split; [unfold quote_str; cbn [fst]; rewrite str_bytes_str; apply quote_body|exact (html_wf _ _ Hj)].
    + apply IH. exact (sorted_tail _ _ S).
  - cbn [unlit_UnmarshalJSON].
    assert (T : traverse (fun p => k <- key_of (fst p) ;; Ok (k, snd p)) (map (fun p => (quote_str (fst p), html_json (snd p))) u) = Ok (rendered u)).
    { clear S. induction H as [|[k j] u [Hk Hj] _ IH]; [reflexivity|]. cbn [map traverse fst snd rendered] in *. rewrite key_of_quote by assumption.
      cbn [bind]. rewrite IH. reflexivity. }
    rewrite T. cbn [bind]. pose proof (sorted_map (fun p => html_json (snd p)) u S) as S2. change (sorted_keys (rendered u)) in S2.
    rewrite (map_sets_sorted _ S2), (map_sets_sorted _ S2). reflexivity.
Qed.
Lemma last_member_wf n m k j : wf_json (S n) (JObj m) -> last_member m k j -> utf8_str k /\ wf_json n j.
Proof.
  intros W (m1 & raw & m2 & -> & U & _). inversion W as [| | | | |n' m' H]; subst. rewrite Forall_forall in H.
  specialize (H (raw, j) ltac:(apply in_or_app; right; left; reflexivity)). split; [exact (unquote_str_utf8 _ _ U)|apply H].
Qed.
Lemma rendered_idem u : rendered (rendered u) = rendered u.
Proof. unfold rendered. rewrite map_map. apply map_ext. intros [k j]. cbn [fst snd]. rewrite html_json_idem. reflexivity. Qed.
