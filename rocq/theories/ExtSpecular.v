(** specular: the text surgery yields the text of the tree without the removed
    members when the textures have nothing to edit. *)
From Verif Require Import Base BaseFacts Types Doc F64 F64Facts SpecText JsonText JsonTextProofs JsonStringProofs Codec DocCodec SpecJson SpecJsonDoc
  CodecProofs DocCodecBase DocCodecProofs Ext SpecExt ReplaceProofs SymText ExtTransform.

Inductive tri : Type := Absent | Removed | Kept.
Definition present (all : bool) (t : tri) : bool := match t with Absent => false | Removed => all | Kept => true end.

(** Members in order; [all]: with the removed ones. *)
Definition sg_tree (d s g : tri) (dv sv : list string) (gv : string) (dt st : option json) (all : bool) : list (string * json) :=
  (if present all d then [("diffuseFactor"%string, JArr (map JNum dv))] else []) ++
  (match dt with Some j => [("diffuseTexture"%string, j)] | None => [] end) ++
  (if present all s then [("specularFactor"%string, JArr (map JNum sv))] else []) ++
  (if present all g then [("glossinessFactor"%string, JNum gv)] else []) ++
  (match st with Some j => [("specularGlossinessTexture"%string, j)] | None => [] end).

Definition ones_of (t : tri) (l : list string) (k : nat) : Prop :=
  match t with
  | Absent => True
  | Removed => l = repeat "1"%string k
  | Kept => List.length l = k /\ Forall numlit l
  end.

Definition sg_sym (d s g : tri) (dt st : bool) (all : bool) : list (string * list piece) :=
  (if present all d then [("diffuseFactor"%string, sarr (match d with Removed => repeat (lit (str_bytes "1")) 4 | _ => [[Op 0]; [Op 1]; [Op 2]; [Op 3]] end))] else []) ++
  (if dt then [("diffuseTexture"%string, [Op 8])] else []) ++
  (if present all s then [("specularFactor"%string, sarr (match s with Removed => repeat (lit (str_bytes "1")) 3 | _ => [[Op 4]; [Op 5]; [Op 6]] end))] else []) ++
  (if present all g then [("glossinessFactor"%string, match g with Removed => lit (str_bytes "1") | _ => [Op 7] end)] else []) ++
  (if st then [("specularGlossinessTexture"%string, [Op 9])] else []).

Definition sg_hd (i : nat) : list byte := if (i <? 8)%nat then num_heads else [].
Definition sg_edits (d s g : tri) : list (bytes * bytes) :=
  match g with Removed => rm (member "glossinessFactor" "1") | _ => [] end ++
  match d with Removed => rm (member "diffuseFactor" "[1,1,1,1]") | _ => [] end ++
  match s with Removed => rm (member "specularFactor" "[1,1,1]") | _ => [] end ++ san.

(** All cases by computation on the symbolic texts. *)
Lemma sg_sym_edits d s g dt st : sedits sg_hd (sg_edits d s g) (sobj (sg_sym d s g dt st true)) = Some (sobj (sg_sym d s g dt st false)).
Proof. destruct d, s, g, dt, st; vm_compute; reflexivity. Qed.

Section Surgery.
Context (d s g : tri) (dv sv : list string) (gv : string) (dt st : option json).
Context (Hd : ones_of d dv 4) (Hs : ones_of s sv 3) (Hg : ones_of g [gv] 1).
Definition obj_text (j : json) : Prop := match j with JObj _ => clean_text (print_compact j) | _ => False end.
Context (Hdt : opt obj_text dt) (Hst : opt obj_text st).

Definition num_env (t : tri) (l : list string) (i : nat) : bytes := str_bytes (match t with Kept => nth i l "0" | _ => "0" end)%string.
Definition sg_env (i : nat) : bytes :=
  if (i <? 4)%nat then num_env d dv i
  else if (i <? 7)%nat then num_env s sv (i - 4)
  else if (i =? 7)%nat then num_env g [gv] 0
  else if (i =? 8)%nat then match dt with Some j => print_compact j | None => [] end
  else match st with Some j => print_compact j | None => [] end.

Lemma num_env_number t l k i : ones_of t l k -> json_number (num_env t l i).
Proof.
  unfold num_env. intros H. destruct t; [apply zero_number..|]. destruct H as [L H].
  destruct (Nat.lt_ge_cases i k) as [I|I].
  - rewrite Forall_forall in H. apply H, nth_In. lia.
  - rewrite nth_overflow by lia. apply zero_number.
Qed.
Lemma sg_numbers i : (i < 8)%nat -> json_number (sg_env i).
Proof.
  intros L. unfold sg_env. destruct (Nat.ltb_spec i 4); [exact (num_env_number _ _ _ _ Hd)|].
  destruct (Nat.ltb_spec i 7); [exact (num_env_number _ _ _ _ Hs)|].
  destruct (Nat.eqb_spec i 7); [exact (num_env_number _ _ _ _ Hg)|]. exfalso. lia.
Qed.
Lemma sg_heads : heads_ok sg_env sg_hd.
Proof.
  intros i c p rest M. unfold sg_hd in M. destruct (Nat.ltb_spec i 8); [|discriminate].
  apply number_prefix; [apply sg_numbers; assumption|apply num_heads_special, M].
Qed.
Definition sg_pat (p : bytes) : Prop := In p edited_texts.
Lemma sg_pat_head p : sg_pat p -> exists c p', p = c :: p' /\ special_head c.
Proof. intros H. repeat (destruct H as [<-|H]; [eexists; eexists; split; [reflexivity|vm_compute; tauto]|]). destruct H. Qed.
Lemma sg_pat_closed p : sg_pat p -> ~ In "}"%char (removelast p).
Proof.
  intros H. repeat (destruct H as [<-|H]; [vm_compute; intros C; repeat (destruct C as [C|C]; [discriminate|]); destruct C|]). destruct H.
Qed.
Lemma obj_closed m : exists t, print_compact (JObj m) = t ++ ["}"%char].
Proof.
  destruct m as [|[k v] m]; [exists ["{"%char]; reflexivity|]. rewrite print_compact_obj.
  eexists ("{"%char :: str_text k ++ ":"%char :: print_compact v ++ flat_map _ m).
  rewrite <- app_comm_cons, <- app_assoc, <- app_comm_cons, <- app_assoc. reflexivity.
Qed.
Lemma obj_skips j p : obj_text j -> sg_pat p -> skips p (print_compact j).
Proof.
  destruct j; cbn [obj_text]; try contradiction. intros C P. unfold clean_text in C. rewrite Forall_forall in C. specialize (C p P).
  destruct (obj_closed m) as [t E]. rewrite E in *. apply skips_closed; [exact C|apply sg_pat_closed, P].
Qed.
Lemma sg_skips p i : sg_pat p -> skips p (sg_env i).
Proof.
  intros P. destruct (Nat.lt_ge_cases i 8) as [L|L].
  - destruct (sg_pat_head p P) as (c & p' & -> & S). apply number_skips; [apply sg_numbers, L|exact S].
  - unfold sg_env. destruct (Nat.ltb_spec i 4); [lia|]. destruct (Nat.ltb_spec i 7); [lia|]. destruct (Nat.eqb_spec i 7); [lia|].
    destruct (i =? 8)%nat.
    + destruct dt as [j|]; [apply obj_skips; assumption|apply skips_nil].
    + destruct st as [j|]; [apply obj_skips; assumption|apply skips_nil].
Qed.

Lemma sg_den all : print_compact (JObj (sg_tree d s g dv sv gv dt st all)) = den sg_env (sobj (sg_sym d s g (is_some dt) (is_some st) all)).
Proof.
  apply den_obj. unfold sg_tree, sg_sym. repeat apply Forall2_app.
  - destruct d eqn:Ed; cbn [present]; [constructor| |].
    + destruct all; constructor; [|constructor]. split; [reflexivity|]. cbn [fst snd]. cbn [ones_of] in Hd. rewrite Hd. reflexivity.
    + constructor; [|constructor]. split; [reflexivity|]. cbn [fst snd]. apply den_arr.
      cbn [ones_of] in Hd. destruct Hd as [L _].
      destruct dv as [|a [|b [|c [|e [|]]]]] eqn:Ev; try discriminate L.
      repeat apply Forall2_cons; [..|apply Forall2_nil]; cbn; rewrite app_nil_r; unfold sg_env, num_env; cbn; rewrite ?Ed, ?Es, ?Ev; reflexivity.
  - destruct dt as [j|] eqn:E; constructor; [|constructor]. split; [reflexivity|]. cbn. rewrite app_nil_r. unfold sg_env. cbn. rewrite ?E. reflexivity.
  - destruct s eqn:Es; cbn [present]; [constructor| |].
    + destruct all; constructor; [|constructor]. split; [reflexivity|]. cbn [fst snd]. cbn [ones_of] in Hs. rewrite Hs. reflexivity.
    + constructor; [|constructor]. split; [reflexivity|]. cbn [fst snd]. apply den_arr.
      cbn [ones_of] in Hs. destruct Hs as [L _].
      destruct sv as [|a [|b [|c [|]]]] eqn:Ev; try discriminate L.
      repeat apply Forall2_cons; [..|apply Forall2_nil]; cbn; rewrite app_nil_r; unfold sg_env, num_env; cbn; rewrite ?Ed, ?Es, ?Ev; reflexivity.
  - destruct g eqn:Eg; cbn [present]; [constructor| |].
    + destruct all; constructor; [|constructor]. split; [reflexivity|]. cbn [fst snd]. cbn [ones_of] in Hg. injection Hg as E. rewrite E. reflexivity.
    + constructor; [|constructor]. split; [reflexivity|]. cbn. rewrite app_nil_r. unfold sg_env, num_env. cbn. rewrite Eg. reflexivity.
  - destruct st as [j|] eqn:E; constructor; [|constructor]. split; [reflexivity|]. cbn. rewrite app_nil_r. unfold sg_env. cbn. rewrite ?E. reflexivity.
Qed.

Lemma sg_edits_pats : Forall (fun e : bytes * bytes => sg_pat (fst e)) (sg_edits d s g).
Proof.
  unfold sg_edits, rm, san. destruct d, s, g; cbn [app]; repeat (apply Forall_cons; [vm_compute; tauto|]); apply Forall_nil.
Qed.
Lemma sg_surgery : edits (sg_edits d s g) (print_compact (JObj (sg_tree d s g dv sv gv dt st true))) =
  print_compact (JObj (sg_tree d s g dv sv gv dt st false)).
Proof.
  rewrite !sg_den. apply (sedits_sound sg_env sg_hd); [exact sg_heads| | |apply sg_sym_edits].
  - eapply Forall_impl; [|exact sg_edits_pats]. intros e P. destruct (sg_pat_head _ P) as (c & p' & -> & _). discriminate.
  - intros i _. eapply Forall_impl; [|exact sg_edits_pats]. intros e P. apply sg_skips, P.
Qed.
End Surgery.

(** ** The values *)
Section SG.
Context (F : float_lib) (X : ext_lib) (n : nat) (HF : float_contract F) (HT : float_text F).

Definition tri_of {A} (eqb : A -> A -> bool) (v : A) (o : option A) : tri :=
  match o with None => Absent | Some w => if eqb w v then Removed else Kept end.
Definition texts (o : option (list Z)) : list string := match o with Some l => map (fmt64 F) l | None => [] end.
Definition text1 (o : option Z) : string := match o with Some f => fmt64 F f | None => "" end.
Definition kept_SG : list (field PBRSpecularGlossiness) := [
  Fld "diffuseFactor" sg_DiffuseFactor set_sg_DiffuseFactor (c_ptr (repeat 0 4) (c_array 0 (c_f64 F))) (oarr_default (repeat f64_one 4));
  Fld "diffuseTexture" sg_DiffuseTexture set_sg_DiffuseTexture (c_ptr zero_TextureInfo (c_TextureInfo F X)) is_none;
  Fld "specularFactor" sg_SpecularFactor set_sg_SpecularFactor (c_ptr (repeat 0 3) (c_array 0 (c_f64 F))) (oarr_default (repeat f64_one 3));
  Fld "glossinessFactor" sg_GlossinessFactor set_sg_GlossinessFactor (c_ptr 0 (c_f64 F)) (opt_default f64_one);
  Fld "specularGlossinessTexture" sg_SpecularGlossinessTexture set_sg_SpecularGlossinessTexture
    (c_ptr zero_TextureInfo (c_TextureInfo F X)) is_none
].

Lemma enc_floats l : Forall float_ok l -> traverse (enc_f64 F) l = Ok (map JNum (map (fmt64 F) l)).
Proof.
  induction 1 as [|f l [_ Hf] _ IH]; [reflexivity|]. cbn [traverse map]. unfold enc_f64 at 1. rewrite Hf. cbn [bind]. rewrite IH. reflexivity.
Qed.
Lemma ones_text k o l : o = Some l -> farray k l -> ones_of (tri_of arr_eq (repeat f64_one k) o) (texts o) k.
Proof.
  intros -> [L W]. cbn [tri_of texts]. destruct (arr_eq l (repeat f64_one k)) eqn:E; cbn [ones_of].
  - apply arr_eq_pos in E; [|exact W|]. 
    + subst l. clear - HT. change f64_one with one. induction k; [reflexivity|]. cbn [repeat map]. rewrite (proj2 (proj2 HT)), IHk. reflexivity.
    + apply Forall_forall. intros x Hx. apply repeat_spec in Hx. subst x. vm_compute. split; reflexivity.
  - rewrite map_length. split; [exact L|]. apply Forall_map. eapply Forall_impl; [|exact W]. intros a Ha. apply fmt_numlit; assumption.
Qed.
Lemma ones_text' k o : opt (farray k) o -> ones_of (tri_of arr_eq (repeat f64_one k) o) (texts o) k.
Proof. destruct o as [l|]; [|intros; exact I]. intros W. apply (ones_text k _ l); [reflexivity|exact W]. Qed.
Lemma one_text o : opt float_ok o -> ones_of (tri_of f64_eq f64_one o) [text1 o] 1.
Proof.
  destruct o as [f|]; [|intros; exact I]. cbn [opt tri_of text1]. intros W. destruct (f64_eq f f64_one) eqn:E; cbn [ones_of].
  - apply f64_eq_pos in E; [|exact W|vm_compute; split; reflexivity]. subst f. change f64_one with one. rewrite (proj2 (proj2 HT)). reflexivity.
  - split; [reflexivity|]. constructor; [apply fmt_numlit; assumption|constructor].
Qed.

Definition tex_json (o : option TextureInfo) (oj : option json) : Prop :=
  match o, oj with
  | None, None => True
  | Some t, Some j => enc (c_TextureInfo F X) t = Ok j /\ exists m, j = JObj m
  | _, _ => False
  end.
Lemma tex_enc o : opt (wf_TextureInfo X n) o -> exists oj, tex_json o oj.
Proof.
  destruct o as [t|]; [|exists None; exact I]. intros W. destruct (rt_TextureInfo F X HF n zero_TextureInfo eq_refl t W) as (j & E & _).
  exists (Some j). split; [exact E|]. cbn in E. unfold enc_struct in E. destruct (enc_fields (fields_TextureInfo F X) t); try discriminate E.
  injection E as <-. eexists. reflexivity.
Qed.

Lemma sg_enc p dj sj (fd fs : option (list Z) -> bool) (fg : option Z -> bool) all :
  opt (farray 4) (sg_DiffuseFactor p) -> opt (farray 3) (sg_SpecularFactor p) -> opt float_ok (sg_GlossinessFactor p) ->
  tex_json (sg_DiffuseTexture p) dj -> tex_json (sg_SpecularGlossinessTexture p) sj ->
  fd (sg_DiffuseFactor p) = negb (present all (tri_of arr_eq (repeat f64_one 4) (sg_DiffuseFactor p))) ->
  fs (sg_SpecularFactor p) = negb (present all (tri_of arr_eq (repeat f64_one 3) (sg_SpecularFactor p))) ->
  fg (sg_GlossinessFactor p) = negb (present all (tri_of f64_eq f64_one (sg_GlossinessFactor p))) ->
  enc_fields [
    Fld "diffuseFactor" sg_DiffuseFactor set_sg_DiffuseFactor (c_ptr (repeat 0 4) (c_array 0 (c_f64 F))) fd;
    Fld "diffuseTexture" sg_DiffuseTexture set_sg_DiffuseTexture (c_ptr zero_TextureInfo (c_TextureInfo F X)) is_none;
    Fld "specularFactor" sg_SpecularFactor set_sg_SpecularFactor (c_ptr (repeat 0 3) (c_array 0 (c_f64 F))) fs;
    Fld "glossinessFactor" sg_GlossinessFactor set_sg_GlossinessFactor (c_ptr 0 (c_f64 F)) fg;
    Fld "specularGlossinessTexture" sg_SpecularGlossinessTexture set_sg_SpecularGlossinessTexture
      (c_ptr zero_TextureInfo (c_TextureInfo F X)) is_none] p =
  Ok (sg_tree (tri_of arr_eq (repeat f64_one 4) (sg_DiffuseFactor p)) (tri_of arr_eq (repeat f64_one 3) (sg_SpecularFactor p))
        (tri_of f64_eq f64_one (sg_GlossinessFactor p)) (texts (sg_DiffuseFactor p)) (texts (sg_SpecularFactor p))
        (text1 (sg_GlossinessFactor p)) dj sj all).
Proof.
  destruct p as [d dt s g st]. cbn [sg_DiffuseFactor sg_DiffuseTexture sg_SpecularFactor sg_GlossinessFactor sg_SpecularGlossinessTexture].
  intros Wd Ws Wg Td Ts Ed Es Eg. cbn [enc_fields sg_DiffuseFactor sg_DiffuseTexture sg_SpecularFactor sg_GlossinessFactor sg_SpecularGlossinessTexture].
  rewrite Ed, Es, Eg. unfold sg_tree. cbn [c_ptr enc c_array c_f64].
  assert (Q : forall k o j, present all (tri_of arr_eq (repeat f64_one k) o) = true -> opt (farray k) o ->
    match o with None => Ok JNull | Some a => js <- traverse (enc_f64 F) a ;; Ok (JArr js) end = j -> j = Ok (JArr (map JNum (texts o)))).
  { intros k o j P W <-. destruct o as [l|]; [|discriminate P]. rewrite enc_floats by apply W. reflexivity. }
  assert (G : forall o j, present all (tri_of f64_eq f64_one o) = true -> opt float_ok o ->
    match o with None => Ok JNull | Some a => enc_f64 F a end = j -> j = Ok (JNum (text1 o))).
  { intros o j P W <-. destruct o as [f|]; [|discriminate P]. unfold enc_f64. rewrite (proj2 W). reflexivity. }
  destruct (present all (tri_of arr_eq (repeat f64_one 4) d)) eqn:Pd; [rewrite (Q 4%nat d _ Pd Wd eq_refl)|];
  destruct (present all (tri_of arr_eq (repeat f64_one 3) s)) eqn:Ps; try rewrite (Q 3%nat s _ Ps Ws eq_refl);
  destruct (present all (tri_of f64_eq f64_one g)) eqn:Pg; try rewrite (G g _ Pg Wg eq_refl); clear Q G Ed Es Eg;
  destruct dt as [t|], dj as [j|]; try contradiction Td; destruct st as [t'|], sj as [j'|]; try contradiction Ts;
  cbn [negb is_none bind]; cbn [tex_json] in Td, Ts;
  try rewrite (proj1 Td); try rewrite (proj1 Ts); reflexivity.
Qed.

Lemma sg_text p : wf_SG X n p -> clean_SG F X p ->
  exists m, enc_fields kept_SG p = Ok m /\ sg_MarshalJSON F X p = Ok (print_compact (JObj m)).
Proof.
  intros (Wd & Wdt & Ws & Wg & Wst) [Cd Cs].
  destruct (tex_enc _ Wdt) as [dj Td]. destruct (tex_enc _ Wst) as [sj Ts].
  eexists. split.
  - apply (sg_enc p dj sj _ _ _ false Wd Ws Wg Td Ts).
    + destruct (sg_DiffuseFactor p); cbn; [destruct (arr_eq l _)|]; reflexivity.
    + destruct (sg_SpecularFactor p); cbn; [destruct (arr_eq l _)|]; reflexivity.
    + destruct (sg_GlossinessFactor p); cbn [opt_default tri_of]; [destruct (f64_eq z _)|]; reflexivity.
  - unfold sg_MarshalJSON, enc_struct, fields_SG.
    rewrite (sg_enc p dj sj is_none is_none is_none true Wd Ws Wg Td Ts).
    2: destruct (sg_DiffuseFactor p); cbn; [destruct (arr_eq l _)|]; reflexivity.
    2: destruct (sg_SpecularFactor p); cbn; [destruct (arr_eq l _)|]; reflexivity.
    2: destruct (sg_GlossinessFactor p); cbn [is_none tri_of]; [destruct (f64_eq z _)|]; reflexivity.
    cbn [bind]. f_equal.
    rewrite <- (sg_surgery _ _ _ _ _ _ dj sj (ones_text' 4 _ Wd) (ones_text' 3 _ Ws) (one_text _ Wg)).
    + match goal with |- context [print_compact ?x] => generalize (print_compact x) end. intros l.
      unfold sg_edits, is_value, tri_of.
      destruct (sg_GlossinessFactor p) as [g|]; [destruct (f64_eq g f64_one)|];
      (destruct (sg_DiffuseFactor p) as [d|]; [destruct (arr_eq d (repeat f64_one 4))|]);
      (destruct (sg_SpecularFactor p) as [s|]; [destruct (arr_eq s (repeat f64_one 3))|]); reflexivity.
    + destruct (sg_DiffuseTexture p) as [t|], dj as [j|]; try contradiction Td; [|exact I].
      destruct Td as [Td [m ->]]. exact (Cd _ Td).
    + destruct (sg_SpecularGlossinessTexture p) as [t|], sj as [j|]; try contradiction Ts; [|exact I].
      destruct Ts as [Ts [m ->]]. exact (Cs _ Ts).
Qed.

Lemma ext_SG y z : sg_DiffuseFactor y = sg_DiffuseFactor z -> sg_DiffuseTexture y = sg_DiffuseTexture z -> sg_SpecularFactor y = sg_SpecularFactor z ->
  sg_GlossinessFactor y = sg_GlossinessFactor z -> sg_SpecularGlossinessTexture y = sg_SpecularGlossinessTexture z -> y = z.
Proof. destruct y, z; cbn; intros; subst; reflexivity. Qed.

Lemma rt_oarr k old m : match old with Some o => List.length o = k | None => True end ->
  rt (c_ptr (repeat 0 k) (c_array 0 (c_f64 F))) (S m) old (opt (farray k)) (option_map (fun v => v)).
Proof.
  intros H. apply rt_ptr.
  - intros o Ho. apply rt_array; [intros; apply rt_f64, HF|]. destruct Ho as [->|[-> ->]]; [exact H|apply repeat_length].
  - intros x j _ E. cbn in E. destruct (traverse (enc_f64 F) x); cbn in E; try discriminate. injection E as <-. discriminate.
Qed.

Lemma sg_fields p : wf_SG X n p -> exists m, enc_fields kept_SG p = Ok m /\ wf_json (n + 3) (JObj m) /\
  sg_UnmarshalJSON F X (JObj m) = Ok (norm_SG X p).
Proof.
  intros (Wd & Wdt & Ws & Wg & Wst). unfold sg_UnmarshalJSON. replace (n + 3)%nat with (S (n + 2)) by lia.
  destruct (rt_fields kept_SG kept_SG (n + 2) default_SG p (norm_SG X p)) with (pre := @nil (string * json)) as (m & Em & Wm & Dm).
  - plain_tac.
  - lens_tac.
  - indep_tac.
  - repeat apply Forall_cons; [..|apply Forall_nil].
    + apply (fspec_intro _ _ _ _ _ _ _ _ _ (opt (farray 4)) (option_map (fun v => v))); [apply (rt_mono _ (S n)); [apply rt_oarr; reflexivity|lia]|field_tac|omit_tac].
    + apply (fspec_intro _ _ _ _ _ _ _ _ _ (opt (wf_TextureInfo X n)) (option_map (norm_TextureInfo X))); [apply rt_ptr_TextureInfo; [exact HF|reflexivity]|field_tac|omit_tac].
    + apply (fspec_intro _ _ _ _ _ _ _ _ _ (opt (farray 3)) (option_map (fun v => v))); [apply (rt_mono _ (S n)); [apply rt_oarr; reflexivity|lia]|field_tac|].
      intros O. refine (oarr_default_eq _ 3 _ _ _ O); [repeat constructor; vm_compute; reflexivity | assumption].
    + apply (fspec_intro _ _ _ _ _ _ _ _ _ (opt float_ok) (option_map (fun v => v))); [apply rt_of64, HF|field_tac|omit_tac].
    + apply (fspec_intro _ _ _ _ _ _ _ _ _ (opt (wf_TextureInfo X n)) (option_map (norm_TextureInfo X))); [apply rt_ptr_TextureInfo; [exact HF|reflexivity]|field_tac|omit_tac].
  - intros y A K. unfold kept_SG in A, K. agree_tac A. apply ext_SG; assumption.
  - apply Forall_nil.
  - exists m. split; [exact Em|]. split; [exact Wm|]. rewrite <- Dm. apply dec_struct_same. repeat constructor.
Qed.
End SG.

(** ** Textures without extras and extensions *)
Lemma replace1_length p t : occurs p t -> (List.length (replace1 p [] t) + List.length p = List.length t)%nat.
Proof.
  induction t as [|c t IH]; intros O.
  - destruct O as (a & b & E). destruct a, p; try discriminate. reflexivity.
  - cbn [replace1]. destruct (has_prefix p (c :: t)) eqn:H.
    + apply has_prefix_app in H. destruct H as [s E]. rewrite E, skipn_app, skipn_all, Nat.sub_diag, !app_length. cbn. lia.
    + cbn [List.length]. rewrite <- IH; [reflexivity|]. destruct O as (a & b & E). destruct a as [|x a].
      * exfalso. rewrite E in H. enough (has_prefix p ([] ++ p ++ b) = true) by congruence. apply has_prefix_app. exists b. reflexivity.
      * injection E as _ E. exists a, b. exact E.
Qed.
Lemma sreplace_absent env hd p l : heads_ok env hd -> p <> [] -> (forall i, In (Op i) l -> skips p (env i)) ->
  sreplace hd p [] l = Some l -> ~ occurs p (den env l).
Proof.
  intros H N S E O. apply replace1_length in O. rewrite <- (sreplace_sound env hd p [] l l H N S E) in O at 2.
  change (den env []) with (@nil byte) in O. destruct p; [contradiction|cbn in O; lia].
Qed.

Lemma bare_clean F X t : in_i64 (txi_Index t) -> in_i64 (txi_TexCoord t) -> bare_texture t -> clean_texture F X t.
Proof.
  intros I1 I2 [Be Bx] j E.
  destruct t as [e x i c]. cbn [txi_Extensions txi_Extras txi_Index txi_TexCoord] in *. subst e x.
  set (env := fun k : nat => if (k =? 0)%nat then str_bytes (fmt_int i) else str_bytes (fmt_int c)).
  assert (NE : forall k, json_number (env k)).
  { intros k. unfold env. destruct (k =? 0)%nat; apply int_numlit; assumption. }
  assert (HH : heads_ok env (fun _ => num_heads)).
  { intros k ch p rest M. apply number_prefix; [apply NE|apply num_heads_special, M]. }
  assert (G : forall l, print_compact j = den env l -> Forall (fun p => sreplace (fun _ => num_heads) p [] l = Some l) edited_texts -> clean_text (print_compact j)).
  { intros l D A. unfold clean_text. rewrite Forall_forall in A |- *. intros p P. specialize (A p P). rewrite D.
    destruct (sg_pat_head p P) as (ch & p' & -> & S).
    apply (sreplace_absent env (fun _ => num_heads)); [exact HH|discriminate| |exact A]. intros k _. apply number_skips; [apply NE|exact S]. }
  cbn in E. unfold enc_struct in E. cbn in E. destruct (z_zero c) eqn:Z; cbn in E; injection E as <-.
  - apply (G (sobj [("index"%string, [Op 0])])).
    + apply den_obj. constructor; [|constructor]. split; [reflexivity|]. cbn. rewrite app_nil_r. reflexivity.
    + repeat (apply Forall_cons; [vm_compute; reflexivity|]). apply Forall_nil.
  - apply (G (sobj [("index"%string, [Op 0]); ("texCoord"%string, [Op 1])])).
    + apply den_obj. constructor; [|constructor; [|constructor]]; (split; [reflexivity|]; cbn; rewrite app_nil_r; reflexivity).
    + repeat (apply Forall_cons; [vm_compute; reflexivity|]). apply Forall_nil.
Qed.
