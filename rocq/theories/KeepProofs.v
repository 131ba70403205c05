(** What is read back of any Go value, base types. *)
From Verif Require Import Base BaseFacts Types Doc F64 SpecText JsonText JsonStringProofs Codec DocCodec SpecJson SpecJsonDoc CodecProofs CodecInv DocCodecBase
  MarshalProofs MeaningUnique SpecGo SpecKeep.

(** ** Values that encode and are read again *)
Definition fit_attrs (m : list (string * Z)) : Prop := Forall (fun p => in_i64 (snd p)) m.

(** Values of type any nested at most [n] deep, with finite numbers. *)
Inductive fit_any : nat -> any -> Prop :=
| fa_null n : fit_any n VNull
| fa_bool n b : fit_any n (VBool b)
| fa_num n f : float_ok f -> fit_any n (VNum f)
| fa_str n s : fit_any n (VStr s)
| fa_arr n l : Forall (fit_any n) l -> fit_any (S n) (VArr l)
| fa_obj n m : Forall (fun p => fit_any n (snd p)) m -> fit_any (S n) (VObj m).
Section FitExt.
Context (X : ext_lib) (rep : string -> string).
Definition fit_extv (n : nat) (k : string) (e : extv) : Prop :=
  match e with EVal v => exists j, ext_enc X k v = Ok j | ERaw _ => True end /\
  wf_payload X n (rep k) (written_payload X k e).
Definition fit_ext (n : nat) (m : Extensions) : Prop := Forall (fun p => fit_extv n (fst p) (snd p)) m.
End FitExt.

(** ** Repairing is a function *)
Lemma nil_utf8 r t : [] <> utf8 r ++ t.
Proof. intros E. destruct (utf8 r) eqn:U; [exact (utf8_nonnil r U)|discriminate]. Qed.
Lemma repaired_fun s a : repaired s a -> forall b, repaired s b -> a = b.
Proof.
  intros A. induction A as [|r s s' Sr A IH|c s s' N A IH]; intros t B.
  - inversion B as [E|r s s' Sr R E1 E2|]; [reflexivity|]. destruct (nil_utf8 _ _ (eq_sym E1)).
  - inversion B as [E|r2 s2 s2' Sr2 R2 E1 E2|c s2 s2' N2 R2 E1 E2].
    + destruct (nil_utf8 _ _ E).
    + destruct (utf8_inj_app _ _ _ _ Sr2 Sr E1) as [-> ->]. rewrite (IH _ R2). reflexivity.
    + destruct (N2 r s Sr E1).
  - inversion B as [|r2 s2 s2' Sr2 R2 E1 E2|c2 s2 s2' N2 R2 E1 E2].
    + destruct (N r2 s2 Sr2 (eq_sym E1)).
    + rewrite (IH _ R2). reflexivity.
Qed.
Lemma str_bytes_inj a b : str_bytes a = str_bytes b -> a = b.
Proof. intros E. rewrite <- (bytes_str_bytes a), <- (bytes_str_bytes b), E. reflexivity. Qed.
Lemma unquote_quote_rep rep : repairs rep -> forall s, unquote_str (quote_str s) = Some (rep s).
Proof.
  intros R s. unfold unquote_str, quote_str. rewrite str_bytes_bytes. destruct (unquote_quote (str_bytes s)) as (t & Rt & ->).
  rewrite (repaired_fun _ _ Rt _ (R s)), bytes_str_bytes. reflexivity.
Qed.
Lemma repairs_exists : exists rep, repairs rep.
Proof.
  exists (fun s => match unquote_str (quote_str s) with Some t => t | None => s end). intros s.
  unfold unquote_str, quote_str. rewrite str_bytes_bytes. destruct (unquote_quote (str_bytes s)) as (t & Rt & ->).
  rewrite str_bytes_bytes. exact Rt.
Qed.
Lemma repairs_unique rep rep' : repairs rep -> repairs rep' -> forall s, rep s = rep' s.
Proof. intros R R' s. apply str_bytes_inj. exact (repaired_fun _ _ (R s) _ (R' s)). Qed.
Lemma repairs_utf8 rep : repairs rep -> forall s, utf8_str s -> rep s = s.
Proof.
  intros R s U. pose proof (unquote_quote_rep rep R s) as E. rewrite (unquote_quote_str s U) in E. injection E as E. symmetry. exact E.
Qed.

(** ** Keys that collide *)
Lemma put_iff {A} k (v : A) m p : In p (put k v m) <-> p = (k, v) \/ In p m.
Proof.
  induction m as [|q m IH]; cbn [put].
  - cbn. intuition.
  - destruct (String.compare k (fst q)); cbn [In]; rewrite ?IH; intuition.
Qed.
Lemma put_sorted {A} k (v : A) m : sorted_keys m -> Forall (fun p => fst p <> k) m -> sorted_keys (put k v m).
Proof.
  intros S. induction S as [|q|q r m L S IH]; intros N.
  - constructor.
  - cbn [put]. pose proof (Forall_inv N) as N1. destruct (String.compare k (fst q)) eqn:E.
    + apply compare_eq in E. destruct (N1 (eq_sym E)).
    + constructor; [exact E|constructor].
    + constructor; [apply compare_gt; exact E|constructor].
  - specialize (IH (Forall_inv_tail N)). cbn [put] in *. pose proof (Forall_inv N) as N1.
    destruct (String.compare k (fst q)) eqn:E.
    + apply compare_eq in E. destruct (N1 (eq_sym E)).
    + constructor; [exact E|]. constructor; assumption.
    + destruct (String.compare k (fst r)) eqn:E2; constructor; try assumption. apply compare_gt. exact E.
Qed.
Lemma has_key_false {A} k (m : list (string * A)) : has_key k m = false <-> Forall (fun p => fst p <> k) m.
Proof.
  induction m as [|p m IH]; cbn; [split; [constructor|reflexivity]|]. rewrite orb_false_iff, IH, String.eqb_neq. split.
  - intros [N F]. constructor; assumption.
  - intros F. split; [exact (Forall_inv F)|exact (Forall_inv_tail F)].
Qed.
Lemma collect_spec {A} (m : list (string * A)) : sorted_keys (collect m) /\ forall k v, In (k, v) (collect m) <-> last_of m k v.
Proof.
  induction m as [|[k v] m [S H]]; cbn [collect].
  - split; [constructor|]. intros k v. split; [intros []|]. intros (l1 & l2 & E & _). destruct l1; discriminate.
  - destruct (has_key k m) eqn:K.
    + split; [exact S|]. intros k' v'. rewrite H. split.
      * intros (l1 & l2 & -> & F). exists ((k, v) :: l1), l2. split; [reflexivity|exact F].
      * intros ([|p l1] & l2 & E & F); cbn [app] in E.
        -- injection E as -> -> ->. apply has_key_false in F. congruence.
        -- injection E as _ ->. exists l1, l2. split; [reflexivity|exact F].
    + apply has_key_false in K. split.
      * apply put_sorted; [exact S|]. rewrite Forall_forall in K |- *. intros [k' v'] Hp. apply H in Hp.
        destruct Hp as (l1 & l2 & -> & _). apply (K (k', v')). apply in_or_app. right. left. reflexivity.
      * intros k' v'. rewrite put_iff, H. split.
        -- intros [[= -> ->]|(l1 & l2 & -> & F)]; [exists [], m; split; [reflexivity|exact K]|].
           exists ((k, v) :: l1), l2. split; [reflexivity|exact F].
        -- intros ([|p l1] & l2 & E & F); cbn [app] in E.
           ++ injection E as -> -> ->. left. reflexivity.
           ++ injection E as _ ->. right. exists l1, l2. split; [reflexivity|exact F].
Qed.
Lemma collect_map_sets {A} (m : list (string * A)) : map_sets [] m = collect m.
Proof.
  destruct (collect_spec m) as [S H]. apply sorted_ext; [|exact S|].
  - apply (map_sets_inv (fun _ => True)); [constructor|constructor|]. apply Forall_forall. intros; exact I.
  - intros k v. rewrite (map_sets_iff m [] sk_nil), H. split; [intros [L|[_ []]]; exact L|left; assumption].
Qed.
Lemma collect_sorted {A} (m : list (string * A)) : sorted_keys m -> collect m = m.
Proof. intros S. rewrite <- collect_map_sets. apply map_sets_sorted. exact S. Qed.

(** ** Base types *)
Section Base.
Context (rep : string -> string) (R : repairs rep).
Lemma rep_empty : rep "" = ""%string.
Proof. apply (repairs_utf8 rep R). apply ascii_utf8. reflexivity. Qed.
Lemma rk_str n old : rt c_str n old (fun _ => True) rep.
Proof.
  intros s _. exists (JStr (quote_str s)). split; [reflexivity|]. split; [constructor; apply quote_str_body|].
  cbn. rewrite (unquote_quote_rep rep R). reflexivity.
Qed.
Lemma key_rep k : key_of (quote_str k) = Ok (rep k).
Proof. unfold key_of. rewrite (unquote_quote_rep rep R). reflexivity. Qed.

Lemma rk_attrs n old : old = None -> rt c_attrs (S n) old (opt fit_attrs) (option_map (kept_attrs rep)).
Proof.
  intros ->. intros o W. destruct o as [m|]; [|exists JNull; split; [reflexivity|]; split; [constructor|reflexivity]].
  cbn [opt] in *. unfold fit_attrs in W.
  assert (G : exists js, traverse (fun p => j <- enc c_int (snd p) ;; Ok (quote_str (fst p), j)) m = Ok js /\
    Forall (fun p => string_body (str_bytes (fst p)) /\ wf_json n (snd p)) js /\
    traverse (fun p => k <- key_of (fst p) ;; v <- dec c_int 0 (snd p) ;; Ok (k, v)) js = Ok (map (fun p => (rep (fst p), snd p)) m)).
  { induction W as [|[k v] m Hv F (js & E & J & D)]; [exists []; repeat split; constructor|].
    cbn [fst snd] in Hv. destruct (rt_int n 0 v Hv) as (j & Ej & Wj & Dj).
    exists ((quote_str k, j) :: js). cbn [traverse fst snd]. rewrite Ej. cbn [bind]. rewrite E. cbn [bind].
    split; [reflexivity|]. split; [constructor; [split; [apply quote_str_body|exact Wj]|exact J]|].
    rewrite key_rep. cbn [bind]. rewrite Dj. cbn [bind]. rewrite D. reflexivity. }
  destruct G as (js & E & J & D). exists (JObj js). cbn [c_attrs enc dec]. rewrite E. cbn [bind].
  split; [reflexivity|]. split; [constructor; exact J|]. rewrite D. cbn [bind option_map]. rewrite collect_map_sets. reflexivity.
Qed.

(** ** Enumerations *)
Lemma rk_ct n old : rt c_ct n old (fun _ => True) kept_ct.
Proof.
  intros c _. destruct (ct_valid c) eqn:V.
  - replace (kept_ct c) with c by (destruct c; [reflexivity..|discriminate]). exact (rt_ct n old c V).
  - destruct c; try discriminate. exists (JNum "0"). split; [reflexivity|]. split; [|reflexivity]. constructor. apply (fmt_int_number 0). rewrite big10. lia.
Qed.
Lemma lookup_none {V} (tbl : list (Z * V)) x : Forall (fun p => fst p <> x) tbl -> lookup_by Z.eqb tbl x = None.
Proof.
  intros H. unfold lookup_by. induction H as [|p tbl N H IH]; [reflexivity|]. cbn [find].
  destruct (Z.eqb_spec (fst p) x); [contradiction|exact IH].
Qed.
Ltac table_tac := repeat apply Forall_cons; [..|apply Forall_nil]; cbn [fst]; lia.
Lemma rk_num n old max tbl : 0 <= max < 10 ^ 20 -> forall x, lookup_by Z.eqb tbl x = None ->
  exists j, enc (c_enum_num Z.eqb 0 max tbl) x = Ok j /\ wf_json n j /\
    dec (c_enum_num Z.eqb 0 max tbl) old j = Ok (match lookup_by Z.eqb (swap tbl) 0 with Some e => e | None => 0 end).
Proof.
  intros M x N. exists (JNum (fmt_int 0)). cbn [c_enum_num enc dec]. rewrite N. split; [reflexivity|].
  split; [constructor; apply fmt_int_number; rewrite big10; lia|]. unfold uint_of_json. rewrite parse_fmt_uint by lia. reflexivity.
Qed.
Lemma rk_word n old tbl : forall x, lookup_by Z.eqb tbl x = None -> lookup_by String.eqb (swap tbl) ""%string = None ->
  exists j, enc (c_enum_str Z.eqb 0 false tbl) x = Ok j /\ wf_json n j /\ dec (c_enum_str Z.eqb 0 false tbl) old j = Ok 0.
Proof.
  intros x N E. exists (JStr (quote_str "")). cbn [c_enum_str enc dec]. rewrite N. split; [reflexivity|].
  split; [constructor; apply quote_str_body|]. change (quote_str "") with ""%string. cbn [str_of_json bind].
  change (unquote_str "") with (Some ""%string). cbn [bind]. rewrite E. reflexivity.
Qed.
Lemma rk_mode n old : rt c_mode n old (fun _ => True) kept_mode.
Proof.
  intros x _. unfold kept_mode. destruct ((0 <=? x) && (x <? 7)) eqn:B; [apply rt_mode; unfold range; lia|].
  apply (rk_num n old 255 mode_table); [rewrite big10; lia|]. apply lookup_none. table_tac.
Qed.
Lemma rk_wrap n old : rt c_wrap n old (fun _ => True) (kept_enum 3).
Proof.
  intros x _. unfold kept_enum. destruct ((0 <=? x) && (x <? 3)) eqn:B; [apply rt_wrap; unfold range; lia|].
  apply (rk_num n old 65535 wrap_table); [rewrite big10; lia|]. apply lookup_none. table_tac.
Qed.
Lemma rk_mag n old : rt c_mag n old (fun _ => True) (kept_enum 3).
Proof.
  intros x _. unfold kept_enum. destruct ((0 <=? x) && (x <? 3)) eqn:B.
  - destruct (Z.eq_dec x 0) as [->|N]; [|apply rt_mag; unfold range; lia].
    apply (rk_num n old 65535 mag_table); [rewrite big10; lia|reflexivity].
  - apply (rk_num n old 65535 mag_table); [rewrite big10; lia|]. apply lookup_none. table_tac.
Qed.
Lemma rk_minf n old : rt c_minf n old (fun _ => True) (kept_enum 7).
Proof.
  intros x _. unfold kept_enum. destruct ((0 <=? x) && (x <? 7)) eqn:B.
  - destruct (Z.eq_dec x 0) as [->|N]; [|apply rt_minf; unfold range; lia].
    apply (rk_num n old 65535 minf_table); [rewrite big10; lia|reflexivity].
  - apply (rk_num n old 65535 minf_table); [rewrite big10; lia|]. apply lookup_none. table_tac.
Qed.
Lemma rk_alpha n old : rt c_alpha n old (fun _ => True) (kept_enum 3).
Proof.
  intros x _. unfold kept_enum. destruct ((0 <=? x) && (x <? 3)) eqn:B; [apply rt_alpha; unfold range; lia|].
  apply (rk_word n old alpha_table); [|reflexivity]. apply lookup_none. table_tac.
Qed.
Lemma rk_interp n old : rt c_interp n old (fun _ => True) (kept_enum 3).
Proof.
  intros x _. unfold kept_enum. destruct ((0 <=? x) && (x <? 3)) eqn:B; [apply rt_interp; unfold range; lia|].
  apply (rk_word n old interp_table); [|reflexivity]. apply lookup_none. table_tac.
Qed.
Lemma rk_trs n old : rt c_trs n old (fun _ => True) (kept_enum 4).
Proof.
  intros x _. unfold kept_enum. destruct ((0 <=? x) && (x <? 4)) eqn:B; [apply rt_trs; unfold range; lia|].
  apply (rk_word n old trs_table); [|reflexivity]. apply lookup_none. table_tac.
Qed.

(** ** any and extensions *)
Section Params.
Context (F : float_lib) (X : ext_lib) (HF : float_contract F).
Lemma enc_dec_kept v : forall n, fit_any n v -> exists j, enc_any F v = Ok j /\ wf_json n j /\ dec_any F j = Ok (kept_any rep v).
Proof.
  induction v as [|b|f|s|l IH|m IH] using any_ind'; intros n W; inversion W; subst.
  - exists JNull. repeat split; constructor.
  - exists (JBool b). repeat split; constructor.
  - destruct (enc_dec_any F HF (VNum f) n) as (j & E & J & D); [constructor; assumption|]. exists j. repeat split; assumption.
  - exists (JStr (quote_str s)). split; [reflexivity|]. split; [constructor; apply quote_str_body|].
    cbn. rewrite (unquote_quote_rep rep R). reflexivity.
  - assert (G : exists js, traverse (enc_any F) l = Ok js /\ Forall (wf_json n0) js /\ traverse (dec_any F) js = Ok (map (kept_any rep) l)).
    { clear W. match goal with H : Forall (fit_any n0) l |- _ => revert H end. intros W.
      induction l as [|v l IHl]; [exists []; repeat split; constructor|].
      destruct (IHl (Forall_inv_tail IH) (Forall_inv_tail W)) as (js & E & J & D).
      destruct (Forall_inv IH n0 (Forall_inv W)) as (j & Ej & Wj & Dj).
      exists (j :: js). cbn. rewrite Ej. cbn. rewrite E. cbn. split; [reflexivity|]. split; [constructor; assumption|].
      rewrite Dj. cbn. rewrite D. reflexivity. }
    destruct G as (js & E & J & D). exists (JArr js). cbn. rewrite E. split; [reflexivity|].
    split; [constructor; exact J|]. rewrite D. reflexivity.
  - assert (G : exists js, traverse (fun p => j <- enc_any F (snd p) ;; Ok (quote_str (fst p), j)) m = Ok js /\
      Forall (fun p => string_body (str_bytes (fst p)) /\ wf_json n0 (snd p)) js /\
      traverse (fun p => k <- key_of (fst p) ;; v <- dec_any F (snd p) ;; Ok (k, v)) js = Ok (map (fun p => (rep (fst p), kept_any rep (snd p))) m)).
    { clear W. match goal with H : Forall (fun p => fit_any n0 (snd p)) m |- _ => rename H into W end.
      induction m as [|[k v] l IHl]; [exists []; repeat split; constructor|].
      destruct (IHl (Forall_inv_tail IH) (Forall_inv_tail W)) as (js & E & J & D).
      pose proof (Forall_inv W) as Wv. cbn [snd] in Wv.
      destruct (Forall_inv IH n0 Wv) as (j & Ej & Wj & Dj). cbn [snd] in Ej, Dj.
      exists ((quote_str k, j) :: js). cbn [traverse fst snd map]. rewrite Ej. cbn [bind]. rewrite E. cbn [bind].
      split; [reflexivity|]. split; [constructor; [split; [apply quote_str_body|exact Wj]|exact J]|].
      rewrite key_rep. cbn [bind]. rewrite Dj. cbn [bind]. rewrite D. reflexivity. }
    destruct G as (js & E & J & D). exists (JObj js). cbn [enc_any]. rewrite E. cbn [bind].
    split; [reflexivity|]. split; [constructor; exact J|]. cbn [dec_any]. rewrite D. cbn [bind kept_any].
    rewrite collect_map_sets. reflexivity.
Qed.
Lemma rk_any n old : rt (c_any F) n old (fit_any n) (kept_any rep).
Proof. intros v W. exact (enc_dec_kept v n W). Qed.

Lemma rk_ext n : rt (c_ext X) (S n) [] (fit_ext X rep n) (kept_ext X rep).
Proof.
  intros m W. cbn [c_ext enc dec]. unfold enc_ext, dec_ext, fit_ext in *.
  assert (G : exists js, traverse (fun p => j <- enc_extv X (fst p) (snd p) ;; Ok (quote_str (fst p), j)) m = Ok js /\
    Forall (fun p => string_body (str_bytes (fst p)) /\ wf_json n (snd p)) js /\
    traverse (fun p => k <- key_of (fst p) ;; Ok (k, snd p)) js = Ok (map (fun p => (rep (fst p), html_json (written_payload X (fst p) (snd p)))) m)).
  { induction W as [|[k e] m [We [Wj _]] W (js & E & J & D)]; [exists []; repeat split; constructor|].
    cbn [fst snd] in *. exists ((quote_str k, html_json (written_payload X k e)) :: js). cbn [traverse fst snd map].
    assert (Ej : enc_extv X k e = Ok (html_json (written_payload X k e))).
    { destruct e as [j|v]; [reflexivity|]. destruct We as [j Ee]. cbn [enc_extv written_payload]. rewrite Ee. reflexivity. }
    rewrite Ej. cbn [bind]. rewrite E. cbn [bind].
    split; [reflexivity|]. split; [constructor; [split; [apply quote_str_body|apply html_wf; exact Wj]|exact J]|].
    rewrite key_rep. cbn [bind]. rewrite D. reflexivity. }
  destruct G as (js & E & J & D). exists (JObj js). rewrite E. cbn [bind].
  split; [reflexivity|]. split; [constructor; exact J|]. rewrite D. cbn [bind]. rewrite collect_map_sets.
  (* collecting commutes with the reading of payloads *)
  set (w := map (fun p => (rep (fst p), written_payload X (fst p) (snd p))) m).
  assert (Ec : collect (map (fun p => (rep (fst p), html_json (written_payload X (fst p) (snd p)))) m) = map (fun p => (fst p, html_json (snd p))) (collect w)).
  { replace (map (fun p => (rep (fst p), html_json (written_payload X (fst p) (snd p)))) m) with (map (fun p => (fst p, html_json (snd p))) w) by (unfold w; rewrite map_map; reflexivity).
    destruct (collect_spec w) as [S H]. destruct (collect_spec (map (fun p => (fst p, html_json (snd p))) w)) as [S' H'].
    apply sorted_ext; [exact S'|apply (sorted_map (fun p => html_json (snd p))); exact S|].
    intros k j. rewrite H', (last_of_map (fun _ => html_json)). rewrite in_map_iff. split.
    - intros (a & L & ->). exists (k, a). split; [reflexivity|]. apply H. exact L.
    - intros ([k' a] & [= <- <-] & I). exists a. split; [|reflexivity]. apply H. exact I. }
  rewrite Ec.
  assert (Pl : Forall (fun p => wf_payload X n (fst p) (snd p)) (collect w)).
  { apply Forall_forall. intros [k j] I. apply (proj2 (collect_spec w)) in I. destruct I as (l1 & l2 & E1 & _).
    assert (I : In (k, j) w) by (rewrite E1; apply in_or_app; right; left; reflexivity).
    apply in_map_iff in I. destruct I as (p & [= <- <-] & I). rewrite Forall_forall in W. exact (proj2 (W p I)). }
  pose proof (proj1 (collect_spec w)) as S.
  unfold kept_ext. fold w.
  assert (T : traverse (fun p => v <- dec_extv X (fst p) (snd p) ;; Ok (fst p, v)) (map (fun p => (fst p, html_json (snd p))) (collect w))
    = Ok (map (fun p => (fst p, read_payload X (fst p) (snd p))) (collect w))).
  { clear - Pl. induction Pl as [|[k j] l [_ NP] Pl IH]; [reflexivity|]. cbn [map traverse fst snd] in *.
    assert (Dx : dec_extv X k (html_json j) = Ok (read_payload X k j)).
    { unfold dec_extv, read_payload. destruct (registry X k) as [f|]; [|reflexivity]. specialize (NP f eq_refl). destruct (f (html_json j)); [reflexivity..|contradiction]. }
    rewrite Dx. cbn [bind]. rewrite IH. reflexivity. }
  rewrite T. cbn [bind]. rewrite map_sets_sorted; [reflexivity|].
  apply (sorted_map (fun p => read_payload X (fst p) (snd p))). exact S.
Qed.
End Params.
End Base.
Lemma rk_strs rep (R : repairs rep) n : rt (c_slice ""%string c_str) (S n) [] (fun _ => True) (map rep).
Proof.
  intros l _. apply (rt_slice ""%string c_str n (fun _ => True) rep (rk_str rep R n _)). apply Forall_forall. intros; exact I.
Qed.

(** The value of a written and of an omitted field. *)
Ltac kfield_tac :=
  let O := fresh "O" in
  intros O; split;
  [ first [assumption | exact I]
  | first [ reflexivity
          | symmetry; apply map_id' | symmetry; apply option_map_id' | symmetry; apply option_map_map_id'
          | exact (arr_default_ne _ _ _ O) | exact (opt_default_ne _ _ O) | exact (oarr_default_ne _ _ O)
          | match goal with NV : _ <> ""%string |- _ => cbn; unfold kept_version; apply String.eqb_neq in NV; rewrite NV; reflexivity end ] ].
Ltac komit_tac rep R :=
  let O := fresh "O" in
  intros O;
  first [ discriminate O
        | exact (arr_default_eq _ _ _ O)
        | refine (opt_default_eq _ _ _ _ O); [vm_compute; split; reflexivity | assumption]
        | refine (oarr_default_eq _ 4 _ _ _ O); [repeat constructor; vm_compute; reflexivity | assumption]
        | apply str_empty_eq in O; cbn; rewrite O; exact (rep_empty rep R)
        | apply z_zero_eq in O | apply is_nil_eq in O | apply is_none_eq in O
        | apply any_nil_eq in O | apply negb_eq in O ];
  try (cbn; rewrite O; reflexivity).

(** ** Every value of a program that can be saved fits some depth *)
Definition ev (P : nat -> Prop) : Prop := (forall n m, (n <= m)%nat -> P n -> P m) /\ exists n, P n.
Lemma ev_const (P : Prop) : P -> ev (fun _ => P).
Proof. intros H. split; [auto|exists 0%nat; exact H]. Qed.
Lemma ev_and P Q : ev P -> ev Q -> ev (fun n => P n /\ Q n).
Proof.
  intros [UP [n Hn]] [UQ [m Hm]]. split; [intros a b L [A B]; split; [exact (UP a b L A)|exact (UQ a b L B)]|].
  exists (Nat.max n m). split; [apply (UP n); [lia|exact Hn]|apply (UQ m); [lia|exact Hm]].
Qed.
Lemma ev_all {A} (P : nat -> A -> Prop) l : Forall (fun x => ev (fun n => P n x)) l -> ev (fun n => Forall (P n) l).
Proof.
  intros H. induction H as [|x l Hx H IH]; [split; [constructor|exists 0%nat; constructor]|]. destruct (ev_and _ _ Hx IH) as [U [n Hn]]. split.
  - intros a b L F. destruct (U a b L) as [F1 F2]; [split; [exact (Forall_inv F)|exact (Forall_inv_tail F)]|]. constructor; assumption.
  - exists n. destruct Hn. constructor; assumption.
Qed.
Lemma ev_opt {A} (P : nat -> A -> Prop) o : opt (fun x => ev (fun n => P n x)) o -> ev (fun n => opt (P n) o).
Proof. destruct o as [x|]; cbn; [auto|intros _; split; [auto|exists 0%nat; exact I]]. Qed.
Lemma ev_list {A} (P : nat -> A -> Prop) (G S : A -> Prop) l : (forall x, G x -> S x -> ev (fun n => P n x)) ->
  Forall (opt G) l -> Forall (opt S) l -> ev (fun n => Forall (opt (P n)) l).
Proof.
  intros H HG HS. apply (ev_all (fun n => opt (P n))). rewrite Forall_forall in *. intros o Ho. apply ev_opt.
  specialize (HG o Ho). specialize (HS o Ho). destruct o as [x|]; [|exact I]. exact (H x HG HS).
Qed.
Lemma ev_olist {A} (P : nat -> A -> Prop) (G S : A -> Prop) o : (forall x, G x -> S x -> ev (fun n => P n x)) ->
  opt (Forall (opt G)) o -> opt (Forall (opt S)) o -> ev (fun n => opt (Forall (opt (P n))) o).
Proof.
  intros H HG HS. apply (ev_opt (fun n => Forall (opt (P n)))). destruct o as [l|]; [|exact I]. exact (ev_list P G S l H HG HS).
Qed.
Lemma ev_ptr {A} (P : nat -> A -> Prop) (G S : A -> Prop) o : (forall x, G x -> S x -> ev (fun n => P n x)) ->
  opt G o -> opt S o -> ev (fun n => opt (P n) o).
Proof. intros H HG HS. apply ev_opt. destruct o as [x|]; [|exact I]. exact (H x HG HS). Qed.

Lemma ev_any v : go_any v -> savable_any v -> ev (fun n => fit_any n v).
Proof.
  assert (SH : forall P, ev P -> ev (fun n => match n with O => False | S n => P n end)).
  { intros P [U [n Hn]]. split; [|exists (S n); exact Hn]. intros [|a] [|b] L H; try lia; try contradiction. apply (U a); [lia|exact H]. }
  assert (EX : forall P Q, (forall n, P n <-> Q n) -> ev P -> ev Q).
  { intros P Q H [U [n Hn]]. split; [|exists n; apply H; exact Hn]. intros a b L Qa. apply H. apply (U a b L). apply H. exact Qa. }
  induction v as [|b|f|s|l IH|m IH] using any_ind'; intros G W; inversion G; inversion W; subst.
  - split; [intros; constructor|exists 0%nat; constructor].
  - split; [intros; constructor|exists 0%nat; constructor].
  - assert (float_ok f) by (split; assumption). split; [intros; constructor; assumption|exists 0%nat; constructor; assumption].
  - split; [intros; constructor|exists 0%nat; constructor].
  - apply (EX (fun n => match n with O => False | S n => Forall (fit_any n) l end)).
    + intros [|n]; [split; [intros []|intros K; inversion K]|]. split; [intros K; constructor; exact K|intros K; inversion K; assumption].
    + apply (SH (fun n => Forall (fit_any n) l)). apply ev_all. rewrite Forall_forall in *. intros x Hx. apply IH; auto.
  - apply (EX (fun n => match n with O => False | S n => Forall (fun p => fit_any n (snd p)) m end)).
    + intros [|n]; [split; [intros []|intros K; inversion K]|]. split; [intros K; constructor; exact K|intros K; inversion K; assumption].
    + apply (SH (fun n => Forall (fun p => fit_any n (snd p)) m)). apply (ev_all (fun n p => fit_any n (snd p))). rewrite Forall_forall in *. intros x Hx. apply IH; auto.
Qed.
Lemma ev_ext X rep m : registry_total X -> go_ext X m -> savable_ext X m -> ev (fun n => fit_ext X rep n m).
Proof.
  intros T G W. apply (ev_all (fun n p => fit_extv X rep n (fst p) (snd p))). unfold go_ext, savable_ext in *. rewrite Forall_forall in *. intros [k e] Hp.
  specialize (G _ Hp). specialize (W _ Hp). cbn [fst snd] in *.
  assert (L : lexical (written_payload X k e)).
  { destruct e as [j|v]; cbn in *; [exact G|]. destruct W as [j E]. rewrite E in *. exact G. }
  assert (NP : forall f, registry X (rep k) = Some f -> f (html_json (written_payload X k e)) <> Panic) by (intros f Hf; exact (T _ f _ Hf)).
  assert (EE : match e with EVal v => exists j, ext_enc X k v = Ok j | ERaw _ => True end) by (destruct e; assumption).
  split.
  - intros a b Lb [_ [H _]]. split; [exact EE|]. split; [|exact NP]. exact (wf_json_mono _ a b H Lb).
  - destruct L as [n L]. exists n. split; [exact EE|]. split; [exact L|exact NP].
Qed.
Lemma fit_float f : go_float f -> finite f -> float_ok f.
Proof. intros G H. split; assumption. Qed.
Lemma fit_ofloat o : opt go_float o -> opt finite o -> opt float_ok o.
Proof. destruct o; cbn; [apply fit_float|auto]. Qed.
Lemma fit_floats l : Forall go_float l -> Forall finite l -> Forall float_ok l.
Proof. rewrite !Forall_forall. intros G H x I. split; [exact (G x I)|exact (H x I)]. Qed.
Lemma fit_farray k l : go_array k l -> Forall finite l -> farray k l.
Proof. intros [L G] H. split; [exact L|exact (fit_floats l G H)]. Qed.
Lemma fit_ofarray k o : opt (go_array k) o -> opt (Forall finite) o -> opt (farray k) o.
Proof. destruct o; cbn; [apply fit_farray|auto]. Qed.
