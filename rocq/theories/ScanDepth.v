(** Text nested deeper than the limit of encoding/json is a syntax error,
    whatever the white space. *)
From Verif Require Import Base BaseFacts Doc JsonText SpecText JsonTextProofs JsonStringProofs CodecProofs SpecGo.

Definition nest_l (l : list json) : nat := fold_right (fun v => Nat.max (nesting v)) 0%nat l.
Definition nest_m (m : list (string * json)) : nat := fold_right (fun p => Nat.max (nesting (snd p))) 0%nat m.

Lemma wf_nesting j : forall n, wf_json n j -> wf_json (nesting j) j /\ (nesting j <= n)%nat.
Proof.
  induction j as [|b|s|s|l IH|m IH] using json_ind'; intros n W; inversion W; subst; cbn [nesting]; try (split; [constructor; assumption|lia]); try (split; [constructor|lia]).
  - change (fold_right (fun v => Nat.max (nesting v)) 0%nat l) with (nest_l l).
    assert (G : Forall (wf_json (nest_l l)) l /\ (nest_l l <= n0)%nat).
    { clear W. induction l as [|v l IHl]; [split; [constructor|cbn; lia]|]. apply Forall_cons_iff in IH. destruct IH as [Iv Il].
      apply Forall_cons_iff in H1. destruct H1 as [Wv Wl]. destruct (IHl Il Wl) as [Gl Ll]. destruct (Iv _ Wv) as [Gv Lv].
      change (nest_l (v :: l)) with (Nat.max (nesting v) (nest_l l)). split; [|lia]. constructor.
      - apply (wf_json_mono _ _ _ Gv). lia.
      - eapply Forall_impl; [|exact Gl]. intros a Ha. apply (wf_json_mono _ _ _ Ha). lia. }
    split; [constructor; apply G|lia].
  - change (fold_right (fun p : string * json => Nat.max (nesting (snd p))) 0%nat m) with (nest_m m).
    assert (G : Forall (fun p => string_body (str_bytes (fst p)) /\ wf_json (nest_m m) (snd p)) m /\ (nest_m m <= n0)%nat).
    { clear W. induction m as [|v l IHl]; [split; [constructor|cbn; lia]|]. apply Forall_cons_iff in IH. destruct IH as [Iv Il].
      apply Forall_cons_iff in H1. destruct H1 as [[Kv Wv] Wl]. destruct (IHl Il Wl) as [Gl Ll]. destruct (Iv _ Wv) as [Gv Lv].
      change (nest_m (v :: l)) with (Nat.max (nesting (snd v)) (nest_m l)). split; [|lia]. constructor.
      - split; [exact Kv|]. apply (wf_json_mono _ _ _ Gv). lia.
      - eapply Forall_impl; [|exact Gl]. intros a [Ka Ha]. split; [exact Ka|]. apply (wf_json_mono _ _ _ Ha). lia. }
    split; [constructor; apply G|lia].
Qed.

Theorem scan_deep :
  (forall v t, text_of v t -> forall n st l, wf_json n v -> zlen st <= max_depth -> max_depth < zlen st + Z.of_nat (nesting v) ->
     (container v \/ (st <> [] /\ delimited l)) -> scan (st, LVal) (t ++ l) = Syntax) /\
  (forall es t, elems_of es t -> forall n st acc l, Forall (wf_json n) es -> zlen st + 1 <= max_depth ->
     max_depth < zlen st + 1 + Z.of_nat (nest_l es) ->
     scan (FArr acc :: st, LVal) (t ++ "]"%char :: l) = Syntax /\
     (acc = [] -> scan (FArr [] :: st, LValOrEnd) (t ++ "]"%char :: l) = Syntax)) /\
  (forall ms t, members_of ms t -> forall n st acc k0 l,
     Forall (fun p => string_body (str_bytes (fst p)) /\ wf_json n (snd p)) ms -> zlen st + 1 <= max_depth ->
     max_depth < zlen st + 1 + Z.of_nat (nest_m ms) ->
     scan (FObj acc k0 :: st, LKey) (t ++ "}"%char :: l) = Syntax /\
     (acc = [] -> scan (FObj [] k0 :: st, LKeyOrEnd) (t ++ "}"%char :: l) = Syntax)).
Proof.
  apply texts_ind; try (intros; cbn [nesting] in *; lia).
  - intros es t Ht IH n st l W B Hd _. inversion W as [| | | |n' l' Hw|]; subst. cbn [app scan step]. unfold step_value.
    change (is_space "["%char) with false. change (b2z "["%char) with 91. cbn [Z.eqb Pos.eqb]. unfold push.
    destruct (zlen st + 1 <=? max_depth) eqn:P; [|reflexivity].
    rewrite <- app_assoc. change (str_bytes "]" ++ l) with ("]"%char :: l).
    refine (proj2 (IH n' st [] l Hw ltac:(lia) _) eq_refl). cbn [nesting] in Hd. unfold nest_l. lia.
  - intros ms t Ht IH n st l W B Hd _. inversion W as [| | | | |n' l' Hw]; subst. cbn [app scan step]. unfold step_value.
    change (is_space "{"%char) with false. change (b2z "{"%char) with 123. cbn [Z.eqb Pos.eqb]. unfold push.
    destruct (zlen st + 1 <=? max_depth) eqn:P; [|reflexivity].
    rewrite <- app_assoc. change (str_bytes "}" ++ l) with ("}"%char :: l).
    refine (proj2 (IH n' st [] ""%string l Hw ltac:(lia) _) eq_refl). cbn [nesting] in Hd. unfold nest_m. lia.
  - intros w _ n st acc l _ B Hd. cbn in Hd. lia.
  - intros v w1 t w2 Hw1 Hw2 Ht IH n st acc l Hf B Hd. pose proof (Forall_inv Hf) as Wv.
    assert (G : forall acc, scan (FArr acc :: st, LVal) (t ++ w2 ++ "]"%char :: l) = Syntax).
    { intros a. apply (IH n); [exact Wv|unfold zlen in *; cbn [List.length]; lia|cbn [nest_l fold_right] in Hd; unfold zlen in *; cbn [List.length]; lia|].
      right. split; [discriminate|]. apply delimited_ws; [exact Hw2|right; cbn; tauto]. }
    rewrite <- !app_assoc. split.
    + rewrite scan_ws by (exact Hw1 || exact I). apply G.
    + intros _. rewrite scan_ws by (exact Hw1 || exact I). rewrite <- (G []).
      destruct (text_head _ _ _ Ht Wv) as (b & r & -> & Sb & Nb). cbn [app scan step]. rewrite Sb, Nb. reflexivity.
  - intros v v2 es w1 t w2 t2 Hw1 Hw2 Ht IH Hes IHes n st acc l Hf B Hd.
    pose proof (Forall_inv Hf) as Wv. pose proof (Forall_inv_tail Hf) as We.
    change (nest_l (v :: v2 :: es)) with (Nat.max (nesting v) (nest_l (v2 :: es))) in Hd.
    assert (G : forall acc, scan (FArr acc :: st, LVal) (t ++ w2 ++ ","%char :: t2 ++ "]"%char :: l) = Syntax).
    { intros a. assert (Dl : delimited (w2 ++ ","%char :: t2 ++ "]"%char :: l)) by (apply delimited_ws; [exact Hw2|right; cbn; tauto]).
      assert (Lz : zlen (FArr a :: st) = zlen st + 1) by (unfold zlen; cbn [List.length]; lia).
      destruct (Z_lt_le_dec max_depth (zlen st + 1 + Z.of_nat (nesting v))) as [D|D].
      - apply (IH n); [exact Wv|lia|lia|]. right. split; [discriminate|exact Dl].
      - destruct (proj1 scan_text v t Ht _ (FArr a :: st) (w2 ++ ","%char :: t2 ++ "]"%char :: l) (proj1 (wf_nesting v n Wv)) ltac:(lia)) as [_ E].
        rewrite E by (try discriminate; exact Dl). cbn [value_done]. rewrite scan_ws by (exact Hw2 || exact I). cbn [scan step]. unfold step_end.
        change (is_space ","%char) with false. change (b2z ","%char) with 44. cbn [Z.eqb Pos.eqb].
        apply (IHes n st (v :: a) l We B). lia. }
    rewrite <- !app_assoc, <- app_comm_cons. split.
    + rewrite scan_ws by (exact Hw1 || exact I). apply G.
    + intros _. rewrite scan_ws by (exact Hw1 || exact I). rewrite <- (G []).
      destruct (text_head _ _ _ Ht Wv) as (b & r & -> & Sb & Nb). cbn [app scan step]. rewrite Sb, Nb. reflexivity.
  - intros w _ n st acc k0 l _ B Hd. cbn in Hd. lia.
  - intros k v w1 w2 w3 w4 t Hw1 Hw2 Hw3 Hw4 Ht IH n st acc k0 l Hf B Hd.
    destruct (Forall_inv Hf) as [Wk Wv]. cbn [fst snd] in Wk, Wv.
    assert (G : forall x acc, x = LKey \/ x = LKeyOrEnd ->
      scan (FObj acc k0 :: st, x) (w1 ++ (z2b 34 :: str_bytes k ++ [z2b 34]) ++ w2 ++ ":"%char :: w3 ++ t ++ w4 ++ "}"%char :: l) = Syntax).
    { intros x a Hx. rewrite scan_ws by (try exact Hw1; destruct Hx as [-> | ->]; exact I).
      rewrite scan_str_key by assumption. rewrite scan_ws by (exact Hw2 || exact I). cbn [scan step].
      change (is_space ":"%char) with false. change (b2z ":"%char) with 58. cbn [Z.eqb Pos.eqb].
      rewrite scan_ws by (exact Hw3 || exact I).
      apply (IH n); [exact Wv|unfold zlen in *; cbn [List.length]; lia|cbn [nest_m fold_right snd] in Hd; unfold zlen in *; cbn [List.length]; lia|].
      right. split; [discriminate|]. apply delimited_ws; [exact Hw4|right; cbn; tauto]. }
    match goal with |- context [scan _ (?T ++ _)] =>
      replace (T ++ "}"%char :: l) with (w1 ++ (z2b 34 :: str_bytes k ++ [z2b 34]) ++ w2 ++ ":"%char :: w3 ++ t ++ w4 ++ "}"%char :: l)
        by (rewrite <- ?app_assoc; cbn [app]; rewrite <- ?app_assoc; cbn [app]; rewrite <- ?app_assoc; reflexivity) end.
    split; [|intros _]; apply G; tauto.
  - intros k v p ms w1 w2 w3 w4 t t2 Hw1 Hw2 Hw3 Hw4 Ht IH Hms IHms n st acc k0 l Hf B Hd.
    destruct (Forall_inv Hf) as [Wk Wv]. cbn [fst snd] in Wk, Wv. pose proof (Forall_inv_tail Hf) as We.
    change (nest_m ((k, v) :: p :: ms)) with (Nat.max (nesting v) (nest_m (p :: ms))) in Hd.
    assert (G : forall x acc, x = LKey \/ x = LKeyOrEnd ->
      scan (FObj acc k0 :: st, x) (w1 ++ (z2b 34 :: str_bytes k ++ [z2b 34]) ++ w2 ++ ":"%char :: w3 ++ t ++ w4 ++ ","%char :: t2 ++ "}"%char :: l) = Syntax).
    { intros x a Hx. rewrite scan_ws by (try exact Hw1; destruct Hx as [-> | ->]; exact I).
      rewrite scan_str_key by assumption. rewrite scan_ws by (exact Hw2 || exact I). cbn [scan step].
      change (is_space ":"%char) with false. change (b2z ":"%char) with 58. cbn [Z.eqb Pos.eqb].
      rewrite scan_ws by (exact Hw3 || exact I).
      assert (Dl : delimited (w4 ++ ","%char :: t2 ++ "}"%char :: l)) by (apply delimited_ws; [exact Hw4|right; cbn; tauto]).
      assert (Lz : zlen (FObj a k :: st) = zlen st + 1) by (unfold zlen; cbn [List.length]; lia).
      destruct (Z_lt_le_dec max_depth (zlen st + 1 + Z.of_nat (nesting v))) as [D|D].
      - apply (IH n); [exact Wv|lia|lia|]. right. split; [discriminate|exact Dl].
      - destruct (proj1 scan_text v t Ht _ (FObj a k :: st) (w4 ++ ","%char :: t2 ++ "}"%char :: l) (proj1 (wf_nesting v n Wv)) ltac:(lia)) as [_ E].
        rewrite E by (try discriminate; exact Dl). cbn [value_done]. rewrite scan_ws by (exact Hw4 || exact I). cbn [scan step]. unfold step_end.
        change (is_space ","%char) with false. change (b2z ","%char) with 44. cbn [Z.eqb Pos.eqb].
        apply (IHms n st ((k, v) :: a) k l We B). lia. }
    match goal with |- context [scan _ (?T ++ _)] =>
      replace (T ++ "}"%char :: l) with (w1 ++ (z2b 34 :: str_bytes k ++ [z2b 34]) ++ w2 ++ ":"%char :: w3 ++ t ++ w4 ++ ","%char :: t2 ++ "}"%char :: l)
        by (rewrite <- ?app_assoc; cbn [app]; rewrite <- ?app_assoc; cbn [app]; rewrite <- ?app_assoc; reflexivity) end.
    split; [|intros _]; apply G; tauto.
Qed.

(** The first value of a stream that begins with an array or an object. *)
Lemma scan_any_depth v t rest : text_of v t -> container v -> lexical v ->
  scan start (t ++ rest) = if Z.of_nat (nesting v) <=? max_depth then Done v rest else Syntax.
Proof.
  intros T C [n W]. destruct (Z.of_nat (nesting v) <=? max_depth) eqn:E.
  - destruct (proj1 scan_text v t T _ [] rest (proj1 (wf_nesting v n W))) as [S1 _]; [unfold zlen; cbn [List.length]; lia|]. exact (S1 C).
  - apply (proj1 scan_deep v t T n [] rest W); [unfold zlen, max_depth; cbn; lia|unfold zlen; cbn [List.length]; lia|left; exact C].
Qed.
