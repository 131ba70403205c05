(** What encoding/json writes is left alone by its HTML escaping. *)
From Verif Require Import Base BaseFacts Types Doc F64 SpecText JsonText JsonTextProofs JsonStringProofs Codec DocCodec CodecProofs CodecInv DocCodecBase.

Lemma html_rune r b p l : scalar r -> utf8 r = b :: p -> high b -> r <> 0x2028 -> r <> 0x2029 ->
  html_escape (b :: p ++ l) = b :: p ++ html_escape l.
Proof.
  intros S U Hb N1 N2. destruct (decode_utf8 r b p l S U) as (_ & _ & C). unfold high in Hb.
  assert (Sp : special b = false) by (unfold special; lia).
  destruct (Z.eq_dec (b2z b) 0xE2) as [E|E].
  - destruct (html_e2 b (p ++ l) E) as [(c & d & l' & P & Hc & Hd & _)|K]; [|rewrite K, html_cont by exact C; reflexivity].
    pose proof S as S0. unfold scalar in S0. exfalso. destruct (utf8_cases r S) as [(R & U')|[(R & U')|[(R & U')|(R & U')]]]; rewrite U' in U;
      apply cons_inj in U; destruct U as [Ub Up]; subst b p.
    + rewrite b2z_z2b in E by lia. lia.
    + rewrite b2z_z2b in E by lia. lia.
    + cbn [app] in P. apply cons_inj in P. destruct P as [<- P]. apply cons_inj in P. destruct P as [<- _].
      rewrite !b2z_z2b in * by lia. lia.
    + rewrite b2z_z2b in E by lia. lia.
  - rewrite html_not_e2, html_cont by assumption. reflexivity.
Qed.
Lemma html_quote s : html_escape (quote s) = quote s.
Proof.
  assert (G : forall n s, (List.length s <= n)%nat -> html_escape (quote s) = quote s).
  { clear s. induction n as [|n IH]; intros s Hn; [destruct s; [reflexivity|cbn in Hn; lia]|].
    destruct s as [|b l]; [reflexivity|].
    destruct (Z_lt_dec (b2z b) 128) as [L|L].
    - specialize (IH l ltac:(cbn in Hn; lia)). rewrite quote_low by lia. unfold quote_ascii.
      destruct ((b2z b =? 92) || (b2z b =? 34)) eqn:E1.
      { cbn [app]. rewrite !html_not_e2; [rewrite IH; reflexivity|unfold special|..|reflexivity|discriminate]; lia. }
      destruct (b2z b =? 10); [cbn [app]; rewrite !html_not_e2 by (reflexivity || discriminate); rewrite IH; reflexivity|].
      destruct (b2z b =? 13); [cbn [app]; rewrite !html_not_e2 by (reflexivity || discriminate); rewrite IH; reflexivity|].
      destruct (b2z b =? 9); [cbn [app]; rewrite !html_not_e2 by (reflexivity || discriminate); rewrite IH; reflexivity|].
      destruct ((b2z b <? 32) || _ || _ || _) eqn:E; [rewrite html_u_escape, IH; reflexivity|].
      cbn [app]. rewrite html_not_e2; [rewrite IH; reflexivity|unfold special; lia|lia].
    - assert (Hb : high b) by (unfold high; lia).
      destruct (decode_rune b l) as [r rest] eqn:D.
      destruct (decode_inv b l r rest Hb D) as [(-> & -> & NB)|(p & -> & Np & U & S & Hr)].
      + rewrite (quote_bad b l Hb D), html_u_escape, IH; [reflexivity|cbn in Hn; lia].
      + rewrite (quote_rune r b p rest S U Np Hb).
        assert (IHr : html_escape (quote rest) = quote rest).
        { apply IH. cbn [List.length] in Hn. rewrite app_length in Hn. lia. }
        destruct ((r =? 0x2028) || (r =? 0x2029)) eqn:E; [rewrite html_u_escape, IHr; reflexivity|].
        cbn [app]. rewrite (html_rune r b p _ S U Hb), IHr by lia. reflexivity. }
  apply (G (List.length s)). lia.
Qed.
Lemma html_quote_str s : html_str (quote_str s) = quote_str s.
Proof. unfold html_str, quote_str. rewrite str_bytes_str, html_quote. reflexivity. Qed.

(** Codecs whose output is left alone. *)
Definition hfix {A} (c : codec A) : Prop := forall a j, enc c a = Ok j -> html_json j = j.

Lemma hf_str : hfix c_str.
Proof. intros s j [= <-]. cbn [html_json]. rewrite html_quote_str. reflexivity. Qed.
Lemma hf_int : hfix c_int.
Proof. intros s j [= <-]. reflexivity. Qed.
Lemma hf_f64 F : hfix (c_f64 F).
Proof. intros s j. cbn. unfold enc_f64. destruct (f64_finite s); [|discriminate]. intros [= <-]. reflexivity. Qed.
Lemma hf_ptr {A} z (c : codec A) : hfix c -> hfix (c_ptr z c).
Proof. intros H [a|] j E; [exact (H a j E)|]. injection E as <-. reflexivity. Qed.
Lemma hf_list {A} (c : codec A) l : hfix c -> forall js, traverse (enc c) l = Ok js -> map html_json js = js.
Proof.
  intros H. induction l as [|a l IH]; intros js E; cbn [traverse] in E; [injection E as <-; reflexivity|].
  apply bind_ok in E. destruct E as (j & Ej & E). apply bind_ok in E. destruct E as (r & Er & [= <-]).
  cbn [map]. rewrite (H _ _ Ej), (IH _ Er). reflexivity.
Qed.
Lemma hf_array {A} z (c : codec A) : hfix c -> hfix (c_array z c).
Proof. intros H l j E. apply bind_ok in E. destruct E as (js & E & [= <-]). cbn [html_json]. rewrite (hf_list c l H js E). reflexivity. Qed.
Lemma hf_oslice {A} z (c : codec A) : hfix c -> hfix (c_oslice z c).
Proof. intros H [l|] j E; [|injection E as <-; reflexivity]. apply bind_ok in E. destruct E as (js & E & [= <-]). cbn [html_json]. rewrite (hf_list c l H js E). reflexivity. Qed.
Lemma hf_any F : hfix (c_any F).
Proof.
  intros v. cbn [enc c_any]. induction v as [|b|f|s|l IH|m IH] using any_ind'; intros j E; cbn [enc_any] in E.
  - injection E as <-. reflexivity.
  - injection E as <-. reflexivity.
  - exact (hf_f64 F _ _ E).
  - injection E as <-. cbn [html_json]. rewrite html_quote_str. reflexivity.
  - apply bind_ok in E. destruct E as (js & E & [= <-]). cbn [html_json]. f_equal. revert js E.
    induction IH as [|a l Ha _ IHl]; intros js E; cbn [traverse] in E; [injection E as <-; reflexivity|].
    apply bind_ok in E. destruct E as (j & Ej & E). apply bind_ok in E. destruct E as (r & Er & [= <-]).
    cbn [map]. rewrite (Ha _ Ej), (IHl _ Er). reflexivity.
  - apply bind_ok in E. destruct E as (js & E & [= <-]). cbn [html_json]. f_equal. revert js E.
    induction IH as [|[k a] m Ha _ IHl]; intros js E; cbn [traverse] in E; [injection E as <-; reflexivity|].
    apply bind_ok in E. destruct E as (p & Ej & E). apply bind_ok in E. destruct E as (r & Er & [= <-]).
    cbn [fst snd] in *. apply bind_ok in Ej. destruct Ej as (j & Ej & [= <-]).
    cbn [map fst snd]. rewrite html_quote_str, (Ha _ Ej), (IHl _ Er). reflexivity.
Qed.
Lemma hf_ext X : hfix (c_ext X).
Proof.
  intros m j E. apply bind_ok in E. destruct E as (js & E & [= <-]). cbn [html_json]. f_equal. revert js E.
  induction m as [|[k e] m IH]; intros js E; cbn [traverse] in E; [injection E as <-; reflexivity|].
  apply bind_ok in E. destruct E as (p & Ej & E). apply bind_ok in E. destruct E as (r & Er & [= <-]).
  cbn [fst snd] in *. apply bind_ok in Ej. destruct Ej as (j & Ej & [= <-]).
  cbn [map fst snd]. rewrite html_quote_str, (IH _ Er). f_equal. f_equal.
  destruct e as [r0|v]; cbn [enc_extv] in Ej; [injection Ej as <-; apply html_json_idem|].
  apply bind_ok in Ej. destruct Ej as (j0 & _ & [= <-]). apply html_json_idem.
Qed.

Definition hfield {T} (f : field T) : Prop := match f with Fld n _ _ c _ => html_str n = n /\ hfix c end.
Lemma hf_fields {T} (fs : list (field T)) x : Forall hfield fs -> forall m, enc_fields fs x = Ok m -> html_json (JObj m) = JObj m.
Proof.
  intros H m E. cbn [html_json]. f_equal. revert m E. induction H as [|[A n g s c o] fs [Hn Hc] _ IH]; intros m E; cbn [enc_fields] in E.
  - injection E as <-. reflexivity.
  - destruct (o (g x)); [exact (IH _ E)|]. apply bind_ok in E. destruct E as (j & Ej & E). apply bind_ok in E. destruct E as (r & Er & [= <-]).
    cbn [map fst snd]. rewrite Hn, (Hc _ _ Ej), (IH _ Er). reflexivity.
Qed.
Lemma hf_struct {T} (fs : list (field T)) : Forall hfield fs -> hfix (c_struct fs).
Proof. intros H x j E. apply bind_ok in E. destruct E as (m & E & [= <-]). exact (hf_fields fs x H m E). Qed.
Lemma hf_fresh {T} d (fs : list (field T)) : Forall hfield fs -> hfix (c_fresh d fs).
Proof. exact (hf_struct fs). Qed.
Ltac hf_tac := repeat apply Forall_cons; [..|apply Forall_nil]; (split; [reflexivity|]);
  repeat first [apply hf_str|apply hf_int|apply hf_f64|apply hf_any|apply hf_ext|apply hf_ptr|apply hf_array|apply hf_oslice].
Lemma hf_TextureInfo F X : hfix (c_TextureInfo F X).
Proof. unfold c_TextureInfo. first [apply hf_struct|apply hf_fresh]; hf_tac. Qed.
