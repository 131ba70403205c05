(** Loaded values: lemmas and tactics for DocLoaded. *)
From Verif Require Import Base BaseFacts Types Doc F64 SpecText JsonText Codec DocCodec SpecJson CodecProofs CodecInv DocCodecBase DocInvBase
  SpecGo SpecGoDoc DocWithin SpecLoaded.

Lemma closed_lexical : closed lexical.
Proof.
  split; intros l [n H].
  - eapply Forall_impl; [|exact (proj1 (closed_wf n) l H)]. intros a Ha. exists n. exact Ha.
  - eapply Forall_impl; [|exact (proj2 (closed_wf n) l H)]. intros a Ha. exists n. exact Ha.
Qed.
Lemma inv_loaded_any F : parse_contract F -> inv (c_any F) lexical loaded_any.
Proof. intros PC old j y _ [n W] H. exact (within_any y n (dec_any_wf F PC j n y W H)). Qed.

(** What decoding one extension gives satisfies [Q]. *)
Definition registry_gives (X : ext_lib) (Q : string -> extv -> Prop) : Prop :=
  forall k j e, lexical j -> dec_extv X k j = Ok e -> Q k e.
Lemma gives_from_json X : registry_gives X (from_json X).
Proof.
  intros k j e L H. exists j. split; [exact L|]. unfold dec_extv in H. destruct (registry X k) as [f|]; [|injection H as <-; reflexivity].
  destruct (f j); [injection H as <-; reflexivity..|discriminate].
Qed.
Lemma loaded_ext_nil Q : loaded_ext Q [].
Proof. split; constructor. Qed.
Lemma inv_loaded_ext X Q : registry_gives X Q -> inv (c_ext X) lexical (loaded_ext Q).
Proof.
  intros RO old j y [So Fo] W H. destruct j; cbn in H; try discriminate; [injection H as <-; split; assumption|].
  apply bind_ok in H. destruct H as (raw & Hr & H). apply bind_ok in H. destruct H as (kvs & Hk & H). injection H as <-.
  assert (G1 : Forall (fun p => utf8_str (fst p) /\ lexical (snd p)) raw).
  { pose proof (proj2 closed_lexical _ W) as Wm. clear W Hk. apply traverse_ok in Hr. revert Wm.
    induction Hr as [|[k a] [k' b] l vs E Hv IHl]; intros Wm; [constructor|].
    cbn [fst snd] in E. apply bind_ok in E. destruct E as (k2 & Ek & E). injection E as <- <-.
    constructor; [split; [exact (key_of_utf8 _ _ Ek)|exact (Forall_inv Wm)]|]. apply IHl. exact (Forall_inv_tail Wm). }
  destruct (map_sets_inv _ raw [] sk_nil (Forall_nil _) G1) as [S1 G2].
  apply map_sets_inv; [exact So|exact Fo|]. clear G1 S1 Hr. apply traverse_ok in Hk. revert G2.
  induction Hk as [|[k a] [k' b] l vs E Hv IHl]; intros G2; [constructor|].
  cbn [fst snd] in E. apply bind_ok in E. destruct E as (v2 & Ev & E). injection E as <- <-.
  constructor; [|apply IHl; exact (Forall_inv_tail G2)]. split; [exact (proj1 (Forall_inv G2))|]. exact (RO k a v2 (proj2 (Forall_inv G2)) Ev).
Qed.
Lemma loaded_null : loaded_any VNull.
Proof. split; constructor. Qed.
Ltac lzero_tac := first [ apply loaded_ext_nil | exact loaded_null | zero_tac ].

Lemma float_go f : float_ok f -> go_float f.
Proof. intros [H _]. exact H. Qed.
Lemma float_fin f : float_ok f -> finite f.
Proof. intros [_ H]. exact H. Qed.
Lemma array_go k l : farray k l -> go_array k l.
Proof. intros H. exact (proj1 (within_array k l H)). Qed.
Lemma array_fin k l : farray k l -> Forall finite l.
Proof. intros H. exact (proj2 (within_array k l H)). Qed.
Lemma loaded_go_any v : loaded_any v -> go_any v.
Proof. intros [H _]. exact H. Qed.
Lemma loaded_sav_any v : loaded_any v -> savable_any v.
Proof. intros [_ H]. exact H. Qed.
Lemma loaded_go_ext X (Q : string -> extv -> Prop) m : (forall k e, Q k e -> go_extv X k e) -> loaded_ext Q m -> go_ext X m.
Proof. intros H [_ L]. eapply Forall_impl; [|exact L]. intros p [_ Hp]. exact (H _ _ Hp). Qed.
Lemma loaded_sav_ext X (Q : string -> extv -> Prop) m : (forall k e, Q k e -> savable_extv X k e) -> loaded_ext Q m -> savable_ext X m.
Proof. intros H [_ L]. eapply Forall_impl; [|exact L]. intros p [_ Hp]. exact (H _ _ Hp). Qed.
Lemma loaded_ext_back X (Q : string -> extv -> Prop) m : loaded_ext Q m -> savable_ext X m -> loaded_ext (fun k e => Q k e /\ savable_extv X k e) m.
Proof.
  intros [S L] V. split; [exact S|]. unfold savable_ext in V. rewrite Forall_forall in *. intros p I. destruct (L p I) as [U Hp]. exact (conj U (conj Hp (V p I))).
Qed.
Lemma opt2 {A} (P Q R : A -> Prop) o : (forall x, P x -> Q x -> R x) -> opt P o -> opt Q o -> opt R o.
Proof. intros H. destruct o; cbn [opt]; auto. Qed.
Lemma Forall_opt2 {A} (P Q R : A -> Prop) l : (forall x, P x -> Q x -> R x) -> Forall (opt P) l -> Forall (opt Q) l -> Forall (opt R) l.
Proof. intros H HP HQ. rewrite Forall_forall in *. intros o I. exact (opt2 P Q R o H (HP o I) (HQ o I)). Qed.

(** All extensions. *)
Lemma all_ext_app Q l l' : all_ext Q l -> all_ext Q l' -> all_ext Q (l ++ l').
Proof. intros H H'. apply Forall_app. split; assumption. Qed.
Lemma all_ext_app_inv Q l l' : all_ext Q (l ++ l') -> all_ext Q l /\ all_ext Q l'.
Proof. intros H. apply Forall_app in H. exact H. Qed.
Lemma loaded_all_ext Q m : loaded_ext Q m -> all_ext Q m.
Proof. intros [_ L]. eapply Forall_impl; [|exact L]. intros p [_ H]. exact H. Qed.
Lemma all_of_opt {A} Q (f : A -> Extensions) (P : A -> Prop) o : (forall x, P x -> all_ext Q (f x)) -> opt P o -> all_ext Q (of_opt f o).
Proof. intros H. destruct o; cbn [opt of_opt]; [apply H|constructor]. Qed.
Lemma all_of_list {A} Q (f : A -> Extensions) (P : A -> Prop) l : (forall x, P x -> all_ext Q (f x)) -> Forall (opt P) l -> all_ext Q (flat_map (of_opt f) l).
Proof. intros H. induction 1 as [|o l Ho _ IH]; [constructor|]. cbn [flat_map]. apply all_ext_app; [exact (all_of_opt Q f P o H Ho)|exact IH]. Qed.
Lemma loaded_ext_with (Q Q' : string -> extv -> Prop) m : loaded_ext Q m -> all_ext Q' m -> loaded_ext Q' m.
Proof. intros [S L] A. split; [exact S|]. unfold all_ext in A. rewrite Forall_forall in *. intros p I. exact (conj (proj1 (L p I)) (A p I)). Qed.
Lemma opt_with {A} Q (f : A -> Extensions) (P P' : A -> Prop) o : (forall x, P x -> all_ext Q (f x) -> P' x) -> opt P o -> all_ext Q (of_opt f o) -> opt P' o.
Proof. intros H. destruct o; cbn [opt of_opt]; auto. Qed.
Lemma list_with {A} Q (f : A -> Extensions) (P P' : A -> Prop) l : (forall x, P x -> all_ext Q (f x) -> P' x) -> Forall (opt P) l -> all_ext Q (flat_map (of_opt f) l) -> Forall (opt P') l.
Proof.
  intros H. induction 1 as [|o l Ho _ IH]; [constructor|]. cbn [flat_map]. intros A'. apply all_ext_app_inv in A'. destruct A' as [A1 A2]. constructor; [exact (opt_with Q f P P' o H Ho A1)|exact (IH A2)].
Qed.
