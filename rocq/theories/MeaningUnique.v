(** A JSON value says one document only. *)
From Verif Require Import Base BaseFacts Types Doc F64 SpecText SpecString JsonText JsonStringProofs Codec DocCodec SpecJson SpecJsonDoc
  CodecProofs CodecInv SpecSchema SchemaProofs SpecMeaning PropsString MeaningProofs.

Definition func {A} (r : meaning A) : Prop := forall a b j, r a j -> r b j -> a = b.
Definition uniq {A} (P : A -> Prop) : Prop := forall a b, P a -> P b -> a = b.

Lemma says_func raw a b : says raw a -> says raw b -> a = b.
Proof.
  intros (r1 & D1 & E1) (r2 & D2 & E2). destruct (denotes_unquote _ _ D1) as [U1 _]. destruct (denotes_unquote _ _ D2) as [U2 _].
  rewrite <- (BaseFacts.bytes_str_bytes a), <- (BaseFacts.bytes_str_bytes b). congruence.
Qed.
Lemma member_func k ms v w : member k ms v -> member k ms w -> v = w.
Proof.
  intros (a & raw & b & -> & S & N) (a' & raw' & b' & E & S' & N'). revert a' E. induction a as [|x a IH]; intros [|x' a'] E; cbn [app] in E.
  - congruence.
  - exfalso. injection E as _ ->. apply Forall_app in N. destruct N as [_ N]. apply (Forall_inv N). exact S'.
  - exfalso. injection E as -> <-. apply Forall_app in N'. destruct N' as [_ N']. apply (Forall_inv N'). exact S.
  - injection E as _ E. exact (IH a' E).
Qed.
Lemma member_none k ms v : member k ms v -> no_member k ms -> False.
Proof. intros (a & raw & b & -> & S & _) N. unfold no_member in N. apply Forall_app in N. destruct N as [_ N]. exact (Forall_inv N S). Qed.

Lemma f_str : func m_str.
Proof. intros a b j (r1 & -> & S1) (r2 & [= <-] & S2). exact (says_func _ _ _ S1 S2). Qed.
Lemma f_bool : func m_bool.
Proof. intros a b j -> [= <-]. reflexivity. Qed.
Lemma fold_pos l : forall a, 0 <= a -> Forall (fun d => 0 <= d < 10) l -> 0 <= fold_left (fun a d => 10 * a + d) l a.
Proof. induction l as [|d l IH]; intros a A H; cbn [fold_left]; [exact A|]. pose proof (Forall_inv H). cbv beta in *. apply IH; [lia|exact (Forall_inv_tail H)]. Qed.
Lemma digits_inj d : Forall (fun d => 0 <= d < 10) d -> forall e, Forall (fun d => 0 <= d < 10) e -> map (fun d => z2b (48 + d)) d = map (fun d => z2b (48 + d)) e -> d = e.
Proof.
  induction 1 as [|x d Hx H IH]; intros [|y e] He E; try discriminate; [reflexivity|]. cbn [map] in E. pose proof (f_equal (hd "0"%char) E) as E1. pose proof (f_equal (@tl _) E) as E2. cbn [hd tl] in E1, E2. f_equal; [|exact (IH e (Forall_inv_tail He) E2)].
  pose proof (Forall_inv He). cbv beta in *. apply (f_equal b2z) in E1. rewrite !b2z_z2b in E1 by lia. lia.
Qed.
Lemma decimal_func lit a b : decimal lit a -> decimal lit b -> a = b.
Proof.
  assert (M : forall ds t, Forall (fun d => 0 <= d < 10) ds -> map (fun d => z2b (48 + d)) ds <> "-"%char :: t).
  { intros [|d ds] t H E; [discriminate|]. cbn [map] in E. apply (f_equal (hd "0"%char)) in E. cbn [hd] in E. pose proof (Forall_inv H). cbv beta in *. apply (f_equal b2z) in E. rewrite b2z_z2b in E by lia. change (b2z "-"%char) with 45 in E. lia. }
  intros (d & _ & D & HD) (e & _ & E & HE). cbv zeta in HD, HE. destruct HD as [[H1 ->]|(H1 & -> & _)], HE as [[H2 ->]|(H2 & -> & _)]; rewrite H1 in H2.
  - rewrite (digits_inj d D e E H2). reflexivity.
  - destruct (M _ _ D H2).
  - symmetry in H2. destruct (M _ _ E H2).
  - injection H2 as H2. rewrite (digits_inj d D e E H2). reflexivity.
Qed.
Lemma f_int : func m_int.
Proof. intros a b j (r1 & -> & S1) (r2 & [= <-] & S2). exact (decimal_func _ _ _ S1 S2). Qed.
Lemma f_num F : func (m_num F).
Proof. intros a b j (r1 & -> & S1) (r2 & [= <-] & S2). congruence. Qed.
Lemma f_some {A} (r : meaning A) : func r -> func (m_some r).
Proof. intros H a b j (x & -> & R) (y & -> & R'). f_equal. exact (H x y j R R'). Qed.
Lemma f_forall2 {A} (r : meaning A) : func r -> forall a js, Forall2 r a js -> forall b, Forall2 r b js -> a = b.
Proof. intros H a js R. induction R as [|x j a js Rx R IH]; intros b Rb; inversion Rb as [|y ? b' ? Ry R']; subst; [reflexivity|]. f_equal; [exact (H _ _ j Rx Ry)|exact (IH _ R')]. Qed.
Lemma f_list {A} (r : meaning A) : func r -> func (m_list r).
Proof. intros H a b j (js & -> & R) (js' & [= <-] & R'). exact (f_forall2 r H a js R b R'). Qed.
Lemma f_code {A} (tbl : list (A * Z)) : (forall a b n, In (a, n) tbl -> In (b, n) tbl -> a = b) -> func (m_code tbl).
Proof. intros H a b j (n & I & M) (n' & I' & M'). rewrite (f_int _ _ _ M M') in I. exact (H a b n' I I'). Qed.
Lemma f_word {A} (tbl : list (A * string)) : (forall a b n, In (a, n) tbl -> In (b, n) tbl -> a = b) -> func (m_word tbl).
Proof. intros H a b j (n & I & M) (n' & I' & M'). rewrite (f_str _ _ _ M M') in I. exact (H a b n' I I'). Qed.
(** Sorted maps with the same lookups are equal. *)
Lemma sorted_tail {A} p (m : list (string * A)) : sorted_keys (p :: m) -> sorted_keys m /\ Forall (fun q => String.compare (fst p) (fst q) = Lt) m.
Proof.
  revert p. induction m as [|q m IH]; intros p S; [split; constructor|]. inversion S as [| |? ? ? C S']; subst. split; [exact S'|].
  constructor; [exact C|]. destruct (IH q S') as [_ H]. eapply Forall_impl; [|exact H]. intros r R. exact (compare_trans _ _ _ C R).
Qed.
Lemma sorted_ext {A} (m : list (string * A)) : sorted_keys m -> forall m', sorted_keys m' -> (forall k a, In (k, a) m <-> In (k, a) m') -> m = m'.
Proof.
  induction m as [|[k a] m IH]; intros S m' S' H.
  - destruct m' as [|[k' a'] m']; [reflexivity|]. destruct (proj2 (H k' a') (or_introl eq_refl)).
  - destruct m' as [|[k' a'] m']; [destruct (proj1 (H k a) (or_introl eq_refl))|].
    destruct (sorted_tail _ _ S) as [T L]. destruct (sorted_tail _ _ S') as [T' L']. rewrite Forall_forall in L, L'.
    assert (AS : forall x y, String.compare x y = Lt -> String.compare y x = Lt -> False).
    { intros x y A1 A2. pose proof (compare_trans _ _ _ A1 A2) as B. rewrite compare_refl in B. discriminate. }
    assert (E : (k, a) = (k', a')).
    { destruct (proj1 (H k a) (or_introl eq_refl)) as [E|I]; [symmetry; exact E|]. destruct (proj2 (H k' a') (or_introl eq_refl)) as [E|I']; [exact E|].
      destruct (AS k k' (L _ I') (L' _ I)). }
    injection E as <- <-. f_equal. apply IH; [exact T|exact T'|]. intros k0 a0. split; intros I.
    + destruct (proj1 (H k0 a0) (or_intror I)) as [E|I']; [|exact I']. injection E as <- <-. specialize (L _ I). cbn [fst] in L. rewrite compare_refl in L. discriminate.
    + destruct (proj2 (H k0 a0) (or_intror I)) as [E|I']; [|exact I']. injection E as <- <-. specialize (L' _ I). cbn [fst] in L'. rewrite compare_refl in L'. discriminate.
Qed.
Lemma dict_half {A} (r : string -> meaning A) m m' ms : (forall k a b v, In (k, a) m -> r k a v -> r k b v -> a = b) -> dict_of r m ms -> dict_of r m' ms ->
  forall k a, In (k, a) m -> In (k, a) m'.
Proof.
  intros H (_ & G & _) (_ & G' & N') k a I. destruct (G k a I) as (v & M & R).
  destruct (in_dec string_dec k (map fst m')) as [J|J]; [|destruct (member_none _ _ _ M (N' k J))].
  apply in_map_iff in J. destruct J as ([k0 b] & E & J). cbn [fst] in E. subst k0. destruct (G' k b J) as (v' & M' & R').
  rewrite (member_func _ _ _ _ M' M) in R'. rewrite (H k a b v I R R'). exact J.
Qed.
Lemma f_dict {A} (r : string -> meaning A) : (forall k, func (r k)) -> func (m_dict r).
Proof.
  intros H a b j (ms & -> & D) (ms' & [= <-] & D'). apply sorted_ext; [exact (proj1 D)|exact (proj1 D')|]. intros k x. split.
  - apply (dict_half r a b ms); [|exact D|exact D']. intros k0 u w v _ R R'. exact (H k0 _ _ _ R R').
  - apply (dict_half r b a ms); [|exact D'|exact D]. intros k0 u w v _ R R'. exact (H k0 _ _ _ R R').
Qed.
Lemma member_in_list k ms v : member k ms v -> exists raw, In (raw, v) ms.
Proof. intros (a & raw & b & -> & _). exists raw. apply in_or_app. right. left. reflexivity. Qed.
Lemma f_any F : func (m_any F).
Proof.
  intros a b j. revert a b. induction j as [|b|s|s|l IH|l IH] using json_ind'; intros x y Hx Hy; inversion Hx; inversion Hy; subst; try congruence.
  - f_equal. eapply says_func; eassumption.
  - f_equal. clear Hx Hy. match goal with H1 : Forall2 _ ?u l, H2 : Forall2 _ ?v l |- ?u' = _ => revert H1 H2; generalize u v end.
    induction IH as [|j l Hj _ IHl]; intros u v H1 H2; inversion H1; inversion H2; subst; try congruence.
    f_equal; [eapply Hj; eassumption|apply IHl; assumption].
  - f_equal. rewrite Forall_forall in IH. rename m into u. rename m0 into w.
    assert (D1 : dict_of (fun _ => m_any F) u l) by (split; [assumption|split; assumption]).
    assert (D2 : dict_of (fun _ => m_any F) w l) by (split; [assumption|split; assumption]).
    assert (K : forall p q, dict_of (fun _ => m_any F) p l -> dict_of (fun _ => m_any F) q l -> forall k a, In (k, a) p -> In (k, a) q).
    { intros p q (_ & G & _) (_ & G' & N') k a I. destruct (G k a I) as (v & M & R). destruct (in_dec string_dec k (map fst q)) as [J|J]; [|destruct (member_none _ _ _ M (N' k J))].
      apply in_map_iff in J. destruct J as ([k0 b] & E & J). cbn [fst] in E. subst k0. destruct (G' k b J) as (v' & M' & R'). rewrite (member_func _ _ _ _ M' M) in R'.
      destruct (member_in_list _ _ _ M) as (raw & Im). rewrite (IH (raw, v) Im a b R R'). exact J. }
    apply sorted_ext; [assumption|assumption|]. intros k a. split; [exact (K u w D1 D2 k a)|exact (K w u D2 D1 k a)].
Qed.
Lemma f_extv X k : func (m_extv X k).
Proof.
  intros a b j. unfold m_extv. destruct (registry X k) as [f|]; [|congruence].
  intros [(v & E & ->)|(v & E & ->)] [(w & E' & ->)|(w & E' & ->)]; congruence.
Qed.

(** Objects *)
Definition pfunc {T} (e : property T) : Prop := match e with Prp _ _ r absent => func r /\ uniq absent end.
Definition pagree {T} (x y : T) (e : property T) : Prop := match e with Prp _ get _ _ => get x = get y end.
Lemma obj_agree {T} (es : list (property T)) x y j : Forall pfunc es -> m_obj es x j -> m_obj es y j -> Forall (pagree x y) es.
Proof.
  intros P (ms & -> & Hx) (ms' & [= <-] & Hy). rewrite Forall_forall in *. intros e I. specialize (P e I). specialize (Hx e I). specialize (Hy e I).
  destruct e as [A name get r absent]. destruct P as [Pf Pu]. cbn [property_holds pagree] in *.
  destruct Hx as [(v & M & R)|(N & AB)], Hy as [(v' & M' & R')|(N' & AB')].
  - rewrite (member_func _ _ _ _ M' M) in R'. exact (Pf _ _ _ R R').
  - destruct (member_none _ _ _ M N').
  - destruct (member_none _ _ _ M' N).
  - exact (Pu _ _ AB AB').
Qed.
Ltac tbl_tac := let I := fresh in let J := fresh in intros ? ? ? I J; cbn in I, J; intuition congruence.
Ltac f_tac :=
  first [ assumption | apply f_str | apply f_bool | apply f_int | apply f_num | apply f_any
        | apply f_some; f_tac | apply f_list; f_tac | apply f_dict; intros; first [apply f_extv|apply f_int]
        | apply f_code; tbl_tac | apply f_word; tbl_tac ].
Ltac u_tac := intros ? ? ? ?; first [contradiction|unfold is_zero, nothing, empty_list, no_text in *; congruence].
Ltac obj_tac := let x := fresh "x" in let y := fresh "y" in let j := fresh in let Hx := fresh in let Hy := fresh in let A := fresh in
  intros x y j Hx Hy; pose proof (fun P => obj_agree _ x y j P Hx Hy) as A; clear Hx Hy;
  unfold extensible in A; cbn [app] in A;
  lapply A; [clear A; intros A|repeat apply Forall_cons; try apply Forall_nil; (split; [f_tac|u_tac])];
  repeat match type of A with
  | Forall _ [] => clear A
  | Forall _ (_ :: _) => let H := fresh in pose proof (Forall_inv A) as H; cbn [pagree] in H; apply Forall_inv_tail in A
  end;
  destruct x, y; cbn in *; subst; reflexivity.
(** The document apart from the contents of the buffers, which the JSON does
    not hold. *)
Definition without_data (d : Document) : Document := set_doc_Buffers (map (option_map (set_buf_Data [])) (doc_Buffers d)) d.

Definition image {A B} (f : A -> B) (r : meaning A) : meaning B := fun b j => exists a, r a j /\ b = f a.
Lemma obj_image {T A} name (get : T -> A) r absent (f : A -> A) pre post x j :
  m_obj (pre ++ Prp name get r absent :: post) x j -> m_obj (pre ++ Prp name (fun t => f (get t)) (image f r) (fun b => exists a, absent a /\ b = f a) :: post) x j.
Proof.
  intros (ms & -> & H). exists ms. split; [reflexivity|]. rewrite Forall_forall in *. intros e I. apply in_app_or in I. destruct I as [I|[<-|I]].
  - apply H. apply in_or_app. left. exact I.
  - specialize (H (Prp name get r absent) (in_or_app _ _ _ (or_intror (in_eq _ _)))). cbn [property_holds] in *.
    destruct H as [(v & M & R)|(N & AB)]; [left; exists v; split; [exact M|]; exists (get x); split; [exact R|reflexivity]|right; split; [exact N|]; exists (get x); split; [exact AB|reflexivity]].
  - apply H. apply in_or_app. right. right. exact I.
Qed.

Section Params.
Context (F : float_lib) (X : ext_lib).
Lemma f_asset : func (m_asset F X). Proof. obj_tac. Qed.
Lemma f_sparse_values : func (m_sparse_values F X). Proof. obj_tac. Qed.
Lemma f_sparse_indices : func (m_sparse_indices F X). Proof. obj_tac. Qed.
Lemma f_sparse : func (m_sparse F X). Proof. pose proof f_sparse_values. pose proof f_sparse_indices. obj_tac. Qed.
Lemma f_accessor : func (m_accessor F X). Proof. pose proof f_sparse. obj_tac. Qed.

Lemma f_bufferView : func (m_bufferView F X). Proof. obj_tac. Qed.
Lemma f_scene : func (m_scene F X). Proof. obj_tac. Qed.
Lemma f_node : func (m_node F X). Proof. obj_tac. Qed.
Lemma f_skin : func (m_skin F X). Proof. obj_tac. Qed.
Lemma f_orthographic : func (m_orthographic F X). Proof. obj_tac. Qed.
Lemma f_perspective : func (m_perspective F X). Proof. obj_tac. Qed.
Lemma f_camera : func (m_camera F X). Proof. pose proof f_orthographic. pose proof f_perspective. obj_tac. Qed.
Lemma f_attributes : func m_attributes. Proof. unfold m_attributes. f_tac. Qed.
Lemma f_primitive : func (m_primitive F X). Proof. pose proof f_attributes. obj_tac. Qed.
Lemma f_all {A} (r : meaning A) : func r -> func (m_all r). Proof. intros H. unfold m_all. f_tac. Qed.
Lemma f_mesh : func (m_mesh F X). Proof. pose proof (f_all _ f_primitive). obj_tac. Qed.
Lemma f_textureInfo : func (m_textureInfo F X). Proof. obj_tac. Qed.
Lemma f_normalTexture : func (m_normalTexture F X). Proof. obj_tac. Qed.
Lemma f_occlusionTexture : func (m_occlusionTexture F X). Proof. obj_tac. Qed.
Lemma f_pbr : func (m_pbr F X). Proof. pose proof f_textureInfo. obj_tac. Qed.
Lemma f_material : func (m_material F X).
Proof. pose proof f_textureInfo. pose proof f_normalTexture. pose proof f_occlusionTexture. pose proof f_pbr. obj_tac. Qed.
Lemma f_texture : func (m_texture F X). Proof. obj_tac. Qed.
Lemma f_sampler : func (m_sampler F X). Proof. obj_tac. Qed.
Lemma f_image : func (m_image F X). Proof. obj_tac. Qed.
Lemma f_animationSampler : func (m_animationSampler F X). Proof. obj_tac. Qed.
Lemma f_animationTarget : func (m_animationTarget F X). Proof. obj_tac. Qed.
Lemma f_animationChannel : func (m_animationChannel F X). Proof. pose proof f_animationTarget. obj_tac. Qed.
Lemma f_animation : func (m_animation F X).
Proof. pose proof (f_all _ f_animationChannel). pose proof (f_all _ f_animationSampler). obj_tac. Qed.
Lemma f_buffer x y j : m_buffer F X x j -> m_buffer F X y j -> set_buf_Data [] x = set_buf_Data [] y.
Proof.
  intros Hx Hy. pose proof (fun P => obj_agree _ x y j P Hx Hy) as A. clear Hx Hy.
  unfold extensible in A; cbn [app] in A;
  lapply A; [clear A; intros A|repeat apply Forall_cons; try apply Forall_nil; (split; [f_tac|u_tac])].
  repeat match type of A with
  | Forall _ [] => clear A
  | Forall _ (_ :: _) => let H := fresh in pose proof (Forall_inv A) as H; cbn [pagree] in H; apply Forall_inv_tail in A
  end.
  destruct x, y; cbn in *; subst; reflexivity.
Qed.
Definition strip := map (option_map (set_buf_Data [])).
Lemma f_buffers : func (image strip (m_all (m_buffer F X))).
Proof.
  intros a b j (a0 & (js & -> & R) & ->) (b0 & (js' & [= <-] & R') & ->). revert b0 R'. induction R as [|x j a js Rx R IH]; intros b Rb; inversion Rb as [|y ? b' ? Ry R'']; subst; [reflexivity|].
  unfold strip in *. cbn [map]. f_equal; [|exact (IH _ R'')]. destruct Rx as (u & -> & Ru), Ry as (w & -> & Rw). cbn [option_map]. f_equal. exact (f_buffer u w j Ru Rw).
Qed.
Lemma f_gltf x y j : m_gltf F X x j -> m_gltf F X y j -> without_data x = without_data y.
Proof.
  intros Hx Hy. pose proof f_asset. pose proof (f_all _ f_accessor). pose proof (f_all _ f_animation). pose proof f_buffers. pose proof (f_all _ f_bufferView).
  pose proof (f_all _ f_camera). pose proof (f_all _ f_image). pose proof (f_all _ f_material). pose proof (f_all _ f_mesh). pose proof (f_all _ f_node).
  pose proof (f_all _ f_sampler). pose proof (f_all _ f_scene). pose proof (f_all _ f_skin). pose proof (f_all _ f_texture).
  unfold m_gltf, extensible in Hx, Hy. cbn [app] in Hx, Hy.
  match type of Hx with m_obj (?a :: ?b :: ?c :: ?d :: ?e :: Prp ?n ?g ?r ?ab :: ?tl) _ _ =>
    apply (obj_image n g r ab strip [a; b; c; d; e]) in Hx; apply (obj_image n g r ab strip [a; b; c; d; e]) in Hy
  end. cbn [app] in Hx, Hy.
  pose proof (fun P => obj_agree _ x y j P Hx Hy) as A. clear Hx Hy.
  unfold extensible in A; cbn [app] in A;
  lapply A; [clear A; intros A|repeat apply Forall_cons; try apply Forall_nil; (split; [f_tac|first [u_tac|intros ? ? (? & -> & ->) (? & -> & ->); reflexivity]])].
  repeat match type of A with
  | Forall _ [] => clear A
  | Forall _ (_ :: _) => let H := fresh in pose proof (Forall_inv A) as H; cbn [pagree] in H; apply Forall_inv_tail in A
  end.
  unfold without_data. change (map (option_map (set_buf_Data []))) with strip.
  destruct x, y; cbn in *; subst. unfold set_doc_Buffers. cbn. congruence.
Qed.
End Params.
