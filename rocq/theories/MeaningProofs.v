(** What is decoded is what the JSON says. *)
From Verif Require Import Base BaseFacts Types Doc F64 SpecText SpecString JsonText JsonStringProofs Codec DocCodec SpecJson SpecJsonDoc
  CodecProofs CodecInv DocCodecBase Marshal SpecMarshal MarshalProofs SpecSchema SchemaProofs SchemaAccept SpecMeaning PropsString.

(** ** Names *)
Lemma says_unquote raw k : string_body (str_bytes raw) -> (says raw k <-> unquote_str raw = Some k).
Proof.
  intros B. destruct (body_denotes _ B) as (rs & D). destruct (denotes_unquote _ _ D) as [U S]. unfold unquote_str. rewrite U. split.
  - intros (rs' & D' & E). destruct (denotes_unquote _ _ D') as [U' _]. rewrite U in U'. injection U' as U'. rewrite U', <- E, BaseFacts.bytes_str_bytes. reflexivity.
  - intros [= <-]. exists rs. split; [exact D|]. apply BaseFacts.str_bytes_str.
Qed.
Definition bodies (ms : list (string * json)) : Prop := Forall (fun p => string_body (str_bytes (fst p))) ms.
Lemma member_in k ms v : bodies ms -> NoDup (map (fun p => unquote_str (fst p)) ms) ->
  forall raw, In (raw, v) ms -> unquote_str raw = Some k -> member k ms v.
Proof.
  intros B ND raw I U. apply in_split in I. destruct I as (a & b & ->). exists a, raw, b. split; [reflexivity|].
  unfold bodies in B. rewrite Forall_app in B. destruct B as [_ B]. split; [apply says_unquote; [exact (Forall_inv B)|exact U]|].
  rewrite map_app in ND. cbn [map fst] in ND. apply NoDup_remove_2 in ND. apply Forall_forall. intros p Ip S. apply ND. apply in_or_app. right.
  rewrite U. apply Forall_inv_tail in B. rewrite Forall_forall in B. apply (says_unquote _ _ (B p Ip)) in S. rewrite <- S. apply (in_map (fun p => unquote_str (fst p))). exact Ip.
Qed.
Lemma no_member_in k ms : bodies ms -> ~ In (Some k) (map (fun p => unquote_str (fst p)) ms) -> no_member k ms.
Proof.
  intros B N. apply Forall_forall. intros p I S. unfold bodies in B. rewrite Forall_forall in B. apply (says_unquote _ _ (B p I)) in S.
  apply N. rewrite <- S. apply (in_map (fun p => unquote_str (fst p))). exact I.
Qed.

(** ** Maps *)
Lemma compare_self a : String.compare a a = Eq.
Proof. induction a as [|c a IH]; [reflexivity|]. cbn. unfold Ascii.compare. rewrite N.compare_refl. exact IH. Qed.
Fixpoint look {A} (k : string) (m : list (string * A)) : option A :=
  match m with [] => None | (k', v) :: m' => if String.eqb k' k then Some v else look k m' end.
Lemma look_set {A} k (v : A) k' : forall m, look k' (map_set k v m) = if String.eqb k k' then Some v else look k' m.
Proof.
  induction m as [|[k1 v1] m IH]; [reflexivity|]. cbn [map_set]. destruct (String.compare k k1) eqn:C; cbn [look]; try reflexivity.
  - apply String.compare_eq_iff in C. subst k1. destruct (String.eqb k k'); reflexivity.
  - rewrite IH. destruct (String.eqb_spec k1 k') as [->|]; [|reflexivity]. destruct (String.eqb_spec k k') as [->|]; [|reflexivity].
    rewrite compare_self in C. discriminate.
Qed.
Lemma look_sets {A} k : forall (kvs m : list (string * A)),
  (exists a v b, kvs = a ++ (k, v) :: b /\ ~ In k (map fst b) /\ look k (map_sets m kvs) = Some v) \/
  (~ In k (map fst kvs) /\ look k (map_sets m kvs) = look k m).
Proof.
  unfold map_sets. induction kvs as [|[k1 v1] kvs IH]; intros m; cbn [fold_left map fst snd]; [right; split; [intros []|reflexivity]|].
  destruct (IH (map_set k1 v1 m)) as [(a & v & b & -> & N & E)|(N & E)].
  - left. exists ((k1, v1) :: a), v, b. auto.
  - rewrite look_set in E. destruct (String.eqb_spec k1 k) as [->|D].
    + left. exists [], v1, kvs. auto.
    + right. split; [intros [I|I]; [exact (D I)|exact (N I)]|exact E].
Qed.
Lemma look_in {A} k (v : A) m : NoDup (map fst m) -> In (k, v) m -> look k m = Some v.
Proof.
  induction m as [|[k1 v1] m IH]; intros ND []; cbn [look]; cbn [map fst] in ND; inversion ND; subst.
  - injection H as -> ->. rewrite String.eqb_refl. reflexivity.
  - destruct (String.eqb_spec k1 k) as [->|]; [|apply IH; assumption]. exfalso. match goal with H : ~ In _ _ |- _ => apply H end. apply (in_map fst) in H. exact H.
Qed.
Lemma look_none {A} k (m : list (string * A)) : ~ In k (map fst m) -> look k m = None.
Proof. induction m as [|[k1 v1] m IH]; intros N; [reflexivity|]. cbn [look]. cbn in N. destruct (String.eqb_spec k1 k); [tauto|]. apply IH. tauto. Qed.
Lemma sorted_keys_nodup {A} (m : list (string * A)) : sorted_keys m -> NoDup (map fst m).
Proof.
  assert (L : forall p (m : list (string * A)), sorted_keys (p :: m) -> Forall (fun q => String.compare (fst p) (fst q) = Lt) m).
  { intros p m0. revert p. induction m0 as [|q m0 IH]; intros p S; [constructor|]. inversion S as [| |? ? ? C S']; subst. constructor; [exact C|].
    eapply Forall_impl; [|exact (IH q S')]. intros r R. cbn in R. exact (compare_trans _ _ _ C R). }
  induction m as [|p m IH]; intros S; [constructor|]. cbn [map]. constructor.
  - intros I. apply in_map_iff in I. destruct I as (q & E & I). pose proof (L p m S) as F. rewrite Forall_forall in F. specialize (F q I). rewrite <- E in F.
    rewrite compare_self in F. discriminate.
  - apply IH. inversion S; [constructor|assumption].
Qed.

Section Reads.
Context (F : float_lib) (X : ext_lib).
Notation ok := (conforms (fun _ => True) unrelated).
Definition rd {A} (c : codec A) (s : schema) (r : meaning A) (z : A) : Prop :=
  forall m j y, wf_json m j -> ok s j -> dec c z j = Ok y -> r y j.

Lemma rd_int lo z : rd c_int (SInt lo) m_int z.
Proof.
  intros m j y _ C. inversion C; subst. cbn. rewrite (parse_of_decimal _ n) by assumption. intros [= <-]. eexists. split; [reflexivity|assumption].
Qed.
Lemma rd_str z : rd c_str SStr m_str z.
Proof.
  intros m j y W C. inversion C; subst. inversion W; subst. cbn. destruct (unquote_str s) as [v|] eqn:E; [|discriminate]. intros [= <-].
  eexists. split; [reflexivity|]. apply says_unquote; assumption.
Qed.
Lemma rd_bool z : rd c_bool SBool m_bool z.
Proof. intros m j y _ C. inversion C; subst. intros [= <-]. reflexivity. Qed.
Lemma rd_f64 z : rd (c_f64 F) SNum (m_num F) z.
Proof.
  intros m j y _ C. inversion C; subst. cbn. destruct (parse64 F s) as [x|] eqn:E; [|discriminate]. intros [= <-]. eexists. split; [reflexivity|exact E].
Qed.
Lemma rd_ptr {A} (z : A) c s r o : ~ ok s JNull -> rd c s r (match o with Some a => a | None => z end) -> rd (c_ptr z c) s (m_some r) o.
Proof.
  intros N H m j y W C D. assert (E : exists a, dec c (match o with Some a => a | None => z end) j = Ok a /\ y = Some a).
  { destruct j; [destruct (N C)|..]; cbn in D; (destruct (dec c _ _) as [a| |]; [|discriminate..]); injection D as <-; exists a; auto. }
  destruct E as (a & E & ->). exists a. split; [reflexivity|]. exact (H m j a W C E).
Qed.
Lemma rd_elems {A} (z : A) c s r m : rd c s r z -> forall l y, Forall (wf_json m) l -> Forall (ok s) l -> dec_elems z c [] l = Ok y -> Forall2 r y l.
Proof.
  intros H. induction l as [|j l IH]; intros y W C D; cbn [dec_elems] in D; [injection D as <-; constructor|].
  destruct (dec c z j) as [a| |] eqn:E; [|discriminate..]. cbn [bind] in D. destruct (dec_elems z c [] l) as [r0| |] eqn:E2; [|discriminate..]. injection D as <-.
  constructor; [exact (H m j a (Forall_inv W) (Forall_inv C) E)|]. apply IH; [exact (Forall_inv_tail W)|exact (Forall_inv_tail C)|reflexivity].
Qed.
Lemma rd_slice {A} (z : A) c lo s r : rd c s r z -> rd (c_slice z c) (SList lo s) (m_list r) [].
Proof.
  intros H m j y W C D. inversion C; subst. destruct (wf_arr_inv _ _ W) as [k Wl]. exists l. split; [reflexivity|]. exact (rd_elems z c s r k H l y Wl ltac:(assumption) D).
Qed.
Lemma rd_oslice {A} (z : A) c lo s r : rd c s r z -> rd (c_oslice z c) (SList lo s) (m_some (m_list r)) None.
Proof.
  intros H m j y W C D. inversion C; subst. destruct (wf_arr_inv _ _ W) as [k Wl]. cbn in D. destruct (dec_elems z c [] l) as [a| |] eqn:E; [|discriminate..]. injection D as <-.
  exists a. split; [reflexivity|]. exists l. split; [reflexivity|]. exact (rd_elems z c s r k H l a Wl ltac:(assumption) E).
Qed.
Lemma rd_array {A} (z : A) c s r : (forall a, rd c s r a) -> forall old k, List.length old = k -> rd (c_array z c) (STuple k s) (m_list r) old.
Proof.
  intros H old k L m j y W C D. inversion C as [| | | | | | | | |? ? l Ll FL| |]; subst. destruct (wf_arr_inv _ _ W) as [k Wl]. exists l. split; [reflexivity|]. cbn in D.
  clear C W. revert l y Ll FL Wl D. induction old as [|a old IH]; intros [|j l] y Ll FL Wl D; try discriminate Ll; cbn [dec_array] in D; [injection D as <-; constructor|].
  destruct (dec c a j) as [a'| |] eqn:E; [|discriminate..]. cbn [bind] in D. destruct (dec_array z c old l) as [r0| |] eqn:E2; [|discriminate..]. injection D as <-.
  constructor; [exact (H a k j a' (Forall_inv Wl) (Forall_inv FL) E)|]. apply IH; [cbn in Ll; lia|exact (Forall_inv_tail FL)|exact (Forall_inv_tail Wl)|exact E2].
Qed.

(** Maps: the members, decoded one by one, and the last of each name. *)
Lemma dict_sets {A} (r : string -> meaning A) ms kvs : bodies ms ->
  Forall2 (fun p kv => unquote_str (fst p) = Some (fst kv) /\ r (fst kv) (snd kv) (snd p)) ms kvs -> dict_of r (map_sets [] kvs) ms.
Proof.
  intros B H. destruct (map_sets_inv (fun _ => True) kvs [] sk_nil (Forall_nil _)) as [S _]; [apply Forall_forall; auto|].
  pose proof (sorted_keys_nodup _ S) as ND.
  assert (SP : forall a k v b, kvs = a ++ (k, v) :: b -> exists a' raw v' b', ms = a' ++ (raw, v') :: b' /\ unquote_str raw = Some k /\ r k v v' /\
    Forall2 (fun p kv => unquote_str (fst p) = Some (fst kv) /\ r (fst kv) (snd kv) (snd p)) b' b).
  { intros a k v b ->. apply Forall2_app_inv_r in H. destruct H as (a' & t & H1 & H2 & ->). inversion H2 as [|[raw v'] ? b' ? [U R] H3]; subst. exists a', raw, v', b'. auto. }
  assert (NM : forall k b' b, bodies b' -> Forall2 (fun p kv => unquote_str (fst p) = Some (fst kv) /\ r (fst kv) (snd kv) (snd p)) b' b -> ~ In k (map fst b) -> no_member k b').
  { intros k b' b Bb HF N. apply no_member_in; [exact Bb|]. intros I. apply N. clear - HF I. induction HF as [|p kv l l' [U _] HF IH]; [destruct I|]. cbn [map] in *.
    destruct I as [I|I]; [left; congruence|right; exact (IH I)]. }
  split; [exact S|]. split.
  - intros k a I. apply (look_in _ _ _ ND) in I. destruct (look_sets k kvs []) as [(x & v & b & E & N & L)|(N & L)]; [|rewrite L in I; discriminate].
    rewrite L in I. injection I as ->. destruct (SP x k a b E) as (a' & raw & v' & b' & -> & U & R & HF). exists v'. split; [|exact R].
    unfold bodies in B. apply Forall_app in B. destruct B as [_ B]. exists a', raw, b'. split; [reflexivity|]. split; [apply says_unquote; [exact (Forall_inv B)|exact U]|].
    exact (NM k b' b (Forall_inv_tail B) HF N).
  - intros k N. apply look_none in N. destruct (look_sets k kvs []) as [(x & v & b & E & _ & L)|(N' & L)]; [rewrite L in N; discriminate|]. exact (NM k ms kvs B H N').
Qed.
Lemma traverse_forall2 {A B} (f : A -> res B) : forall l ys, traverse f l = Ok ys -> Forall2 (fun a b => f a = Ok b) l ys.
Proof.
  induction l as [|a l IH]; intros ys E; cbn [traverse] in E; [injection E as <-; constructor|]. destruct (f a) as [b| |] eqn:Fa; [|discriminate..]. cbn [bind] in E.
  destruct (traverse f l) as [bs| |] eqn:T; [|discriminate..]. injection E as <-. constructor; [exact Fa|apply IH; reflexivity].
Qed.
Lemma key_of_some raw k : key_of raw = Ok k -> unquote_str raw = Some k.
Proof. unfold key_of. destruct (unquote_str raw); [intros [= <-]; reflexivity|discriminate]. Qed.
Lemma wf_bodies k m : Forall (fun p => string_body (str_bytes (fst p)) /\ wf_json k (snd p)) m -> bodies m.
Proof. apply Forall_impl. intros p [H _]. exact H. Qed.
Lemma Forall2_impl_in {A B} (P Q : A -> B -> Prop) : forall l l', Forall2 P l l' -> (forall a b, In a l -> P a b -> Q a b) -> Forall2 Q l l'.
Proof. induction 1 as [|a b l l' H HF IH]; intros K; constructor; [apply K; [left; reflexivity|exact H]|apply IH; intros; apply K; [right|]; assumption]. Qed.
Lemma rd_attrs lo : rd c_attrs (SDict lo s_id) m_attributes None.
Proof.
  intros m j y W C D. inversion C as [| | | | | | | | | |? ? ms Ll FL|]; subst. destruct (wf_obj_inv _ _ W) as [k Wl]. cbn [dec c_attrs] in D.
  destruct (traverse _ ms) as [kvs| |] eqn:T; [|discriminate..]. injection D as <-. exists (map_sets [] kvs). split; [reflexivity|]. exists ms. split; [reflexivity|].
  apply dict_sets; [exact (wf_bodies k ms Wl)|]. apply traverse_forall2 in T. apply (Forall2_impl_in _ _ _ _ T). intros p [kk v] I E. cbn [fst snd] in *.
  destruct (key_of (fst p)) as [k0| |] eqn:K; [|discriminate..]. cbn [bind] in E. destruct (dec c_int 0 (snd p)) as [v0| |] eqn:DV; [|discriminate..]. injection E as -> ->.
  split; [exact (key_of_some _ _ K)|]. rewrite Forall_forall in Wl, FL. exact (rd_int 0 0 k (snd p) v (proj2 (Wl p I)) (FL p I) DV).
Qed.
Lemma rd_ext lo : rd (c_ext X) (SDict lo SRaw) (m_dict (m_extv X)) [].
Proof.
  intros m j y W C D. inversion C as [| | | | | | | | | |? ? ms Ll FL|]; subst. destruct (wf_obj_inv _ _ W) as [k Wl]. cbn [dec c_ext dec_ext] in D.
  destruct (traverse _ ms) as [raw| |] eqn:T; [|discriminate..]. cbn [bind] in D.
  destruct (traverse _ (map_sets [] raw)) as [kvs| |] eqn:T2; [|discriminate..]. injection D as <-. exists ms. split; [reflexivity|].
  assert (R1 : dict_of (fun _ a v => a = v) (map_sets [] raw) ms).
  { apply dict_sets; [exact (wf_bodies k ms Wl)|]. apply traverse_forall2 in T. apply (Forall2_impl_in _ _ _ _ T). intros p [kk v] I E. cbn [fst snd] in *.
    destruct (key_of (fst p)) as [k0| |] eqn:K; [|discriminate..]. injection E as -> ->. split; [exact (key_of_some _ _ K)|reflexivity]. }
  destruct (map_sets_inv (fun _ => True) raw [] sk_nil (Forall_nil _)) as [S _]; [apply Forall_forall; auto|].
  apply traverse_forall2 in T2.
  assert (KE : map fst kvs = map fst (map_sets [] raw)).
  { clear - T2. induction T2 as [|p q l l' E H IH]; [reflexivity|]. destruct (dec_extv X (fst p) (snd p)); [|discriminate..]. injection E as <-. cbn [map fst]. rewrite IH. reflexivity. }
  assert (SK : sorted_keys kvs).
  { clear - KE S. revert kvs KE. induction S as [|p|p q l L S IH]; intros kvs KE.
    - destruct kvs; [constructor|discriminate].
    - destruct kvs as [|r [|]]; try discriminate. constructor.
    - destruct kvs as [|r [|r2 kvs]]; try discriminate. injection KE as K1 K2 K3. constructor; [rewrite K1, K2; exact L|]. apply IH. cbn [map]. rewrite K2, K3. reflexivity. }
  rewrite map_sets_sorted by exact SK. destruct R1 as (_ & R1 & R2). rewrite <- KE in R2. split; [exact SK|]. split; [|exact R2].
  intros k0 e I. assert (G : exists v, In (k0, v) (map_sets [] raw) /\ dec_extv X k0 v = Ok e).
  { clear - T2 I. induction T2 as [|p q l l' E H IH]; [destruct I|]. destruct I as [->|I].
    - destruct (dec_extv X (fst p) (snd p)) as [e0| |] eqn:Q; [|discriminate..]. injection E as E1 ->. rewrite E1 in Q. exists (snd p). split; [left; rewrite <- E1; destruct p; reflexivity|exact Q].
    - destruct (IH I) as (v & I' & Q). exists v. split; [right; exact I'|exact Q]. }
  destruct G as (v & Iv & Q). destruct (R1 k0 v Iv) as (v' & M & <-). exists v. split; [exact M|]. unfold m_extv. unfold dec_extv in Q.
  destruct (registry X k0) as [f|]; [|injection Q as <-; reflexivity]. destruct (f v) as [a|er|]; [| |discriminate]; injection Q as <-; [left|right]; eexists; split; reflexivity.
Qed.
Lemma rd_any z : rd (c_any F) SFree (m_any F) z.
Proof.
  intros m j y W C. clear C. cbn [dec c_any]. clear z. revert m y W.
  induction j as [|b|s|s|l IH|l IH] using json_ind'; intros m y W D; cbn [dec_any] in D.
  - injection D as <-. constructor.
  - injection D as <-. constructor.
  - destruct (parse64 F s) eqn:E; [|discriminate]. injection D as <-. constructor. exact E.
  - inversion W; subst. destruct (unquote_str s) eqn:E; [|discriminate]. injection D as <-. constructor. apply says_unquote; assumption.
  - destruct (wf_arr_inv _ _ W) as [k Wl]. destruct (traverse (dec_any F) l) as [vs| |] eqn:T; [|discriminate..]. injection D as <-. constructor.
    apply traverse_forall2 in T. clear W m. induction T as [|j v l vs E T IHT]; constructor; [exact (Forall_inv IH k v (Forall_inv Wl) E)|].
    apply IHT; [exact (Forall_inv_tail IH)|exact (Forall_inv_tail Wl)].
  - destruct (wf_obj_inv _ _ W) as [k Wl]. destruct (traverse _ l) as [kvs| |] eqn:T; [|discriminate..]. injection D as <-.
    assert (G : dict_of (fun _ => m_any F) (map_sets [] kvs) l).
    { apply dict_sets; [exact (wf_bodies k l Wl)|]. apply traverse_forall2 in T. apply (Forall2_impl_in _ _ _ _ T). intros p [kk v] I E. cbn [fst snd] in *.
      destruct (key_of (fst p)) as [k0| |] eqn:K; [|discriminate..]. cbn [bind] in E. destruct (dec_any F (snd p)) as [v0| |] eqn:DV; [|discriminate..]. injection E as -> ->.
      split; [exact (key_of_some _ _ K)|]. rewrite Forall_forall in Wl, IH. exact (IH p I k v (proj2 (Wl p I)) DV). }
    destruct G as (G1 & G2 & G3). constructor; assumption.
Qed.

(** Enumerations: the code is found in the table, and it is in the table of
    the specification under the same constant. *)
Lemma rd_enum_num {E} eqb (zero : E) max tbl l tbl' z : Forall (fun v => 0 <= v <= max) l ->
  Forall (fun v => exists e, lookup_by Z.eqb (swap tbl) v = Some e /\ In (e, v) tbl') l -> rd (c_enum_num eqb zero max tbl) (SEnumZ l) (m_code tbl') z.
Proof.
  intros B T m j y _ C. inversion C; subst. rewrite Forall_forall in B, T. cbn. rewrite (uint_of_decimal s n max) by auto. cbn.
  destruct (T n ltac:(assumption)) as (e & L & I). rewrite L. intros [= <-]. exists n. split; [exact I|]. eexists. split; [reflexivity|assumption].
Qed.
Lemma rd_uint max l tbl' z : Forall (fun v => 0 <= v <= max) l -> Forall (fun v => In (v, v) tbl') l -> rd (c_uint max) (SEnumZ l) (m_code tbl') z.
Proof.
  intros B T m j y _ C. inversion C; subst. rewrite Forall_forall in B, T. cbn. rewrite (uint_of_decimal s n max) by auto. intros [= <-].
  exists n. split; [auto|]. eexists. split; [reflexivity|assumption].
Qed.
Lemma rd_enum_str {E} eqb (zero : E) strict tbl l tbl' z :
  Forall (fun v => exists e, lookup_by String.eqb (swap tbl) v = Some e /\ In (e, v) tbl') l -> rd (c_enum_str eqb zero strict tbl) (SEnum l) (m_word tbl') z.
Proof.
  intros T m j y W C. inversion C; subst. inversion W; subst. cbn. match goal with H : unquote_str _ = Some _ |- _ => rewrite H; rename H into U end. cbn.
  rewrite Forall_forall in T. destruct (T v ltac:(assumption)) as (e & L & I). rewrite L. intros [= <-]. exists v. split; [exact I|]. eexists. split; [reflexivity|].
  apply says_unquote; assumption.
Qed.

(** Structs *)
Fixpoint nodupb (l : list string) : bool := match l with [] => true | k :: l' => negb (existsb (String.eqb k) l') && nodupb l' end.
Lemma nodupb_ok l : nodupb l = true -> NoDup l.
Proof.
  induction l as [|k l IH]; intros H; [constructor|]. cbn in H. apply andb_prop in H. destruct H as [H1 H2]. constructor; [|exact (IH H2)].
  intros I. rewrite (proj2 (existsb_exists _ _)) in H1; [discriminate|]. exists k. split; [exact I|apply String.eqb_refl].
Qed.
(** A decoded member changes its field only. *)
Lemma dec_members_get {T} (fs : list (field T)) names : Forall lens fs -> ForallOrdPairs indep fs ->
  forallb (fun k => existsb (String.eqb k) names) (map fname fs) = true ->
  forallb (fun k => match find_field fs k with Some f => String.eqb (fname f) k | None => true end) names = true ->
  forall {A} name (get : T -> A) set c om, find_field fs name = Some (Fld name get set c om) ->
  forall ms x y, NoDup (map (fun p => unquote_str (fst p)) ms) ->
  Forall (fun p => exists k, unquote_str (fst p) = Some k /\ (In k names \/ unrelated names k)) ms ->
  dec_members fs x ms = Ok y ->
  (exists raw v, In (raw, v) ms /\ unquote_str raw = Some name /\ dec c (get x) v = Ok (get y)) \/
  (~ In (Some name) (map (fun p => unquote_str (fst p)) ms) /\ get y = get x).
Proof.
  intros L I N1 N2 A name get set c om Fd.
  assert (IN : forall k f, find_field fs k = Some f -> In f fs).
  { intros k f. unfold find_field. destruct (find (fun f => String.eqb (fname f) k) fs) eqn:E; [intros [= <-]; exact (proj1 (find_some _ _ E))|]. intros E2. exact (proj1 (find_some _ _ E2)). }
  assert (N' : Forall (fun f => In (fname f) names) fs).
  { apply Forall_forall. intros f Hf. apply forallb_forall with (x := fname f) in N1; [|apply in_map; exact Hf].
    apply existsb_exists in N1. destruct N1 as (y & Iy & E). apply String.eqb_eq in E. subst. exact Iy. }
  induction ms as [|[raw j] ms IH]; intros x y ND FM D; cbn [dec_members] in D.
  - injection D as <-. right. split; [intros []|reflexivity].
  - destruct (Forall_inv FM) as (k & U & K). cbn [fst] in U. unfold key_of in D. rewrite U in D. cbn [bind] in D. cbn [map fst] in ND. rewrite U in ND. inversion ND as [|? ? NI ND']; subst.
    assert (STEP : (k = name /\ exists a, dec c (get x) j = Ok a /\ dec_members fs (set a x) ms = Ok y) \/
      (k <> name /\ exists x', get x' = get x /\ dec_members fs x' ms = Ok y)).
    { destruct (String.eqb_spec k name) as [->|NE].
      - left. split; [reflexivity|]. rewrite Fd in D. cbn [dec_field] in D. destruct (dec c (get x) j) as [a| |]; [|discriminate..]. cbn [bind] in D. exists a. auto.
      - right. split; [exact NE|]. destruct (find_field fs k) as [g|] eqn:Fg; [|exists x; auto].
        assert (GN : fname g = k).
        { destruct K as [K|K]; [|rewrite (find_none fs names k N' K) in Fg; discriminate]. apply forallb_forall with (x := k) in N2; [|exact K]. rewrite Fg in N2. apply String.eqb_eq. exact N2. }
        destruct (ForallOrdPairs_In I _ _ (IN _ _ Fg) (IN _ _ Fd)) as [E|[E|E]].
        + rewrite E in GN. destruct NE. symmetry. exact GN.
        + destruct g as [B gn gg gs gc go]. cbn [dec_field] in D. destruct (dec gc (gg x) j) as [b| |]; [|discriminate..]. cbn [bind] in D. exists (gs b x). split; [exact (proj1 E b x)|exact D].
        + destruct g as [B gn gg gs gc go]. cbn [dec_field] in D. destruct (dec gc (gg x) j) as [b| |]; [|discriminate..]. cbn [bind] in D. exists (gs b x). split; [exact (proj2 E b x)|exact D]. }
    destruct STEP as [(-> & a & Da & Dm)|(NE & x' & G & Dm)].
    + destruct (IH _ _ ND' (Forall_inv_tail FM) Dm) as [(raw' & v & Iv & U' & _)|(_ & G)].
      * exfalso. apply NI. rewrite <- U'. apply (in_map (fun p => unquote_str (fst p)) ms (raw', v)). exact Iv.
      * left. exists raw, j. split; [left; reflexivity|]. split; [exact U|]. rewrite G. rewrite Forall_forall in L. specialize (L _ (IN _ _ Fd)). cbn [lens] in L. rewrite L. exact Da.
    + destruct (IH _ _ ND' (Forall_inv_tail FM) Dm) as [(raw' & v & Iv & U' & Dv)|(NI' & G')].
      * left. exists raw', v. split; [right; exact Iv|]. split; [exact U'|]. rewrite <- G. exact Dv.
      * right. cbn [map fst]. rewrite U. split; [intros [E|E]; [injection E as ->; destruct NE; reflexivity|exact (NI' E)]|congruence].
Qed.
Definition pspec {T} (fs : list (field T)) (x0 : T) (req opts : list (string * schema)) (e : property T) : Prop :=
  match e with
  | Prp name get r absent => exists set c om s, find_field fs name = Some (Fld name get set c om) /\ look name (req ++ opts) = Some s /\
      rd c s r (get x0) /\ (existsb (String.eqb name) (map fst req) = true \/ absent (get x0))
  end.
Lemma rd_struct {T} (fs : list (field T)) x0 c req opts es z : (forall j, dec c z j = dec_struct fs x0 j) ->
  Forall lens fs -> ForallOrdPairs indep fs ->
  forallb (fun k => existsb (String.eqb k) (map fst (req ++ opts))) (map fname fs) = true ->
  forallb (fun k => match find_field fs k with Some f => String.eqb (fname f) k | None => true end) (map fst (req ++ opts)) = true ->
  nodupb (map fst (req ++ opts)) = true ->
  Forall (pspec fs x0 req opts) es ->
  rd c (SObj req opts) (m_obj es) z.
Proof.
  intros D L I N1 N2 N3 H m j y W C E. inversion C as [| | | | | | | | | | |? ? ms ND RQ FM]; subst. destruct (wf_obj_inv _ _ W) as [k Wl].
  rewrite D in E. cbn [dec_struct] in E. exists ms. split; [reflexivity|]. apply nodupb_ok in N3.
  assert (FM' : Forall (fun p => exists k, unquote_str (fst p) = Some k /\ (In k (map fst (req ++ opts)) \/ unrelated (map fst (req ++ opts)) k)) ms).
  { eapply Forall_impl; [|exact FM]. intros p (k0 & U & K). exists k0. split; [exact U|]. destruct K as [(s & Is & _)|K]; [left; exact (in_map fst _ _ Is)|right; exact K]. }
  eapply Forall_impl; [|exact H]. intros e P. destruct e as [A name get r absent]. destruct P as (set & cf & om & s & Ff & Ls & R & AB). cbn [property_holds].
  destruct (dec_members_get fs _ L I N1 N2 name get set cf om Ff ms x0 y ND FM' E) as [(raw & v & Iv & U & Dv)|(NI & G)].
  - left. exists v. split; [exact (member_in name ms v (wf_bodies k ms Wl) ND raw Iv U)|]. rewrite Forall_forall in Wl, FM.
    refine (R k v (get y) (proj2 (Wl (raw, v) Iv)) _ Dv). destruct (FM (raw, v) Iv) as (k0 & U0 & K). cbn [fst snd] in *. rewrite U in U0. injection U0 as <-.
    destruct K as [(s' & Is & Cs)|K].
    + apply (look_in _ _ _ N3) in Is. rewrite Ls in Is. injection Is as <-. exact Cs.
    + exfalso. unfold unrelated in K. rewrite Forall_forall in K. assert (In name (map fst (req ++ opts))).
      { clear - Ls. induction (req ++ opts) as [|[k1 v1] l IH]; [discriminate|]. cbn [look] in Ls. destruct (String.eqb_spec k1 name) as [->|]; [left; reflexivity|right; exact (IH Ls)]. }
      pose proof (K name ltac:(assumption)) as Q. rewrite fold_eq_refl in Q. discriminate.
  - right. split; [exact (no_member_in name ms (wf_bodies k ms Wl) NI)|]. destruct AB as [AB|AB]; [|rewrite G; exact AB].
    exfalso. apply existsb_exists in AB. destruct AB as (nm & Inm & Enm). apply String.eqb_eq in Enm. subst nm. apply in_map_iff in Inm. destruct Inm as ([k1 s1] & E1 & I1). cbn [fst] in E1. subst k1.
    rewrite Forall_forall in RQ. destruct (RQ _ I1) as (p & Ip & Up). cbn [fst] in Up. apply NI. rewrite <- Up. apply (in_map (fun p => unquote_str (fst p))). exact Ip.
Qed.

Ltac in_tac := first [left; reflexivity | right; in_tac].
Ltac tbl_tac := repeat apply Forall_cons; try apply Forall_nil; (eexists; split; [reflexivity|in_tac]).
Ltac rng_tac := repeat apply Forall_cons; try apply Forall_nil; lia.
Ltac nn_tac := let C := fresh in intros C; inversion C.
Ltac rd_tac :=
  first [ apply rd_ext | apply rd_any | apply rd_str | apply rd_bool | apply rd_int | apply rd_f64 | apply rd_attrs
        | apply rd_enum_num; [rng_tac|tbl_tac] | apply rd_uint; [rng_tac|repeat apply Forall_cons; try apply Forall_nil; in_tac]
        | apply rd_enum_str; tbl_tac
        | assumption
        | apply rd_ptr; [nn_tac|rd_tac] | apply rd_slice; rd_tac | apply rd_oslice; rd_tac | apply rd_array; [intros; apply rd_f64|reflexivity] ].
Ltac prd_tac := repeat apply Forall_cons; try apply Forall_nil;
  (do 4 eexists; split; [reflexivity|split; [reflexivity|split; [rd_tac|first [left; reflexivity|right; exact eq_refl]]]]).
Ltac srd_tac fs x0 := apply (rd_struct fs x0); [intros j; reflexivity|lens_tac|indep_tac|vm_compute; reflexivity|vm_compute; reflexivity|vm_compute; reflexivity|prd_tac].

Lemma rd_Document : rd (c_Document F X) s_gltf (m_gltf F X) zero_Document.
Proof.
  assert (rd (c_SparseValues F X) s_sparse_values (m_sparse_values F X) zero_SparseValues) by srd_tac (fields_SparseValues F X) zero_SparseValues.
  assert (rd (c_SparseIndices F X) s_sparse_indices (m_sparse_indices F X) zero_SparseIndices) by srd_tac (fields_SparseIndices F X) zero_SparseIndices.
  assert (rd (c_Sparse F X) s_sparse (m_sparse F X) zero_Sparse) by srd_tac (fields_Sparse F X) zero_Sparse.
  assert (rd (c_Accessor F X) s_accessor (m_accessor F X) zero_Accessor) by srd_tac (fields_Accessor F X) zero_Accessor.
  assert (rd (c_Asset F X) s_asset (m_asset F X) zero_Asset) by srd_tac (fields_Asset F X) default_Asset.
  assert (rd (c_Buffer F X) s_buffer (m_buffer F X) zero_Buffer) by srd_tac (fields_Buffer F X) zero_Buffer.
  assert (rd (c_BufferView F X) s_bufferView (m_bufferView F X) zero_BufferView) by srd_tac (fields_BufferView F X) zero_BufferView.
  assert (rd (c_Scene F X) s_scene (m_scene F X) zero_Scene) by srd_tac (fields_Scene F X) zero_Scene.
  assert (rd (c_Node F X) s_node (m_node F X) zero_Node) by srd_tac (fields_Node F X) default_Node.
  assert (rd (c_Skin F X) s_skin (m_skin F X) zero_Skin) by srd_tac (fields_Skin F X) zero_Skin.
  assert (rd (c_Orthographic F X) s_orthographic (m_orthographic F X) zero_Orthographic) by srd_tac (fields_Orthographic F X) zero_Orthographic.
  assert (rd (c_Perspective F X) s_perspective (m_perspective F X) zero_Perspective) by srd_tac (fields_Perspective F X) zero_Perspective.
  assert (rd (c_Camera F X) s_camera (m_camera F X) zero_Camera) by srd_tac (fields_Camera F X) zero_Camera.
  assert (rd (c_Primitive F X) s_primitive (m_primitive F X) zero_Primitive) by srd_tac (fields_Primitive F X) zero_Primitive.
  assert (rd (c_Mesh F X) s_mesh (m_mesh F X) zero_Mesh) by srd_tac (fields_Mesh F X) zero_Mesh.
  assert (rd (c_TextureInfo F X) s_textureInfo (m_textureInfo F X) zero_TextureInfo) by srd_tac (fields_TextureInfo F X) zero_TextureInfo.
  assert (rd (c_NormalTexture F X) s_normalTexture (m_normalTexture F X) zero_NormalTexture) by srd_tac (fields_NormalTexture F X) default_NormalTexture.
  assert (rd (c_OcclusionTexture F X) s_occlusionTexture (m_occlusionTexture F X) zero_OcclusionTexture) by srd_tac (fields_OcclusionTexture F X) default_OcclusionTexture.
  assert (rd (c_PBRMetallicRoughness F X) s_pbr (m_pbr F X) zero_PBRMetallicRoughness) by srd_tac (fields_PBRMetallicRoughness F X) default_PBRMetallicRoughness.
  assert (rd (c_Material F X) s_material (m_material F X) zero_Material) by srd_tac (fields_Material F X) default_Material.
  assert (rd (c_Texture F X) s_texture (m_texture F X) zero_Texture) by srd_tac (fields_Texture F X) zero_Texture.
  assert (rd (c_Sampler F X) s_sampler (m_sampler F X) zero_Sampler) by srd_tac (fields_Sampler F X) zero_Sampler.
  assert (rd (c_Image F X) s_image (m_image F X) zero_Image) by srd_tac (fields_Image F X) zero_Image.
  assert (rd (c_AnimationSampler F X) s_animationSampler (m_animationSampler F X) zero_AnimationSampler) by srd_tac (fields_AnimationSampler F X) zero_AnimationSampler.
  assert (rd (c_AnimationChannelTarget F X) s_animationTarget (m_animationTarget F X) zero_AnimationChannelTarget) by srd_tac (fields_AnimationChannelTarget F X) zero_AnimationChannelTarget.
  assert (rd (c_AnimationChannel F X) s_animationChannel (m_animationChannel F X) zero_AnimationChannel) by srd_tac (fields_AnimationChannel F X) zero_AnimationChannel.
  assert (rd (c_Animation F X) s_animation (m_animation F X) zero_Animation) by srd_tac (fields_Animation F X) zero_Animation.
  srd_tac (fields_Document F X) zero_Document.
Qed.
End Reads.
