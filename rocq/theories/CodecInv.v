(** What decoding guarantees: invariants of decoded values, and no panics. *)
From Verif Require Import Base BaseFacts Types Doc F64 JsonText SpecText JsonStringProofs Codec SpecJson CodecProofs.

(** ** Unquoted strings are valid UTF-8 *)
Lemma valid_app a b : valid_utf8 a -> valid_utf8 b -> valid_utf8 (a ++ b).
Proof.
  intros (r1 & F1 & ->) (r2 & F2 & ->). exists (r1 ++ r2). split; [apply Forall_app; split; assumption|].
  rewrite flat_map_app. reflexivity.
Qed.
Lemma encode_rune_valid r : valid_utf8 (encode_rune r).
Proof.
  destruct ((r <? 0) || (0x10FFFF <? r) || (0xD800 <=? r) && (r <=? 0xDFFF)) eqn:E.
  - exists [rune_error]. split; [repeat constructor; unfold scalar, rune_error; lia|].
    unfold encode_rune. rewrite E. vm_compute. reflexivity.
  - assert (S : scalar r) by (unfold scalar; lia). exists [r]. split; [constructor; [exact S|constructor]|].
    cbn. rewrite app_nil_r. apply encode_utf8. exact S.
Qed.
Lemma ascii_valid b : b2z b < 128 -> valid_utf8 [b].
Proof.
  intros H. pose proof (b2z_range b). exists [b2z b]. split; [repeat constructor; unfold scalar; lia|].
  cbn [flat_map]. rewrite utf8_low by lia. rewrite z2b_b2z. reflexivity.
Qed.
Lemma unquote_from_valid l : forall k s, unquote_from k l = Some s -> valid_utf8 s.
Proof.
  induction l as [|b l IH]; intros k s H; [injection H as <-; exists []; split; constructor|].
  cbn [unquote_from] in H. destruct k as [|k]; [|exact (IH k s H)].
  assert (Out : forall bs n, valid_utf8 bs ->
    match unquote_from n l with Some r => Some (bs ++ r) | None => None end = Some s -> valid_utf8 s).
  { intros bs n V E. destruct (unquote_from n l) as [r|] eqn:Er; [|discriminate]. injection E as <-.
    apply valid_app; [exact V|exact (IH n r Er)]. }
  destruct (Ascii.eqb b bslash).
  - destruct l as [|e l2]; [discriminate|].
    repeat match type of H with
    | (if ?c then _ else _) = _ => let E := fresh "E" in destruct c eqn:E; [try (refine (Out _ _ _ H); apply ascii_valid; first [rewrite b2z_z2b by lia; lia | lia])|]
    end; try discriminate.
    destruct (unhex4 l2) as [[r l4]|]; [|discriminate].
    destruct ((55296 <=? r) && (r <=? 57343)).
    + destruct (getu4 l4) as [[r1 l5]|].
      * destruct ((r <? 56320) && (56320 <=? r1) && (r1 <=? 57343)); exact (Out _ _ (encode_rune_valid _) H).
      * exact (Out _ _ (encode_rune_valid _) H).
    + exact (Out _ _ (encode_rune_valid _) H).
  - destruct ((b2z b =? 34) || (b2z b <? 32)); [discriminate|].
    destruct (b2z b <? 128) eqn:Eb; [refine (Out _ _ _ H); apply ascii_valid; lia|].
    destruct (decode_rune b l) as [r rest]. exact (Out _ _ (encode_rune_valid _) H).
Qed.
Lemma unquote_str_utf8 raw s : unquote_str raw = Some s -> utf8_str s.
Proof.
  unfold unquote_str, utf8_str. destruct (unquote (str_bytes raw)) as [b|] eqn:E; [|discriminate].
  intros [= <-]. rewrite str_bytes_bytes. exact (unquote_from_valid _ _ _ E).
Qed.
Lemma key_of_utf8 raw k : key_of raw = Ok k -> utf8_str k.
Proof.
  unfold key_of. destruct (unquote_str raw) as [s|] eqn:E; [|discriminate]. intros [= <-]. exact (unquote_str_utf8 _ _ E).
Qed.

(** ** Invariants.  [J] is a condition on the JSON that its parts inherit. *)
Definition closed (J : json -> Prop) : Prop :=
  (forall l, J (JArr l) -> Forall J l) /\ (forall m, J (JObj m) -> Forall (fun p => J (snd p)) m).
Definition inv {A} (c : codec A) (J : json -> Prop) (P : A -> Prop) : Prop :=
  forall old j y, P old -> J j -> dec c old j = Ok y -> P y.
Definition nopanic {A} (c : codec A) : Prop := forall old j, dec c old j <> Panic.

Lemma closed_wf n : closed (wf_json n).
Proof.
  split; intros l H; inversion H; subst; rewrite Forall_forall in *; intros p Hp.
  - apply (wf_json_mono _ n0); [auto|lia].
  - apply (wf_json_mono _ n0); [apply H2; exact Hp|lia].
Qed.

Lemma bind_ok {A B} (m : res A) (f : A -> res B) y : bind m f = Ok y -> exists a, m = Ok a /\ f a = Ok y.
Proof. destruct m; cbn; try discriminate. intros H. eexists. split; [reflexivity|exact H]. Qed.
Lemma bind_np {A B} (m : res A) (f : A -> res B) : m <> Panic -> (forall a, m = Ok a -> f a <> Panic) -> bind m f <> Panic.
Proof. destruct m; cbn; [intros _ H; apply H; reflexivity|discriminate|contradiction]. Qed.
Lemma traverse_ok {A B} (f : A -> res B) l r : traverse f l = Ok r -> Forall2 (fun a b => f a = Ok b) l r.
Proof.
  revert r. induction l as [|a l IH]; intros r H; cbn in H; [injection H as <-; constructor|].
  apply bind_ok in H. destruct H as (b & Hb & H). apply bind_ok in H. destruct H as (bs & Hbs & H). injection H as <-.
  constructor; [exact Hb|apply IH; exact Hbs].
Qed.
Lemma traverse_np {A B} (f : A -> res B) l : (forall a, f a <> Panic) -> traverse f l <> Panic.
Proof.
  intros H. induction l as [|a l IH]; cbn; [discriminate|]. apply bind_np; [apply H|]. intros b _.
  apply bind_np; [exact IH|]. discriminate.
Qed.

Lemma str_of_json_utf8 j s : str_of_json j = Ok (Some s) -> utf8_str s.
Proof.
  destruct j; cbn; try discriminate. destruct (unquote_str lit) as [s'|] eqn:E; [|discriminate].
  intros [= <-]. exact (unquote_str_utf8 _ _ E).
Qed.
Lemma inv_str J : inv c_str J utf8_str.
Proof.
  intros old j y Ho _ H. cbn in H. apply bind_ok in H. destruct H as (o & Hj & H). injection H as <-.
  destruct o; [exact (str_of_json_utf8 _ _ Hj)|exact Ho].
Qed.
Lemma inv_true {A} (c : codec A) J : inv c J (fun _ => True).
Proof. intros ? ? ? _ _ _. exact I. Qed.

Lemma parse_digits_nonneg l n : parse_digits l = Some n -> 0 <= n.
Proof.
  unfold parse_digits. destruct l as [|b l]; [discriminate|]. destruct (forallb is_digit (b :: l)) eqn:E; [|discriminate].
  intros H. match type of H with Some ?e = Some n => replace n with e by congruence end. clear H.
  assert (G : forall l a, 0 <= a -> forallb is_digit l = true -> 0 <= fold_left (fun a d => 10 * a + (b2z d - 48)) l a).
  { clear. induction l as [|b l IH]; intros a Ha H; [exact Ha|]. cbn [fold_left forallb] in *.
    apply andb_prop in H. destruct H as [Hb Hl]. apply IH; [|exact Hl]. unfold is_digit, in_range in Hb. lia. }
  apply G; [lia|exact E].
Qed.
Lemma parse_uint_range max lit n : parse_uint max lit = Some n -> 0 <= n <= max.
Proof.
  unfold parse_uint. destruct (parse_digits (str_bytes lit)) as [k|] eqn:E; [|discriminate].
  destruct (k <=? max) eqn:L; [|discriminate]. intros [= <-]. pose proof (parse_digits_nonneg _ _ E). lia.
Qed.
Lemma parse_int_range lit n : parse_int lit = Some n -> in_i64 n.
Proof.
  unfold parse_int, in_i64. rewrite p63. destruct (str_bytes lit) as [|b l].
  - cbn. discriminate.
  - assert (G : match parse_digits (b :: l) with Some n => if n <? 9223372036854775808 then Some n else None | None => None end = Some n ->
      -9223372036854775808 <= n < 9223372036854775808).
    { destruct (parse_digits (b :: l)) as [k|] eqn:E; [|discriminate]. pose proof (parse_digits_nonneg _ _ E).
      destruct (k <? 9223372036854775808) eqn:L; [|discriminate]. intros [= <-]. lia. }
    destruct b as [[] [] [] [] [] [] [] []]; try exact G.
    destruct (parse_digits l) as [k|] eqn:E; [|discriminate]. pose proof (parse_digits_nonneg _ _ E).
    destruct (k <=? 9223372036854775808) eqn:L; [|discriminate]. intros [= <-]. lia.
Qed.
Lemma inv_int J : inv c_int J in_i64.
Proof.
  intros old j y Ho _ H. destruct j; cbn in H; try discriminate; [injection H as <-; exact Ho|].
  destruct (parse_int lit) as [n|] eqn:E; [|discriminate]. injection H as <-. exact (parse_int_range _ _ E).
Qed.
Lemma inv_tgt J : inv c_tgt J (range 65536).
Proof.
  intros old j y Ho _ H. cbn in H. apply bind_ok in H. destruct H as (o & Hj & H). injection H as <-.
  destruct o as [n|]; [|exact Ho]. destruct j; cbn in Hj; try discriminate.
  destruct (parse_uint 65535 lit) as [k|] eqn:E; [|discriminate]. injection Hj as <-.
  apply parse_uint_range in E. unfold range. lia.
Qed.
Section EnumInv.
Context {E : Type} (eqb : E -> E -> bool) (zero : E) (valid : E -> Prop).
Lemma lookup_swap {V} (keqb : V -> V -> bool) (tbl : list (E * V)) k e :
  lookup_by keqb (swap tbl) k = Some e -> In e (map fst tbl).
Proof.
  unfold lookup_by, swap. destruct (find _ _) as [p|] eqn:Ef; [|discriminate]. intros [= <-].
  apply find_some in Ef. destruct Ef as [Hin _]. apply in_map_iff in Hin. destruct Hin as (q & <- & Hq).
  cbn. apply in_map. exact Hq.
Qed.
Lemma inv_enum_num J max tbl : valid zero -> Forall valid (map fst tbl) -> inv (c_enum_num eqb zero max tbl) J valid.
Proof.
  intros Z0 T old j y _ _ H. cbn in H. apply bind_ok in H. destruct H as (o & Hj & H). injection H as <-.
  destruct (lookup_by Z.eqb (swap tbl) _) as [e|] eqn:L; [|exact Z0]. apply lookup_swap in L.
  rewrite Forall_forall in T. auto.
Qed.
Lemma inv_enum_str J strict tbl : valid zero -> Forall valid (map fst tbl) -> inv (c_enum_str eqb zero strict tbl) J valid.
Proof.
  intros Z0 T old j y _ _ H. cbn in H. apply bind_ok in H. destruct H as (o & Hj & H).
  destruct (lookup_by String.eqb (swap tbl) _) as [e|] eqn:L.
  - injection H as <-. apply lookup_swap in L. rewrite Forall_forall in T. auto.
  - destruct strict; [discriminate|]. injection H as <-. exact Z0.
Qed.
End EnumInv.
Ltac enum_inv := first [apply inv_enum_num | apply inv_enum_str]; [try reflexivity; unfold range; lia|
  cbn; repeat (apply Forall_cons; [try reflexivity; unfold range; lia|]); apply Forall_nil].
Lemma inv_ct J : inv c_ct J (fun c => ct_valid c = true).
Proof. apply inv_enum_num; [reflexivity|]. repeat constructor. Qed.
Lemma inv_at J : inv c_at J (fun c => at_valid c = true).
Proof. apply inv_enum_str; [reflexivity|]. repeat constructor. Qed.
Lemma inv_mode J : inv c_mode J (range 7). Proof. enum_inv. Qed.
Lemma inv_alpha J : inv c_alpha J (range 3). Proof. enum_inv. Qed.
Lemma inv_mag J : inv c_mag J (range 3). Proof. enum_inv. Qed.
Lemma inv_minf J : inv c_minf J (range 7). Proof. enum_inv. Qed.
Lemma inv_wrap J : inv c_wrap J (range 3). Proof. enum_inv. Qed.
Lemma inv_interp J : inv c_interp J (range 3). Proof. enum_inv. Qed.
Lemma inv_trs J : inv c_trs J (range 4). Proof. enum_inv. Qed.

(** ** Containers *)
Lemma inv_ptr {A} (zero : A) c J (P : A -> Prop) : P zero -> inv c J P -> inv (c_ptr zero c) J (opt P).
Proof.
  intros Z0 I old j y Ho Hj H.
  assert (G : forall o, P o -> bind (dec c o j) (fun a => Ok (Some a)) = Ok y -> opt P y).
  { intros o Po E. apply bind_ok in E. destruct E as (a & Ea & E). injection E as <-. cbn. exact (I o j a Po Hj Ea). }
  assert (Po : P (match old with Some a => a | None => zero end)) by (destruct old; [exact Ho|exact Z0]).
  cbn in H. destruct j; try exact (G _ Po H). injection H as <-. exact Logic.I.
Qed.
Lemma inv_elems {A} (zero : A) c J (P : A -> Prop) : P zero -> inv c J P ->
  forall l old y, Forall P old -> Forall J l -> dec_elems zero c old l = Ok y -> Forall P y.
Proof.
  intros Z0 I l. induction l as [|j l IH]; intros old y Ho Hl H; cbn in H; [injection H as <-; constructor|].
  apply bind_ok in H. destruct H as (a & Ha & H). apply bind_ok in H. destruct H as (r & Hr & H). injection H as <-.
  constructor.
  - refine (I _ j a _ (Forall_inv Hl) Ha). destruct old; [exact Z0|exact (Forall_inv Ho)].
  - refine (IH _ r _ (Forall_inv_tail Hl) Hr). destruct old; [constructor|exact (Forall_inv_tail Ho)].
Qed.
Lemma inv_slice {A} (zero : A) c J (P : A -> Prop) : closed J -> P zero -> inv c J P -> inv (c_slice zero c) J (Forall P).
Proof.
  intros C Z0 I old j y Ho Hj H. destruct j; cbn in H; try discriminate; [injection H as <-; constructor|].
  exact (inv_elems zero c J P Z0 I l old y Ho (proj1 C _ Hj) H).
Qed.
Lemma inv_oslice {A} (zero : A) c J (P : A -> Prop) : closed J -> P zero -> inv c J P -> inv (c_oslice zero c) J (opt (Forall P)).
Proof.
  intros C Z0 I old j y Ho Hj H. destruct j; cbn in H; try discriminate; [injection H as <-; exact Logic.I|].
  apply bind_ok in H. destruct H as (r & Hr & H). injection H as <-. cbn.
  refine (inv_elems zero c J P Z0 I l _ r _ (proj1 C _ Hj) Hr). destruct old; [exact Ho|constructor].
Qed.
Lemma inv_array {A} (zero : A) c J (P : A -> Prop) k : closed J -> P zero -> inv c J P ->
  inv (c_array zero c) J (fun l => List.length l = k /\ Forall P l).
Proof.
  intros C Z0 I old j y [Hk Ho] Hj H. destruct j; cbn in H; try discriminate; [injection H as <-; split; assumption|].
  pose proof (proj1 C _ Hj) as Hl. clear Hj. revert k l y Hk Hl H.
  induction Ho as [|a old Ha Ho IH]; intros k l y Hk Hl H; cbn in H; [injection H as <-; split; [exact Hk|constructor]|].
  destruct k as [|k]; [discriminate|]. cbn in Hk. injection Hk as Hk.
  destruct l as [|j l].
  - apply bind_ok in H. destruct H as (r & Hr & H). injection H as <-.
    destruct (IH k [] r Hk (Forall_nil _) Hr) as [L F]. split; [cbn; lia|constructor; assumption].
  - apply bind_ok in H. destruct H as (b & Hb & H). apply bind_ok in H. destruct H as (r & Hr & H). injection H as <-.
    destruct (IH k l r Hk (Forall_inv_tail Hl) Hr) as [L F]. split; [cbn; lia|].
    constructor; [exact (I a j b Ha (Forall_inv Hl) Hb)|exact F].
Qed.

Lemma map_set_in {A} k (v : A) m p : In p (map_set k v m) -> p = (k, v) \/ In p m.
Proof.
  induction m as [|[k' v'] m IH]; cbn; [intros [<-|[]]; left; reflexivity|].
  destruct (String.compare k k'); cbn; intuition.
Qed.
Lemma map_set_sorted {A} k (v : A) m : sorted_keys m -> sorted_keys (map_set k v m).
Proof.
  intros S. induction S as [|[k1 v1]|[k1 v1] [k2 v2] m L S IH].
  - constructor.
  - cbn. destruct (String.compare k k1) eqn:E; [constructor|constructor; [exact E|constructor]|].
    constructor; [cbn; apply compare_gt; exact E|constructor].
  - cbn [fst] in L. cbn [map_set] in *. destruct (String.compare k k1) eqn:E.
    + apply compare_eq in E. subst k1. constructor; [exact L|exact S].
    + constructor; [exact E|]. constructor; [exact L|exact S].
    + pose proof (compare_gt _ _ E) as L1.
      destruct (String.compare k k2) eqn:E2.
      * constructor; [exact L1|exact IH].
      * constructor; [exact L1|]. exact IH.
      * constructor; [exact L|exact IH].
Qed.
Lemma map_sets_inv {A} (Q : string * A -> Prop) kvs : forall m, sorted_keys m -> Forall Q m -> Forall Q kvs ->
  sorted_keys (map_sets m kvs) /\ Forall Q (map_sets m kvs).
Proof.
  unfold map_sets. induction kvs as [|[k v] kvs IH]; intros m S Hm Hk; cbn [fold_left fst snd]; [split; assumption|].
  apply IH; [apply map_set_sorted; exact S| |exact (Forall_inv_tail Hk)].
  rewrite Forall_forall in Hm |- *. intros p Hp. apply map_set_in in Hp. destruct Hp as [->|Hp]; [exact (Forall_inv Hk)|exact (Hm p Hp)].
Qed.

Lemma inv_attrs J : inv c_attrs J (opt wf_attrs).
Proof.
  intros old j y Ho Hj H. destruct j; cbn in H; try discriminate; [injection H as <-; exact I|].
  apply bind_ok in H. destruct H as (kvs & Hk & H). injection H as <-. cbn.
  assert (O : wf_attrs (match old with Some o => o | None => [] end)) by (destruct old; [exact Ho|split; constructor]).
  apply map_sets_inv; [exact (proj1 O)|exact (proj2 O)|].
  apply traverse_ok in Hk. clear Hj. induction Hk as [|[raw jv] [k v] m kvs E Hk IH]; [constructor|].
  constructor; [|exact IH]. cbn [fst snd] in *. apply bind_ok in E. destruct E as (k' & Ek & E).
  apply bind_ok in E. destruct E as (v' & Ev & E). injection E as <- <-. split; [exact (key_of_utf8 _ _ Ek)|].
  refine (inv_int (fun _ => True) 0 jv v' _ I Ev). unfold in_i64. rewrite p63. lia.
Qed.

(** ** Structs *)
Section StructInv.
Context {T : Type}.
Definition finv (J : json -> Prop) (P : T -> Prop) (f : field T) : Prop :=
  match f with Fld _ get set c _ => forall y j v, P y -> J j -> dec c (get y) j = Ok v -> P (set v y) end.
Definition fnp (f : field T) : Prop := match f with Fld _ _ _ c _ => nopanic c end.

Lemma find_field_in (fs : list (field T)) k f : find_field fs k = Some f -> In f fs.
Proof.
  unfold find_field. destruct (find (fun f => String.eqb (fname f) k) fs) as [g|] eqn:E.
  - intros [= <-]. exact (proj1 (find_some _ _ E)).
  - intros E2. exact (proj1 (find_some _ _ E2)).
Qed.
Lemma inv_members J P fs : Forall (finv J P) fs -> forall m x y, P x -> Forall (fun p => J (snd p)) m ->
  dec_members fs x m = Ok y -> P y.
Proof.
  intros HF m. induction m as [|[raw j] m IH]; intros x y Px Hm H; cbn in H; [injection H as <-; exact Px|].
  apply bind_ok in H. destruct H as (k & _ & H). apply bind_ok in H. destruct H as (x' & Hx & H).
  refine (IH x' y _ (Forall_inv_tail Hm) H). destruct (find_field fs k) as [f|] eqn:E; [|injection Hx as <-; exact Px].
  apply find_field_in in E. rewrite Forall_forall in HF. specialize (HF f E). destruct f. cbn in Hx, HF.
  apply bind_ok in Hx. destruct Hx as (v & Hv & Hx). injection Hx as <-. exact (HF x j v Px (Forall_inv Hm) Hv).
Qed.
Lemma inv_struct J P fs x j y : closed J -> Forall (finv J P) fs -> P x -> J j -> dec_struct fs x j = Ok y -> P y.
Proof.
  intros C HF Px Hj H. destruct j; cbn in H; try discriminate; [injection H as <-; exact Px|].
  exact (inv_members J P fs HF m x y Px (proj2 C _ Hj) H).
Qed.
Lemma np_members fs : Forall fnp fs -> forall m x, dec_members fs x m <> Panic.
Proof.
  intros HF m. induction m as [|[raw j] m IH]; intros x; cbn; [discriminate|].
  apply bind_np; [unfold key_of; destruct (unquote_str raw); discriminate|]. intros k _.
  apply bind_np; [|intros; apply IH]. destruct (find_field fs k) as [f|] eqn:E; [|discriminate].
  apply find_field_in in E. rewrite Forall_forall in HF. specialize (HF f E). destruct f. cbn in *.
  apply bind_np; [apply HF|discriminate].
Qed.
Lemma np_struct fs x j : Forall fnp fs -> dec_struct fs x j <> Panic.
Proof. intros H. destruct j; cbn; try discriminate. apply np_members. exact H. Qed.
End StructInv.

Lemma finv_intro {T A} J (P : T -> Prop) name (get : T -> A) set c omit Q :
  inv c J Q -> (forall y, P y -> Q (get y)) -> (forall y v, P y -> Q v -> P (set v y)) ->
  finv J P (Fld name get set c omit).
Proof. intros I G S y j v Py Hj H. apply S; [exact Py|]. exact (I _ j v (G y Py) Hj H). Qed.

(** ** No panics *)
Lemma np_str_of_json j : str_of_json j <> Panic.
Proof. destruct j; cbn; try discriminate. destruct (unquote_str lit); discriminate. Qed.
Lemma np_uint_of_json max j : uint_of_json max j <> Panic.
Proof. destruct j; cbn; try discriminate. destruct (parse_uint max lit); discriminate. Qed.
Lemma np_key raw : key_of raw <> Panic.
Proof. unfold key_of. destruct (unquote_str raw); discriminate. Qed.
Lemma np_str : nopanic c_str.
Proof. intros old j. cbn. apply bind_np; [apply np_str_of_json|discriminate]. Qed.
Lemma np_bool : nopanic c_bool.
Proof. intros old j. destruct j; discriminate. Qed.
Lemma np_int : nopanic c_int.
Proof. intros old j. destruct j; cbn; try discriminate. destruct (parse_int lit); discriminate. Qed.
Lemma np_tgt : nopanic c_tgt.
Proof. intros old j. cbn. apply bind_np; [apply np_uint_of_json|discriminate]. Qed.
Lemma np_enum_num {E} eqb (zero : E) max tbl : nopanic (c_enum_num eqb zero max tbl).
Proof. intros old j. cbn. apply bind_np; [apply np_uint_of_json|discriminate]. Qed.
Lemma np_enum_str {E} eqb (zero : E) strict tbl : nopanic (c_enum_str eqb zero strict tbl).
Proof.
  intros old j. cbn. apply bind_np; [apply np_str_of_json|]. intros o _.
  destruct (lookup_by String.eqb (swap tbl) _); [discriminate|]. destruct strict; discriminate.
Qed.
Lemma np_ptr {A} (zero : A) c : nopanic c -> nopanic (c_ptr zero c).
Proof. intros H old j. destruct j; cbn; try discriminate; apply bind_np; try apply H; discriminate. Qed.
Lemma np_elems {A} (zero : A) c : nopanic c -> forall l old, dec_elems zero c old l <> Panic.
Proof.
  intros H l. induction l as [|j l IH]; intros old; cbn; [discriminate|]. apply bind_np; [apply H|]. intros a _.
  apply bind_np; [apply IH|discriminate].
Qed.
Lemma np_slice {A} (zero : A) c : nopanic c -> nopanic (c_slice zero c).
Proof. intros H old j. destruct j; cbn; try discriminate. apply np_elems; exact H. Qed.
Lemma np_oslice {A} (zero : A) c : nopanic c -> nopanic (c_oslice zero c).
Proof. intros H old j. destruct j; cbn; try discriminate. apply bind_np; [apply np_elems; exact H|discriminate]. Qed.
Lemma np_array {A} (zero : A) c : nopanic c -> nopanic (c_array zero c).
Proof.
  intros H old j. destruct j; cbn; try discriminate. revert l. induction old as [|a old IH]; intros l; cbn; [discriminate|].
  destruct l as [|j l]; [apply bind_np; [apply IH|discriminate]|].
  apply bind_np; [apply H|]. intros b _. apply bind_np; [apply IH|discriminate].
Qed.
Lemma np_attrs : nopanic c_attrs.
Proof.
  intros old j. destruct j; cbn; try discriminate. apply bind_np; [|discriminate]. apply traverse_np. intros [raw v].
  apply bind_np; [apply np_key|]. intros k _. apply bind_np; [apply np_int|discriminate].
Qed.

Section Params.
Context (F : float_lib) (X : ext_lib).
Definition parse_contract : Prop := forall s f, parse64 F s = Some f -> float_ok f.
(** Factories do not panic. *)
Definition registry_total : Prop := forall k f j, registry X k = Some f -> f j <> Panic.
(** What a factory builds, its encoder writes. *)
Definition registry_encodes (n : nat) : Prop :=
  forall k f j v, registry X k = Some f -> wf_json n j -> f j = Ok v -> wf_extv X n k (EVal v).
(** And what is read no longer changes once it has been written and read. *)
Definition registry_ok (n : nat) : Prop :=
  registry_encodes n /\
  forall k j e, wf_json n j -> dec_extv X k j = Ok e -> norm_extv X k (norm_extv X k e) = norm_extv X k e.

Lemma np_f64 : nopanic (c_f64 F).
Proof. intros old j. destruct j; cbn; try discriminate. destruct (parse64 F lit); discriminate. Qed.
Lemma np_dec_any j : dec_any F j <> Panic.
Proof.
  induction j as [|b|s|s|l IH|m IH] using json_ind'; cbn; try discriminate.
  - destruct (parse64 F s); discriminate.
  - destruct (unquote_str s); discriminate.
  - apply bind_np; [|discriminate]. induction IH as [|v l Hv _ IHl]; cbn; [discriminate|].
    apply bind_np; [exact Hv|]. intros a _. apply bind_np; [exact IHl|discriminate].
  - apply bind_np; [|discriminate]. induction IH as [|[k v] l Hv _ IHl]; cbn; [discriminate|].
    apply bind_np.
    + apply bind_np; [apply np_key|]. intros a _. apply bind_np; [exact Hv|discriminate].
    + intros a _. apply bind_np; [exact IHl|discriminate].
Qed.
Lemma np_any : nopanic (c_any F).
Proof. intros old j. apply np_dec_any. Qed.
Lemma np_ext : registry_total -> nopanic (c_ext X).
Proof.
  intros R old j. destruct j; cbn; try discriminate. apply bind_np.
  - apply traverse_np. intros [k v]. apply bind_np; [apply np_key|discriminate].
  - intros raw _. apply bind_np; [|discriminate]. apply traverse_np. intros [k v]. cbn. apply bind_np; [|discriminate].
    unfold dec_extv. destruct (registry X k) as [f|] eqn:E; [|discriminate]. specialize (R k f v E).
    destruct (f v); [discriminate..|contradiction].
Qed.

Context (PC : parse_contract).
Lemma inv_f64 J : inv (c_f64 F) J float_ok.
Proof.
  intros old j y Ho _ H. destruct j; cbn in H; try discriminate; [injection H as <-; exact Ho|].
  destruct (parse64 F lit) as [f|] eqn:E; [|discriminate]. injection H as <-. exact (PC _ _ E).
Qed.
Lemma dec_any_wf j : forall n v, wf_json n j -> dec_any F j = Ok v -> wf_any n v.
Proof.
  induction j as [|b|s|s|l IH|m IH] using json_ind'; intros n v W H; cbn in H.
  - injection H as <-. constructor.
  - injection H as <-. constructor.
  - destruct (parse64 F s) as [f|] eqn:E; [|discriminate]. injection H as <-. constructor. exact (PC _ _ E).
  - destruct (unquote_str s) as [f|] eqn:E; [|discriminate]. injection H as <-. constructor. exact (unquote_str_utf8 _ _ E).
  - apply bind_ok in H. destruct H as (vs & Hv & H). injection H as <-. inversion W as [| | | |n' ? W'|]; subst. constructor.
    apply traverse_ok in Hv. clear W. revert IH W'. induction Hv as [|a b l vs E Hv IHl]; intros IH W'; [constructor|].
    constructor; [exact (Forall_inv IH n' b (Forall_inv W') E)|].
    apply IHl; [exact (Forall_inv_tail IH)|exact (Forall_inv_tail W')].
  - apply bind_ok in H. destruct H as (vs & Hv & H). injection H as <-. inversion W as [| | | | |n' ? W']; subst.
    assert (G : Forall (fun p => utf8_str (fst p) /\ wf_any n' (snd p)) vs).
    { apply traverse_ok in Hv. clear W. revert IH W'. induction Hv as [|[k a] [k' b] l vs E Hv IHl]; intros IH W'; [constructor|].
      cbn [fst snd] in E. apply bind_ok in E. destruct E as (k2 & Ek & E). apply bind_ok in E. destruct E as (v2 & Ev & E).
      injection E as <- <-. constructor.
      - split; [exact (key_of_utf8 _ _ Ek)|]. exact (Forall_inv IH n' v2 (proj2 (Forall_inv W')) Ev).
      - apply IHl; [exact (Forall_inv_tail IH)|exact (Forall_inv_tail W')]. }
    destruct (map_sets_inv _ vs [] (sk_nil) (Forall_nil _) G) as [S Q]. constructor; assumption.
Qed.
Lemma inv_any n : inv (c_any F) (wf_json n) (wf_any n).
Proof. intros old j y _ W H. exact (dec_any_wf j n y W H). Qed.

Lemma inv_ext n : registry_total -> registry_encodes n -> inv (c_ext X) (wf_json n) (wf_ext X n).
Proof.
  intros RT RO old j y [So Fo] W H. destruct j; cbn in H; try discriminate; [injection H as <-; split; assumption|].
  apply bind_ok in H. destruct H as (raw & Hr & H). apply bind_ok in H. destruct H as (kvs & Hk & H). injection H as <-.
  assert (G1 : Forall (fun p => utf8_str (fst p) /\ wf_json n (snd p)) raw).
  { pose proof (proj2 (closed_wf n) _ W) as Wm. clear W Hk. apply traverse_ok in Hr. revert Wm.
    induction Hr as [|[k a] [k' b] l vs E Hv IHl]; intros Wm; [constructor|].
    cbn [fst snd] in E. apply bind_ok in E. destruct E as (k2 & Ek & E). injection E as <- <-.
    constructor; [split; [exact (key_of_utf8 _ _ Ek)|exact (Forall_inv Wm)]|]. apply IHl. exact (Forall_inv_tail Wm). }
  destruct (map_sets_inv _ raw [] sk_nil (Forall_nil _) G1) as [S1 G2].
  assert (G3 : Forall (fun p => utf8_str (fst p) /\ wf_extv X n (fst p) (snd p)) kvs).
  { clear G1 S1 Hr. apply traverse_ok in Hk. revert G2.
    induction Hk as [|[k a] [k' b] l vs E Hv IHl]; intros G2; [constructor|].
    cbn [fst snd] in E. apply bind_ok in E. destruct E as (v2 & Ev & E). injection E as <- <-.
    destruct (Forall_inv G2) as [Uk Wa]. cbn [fst snd] in Uk, Wa.
    constructor; [|apply IHl; exact (Forall_inv_tail G2)]. split; [exact Uk|]. cbn [fst snd].
    unfold dec_extv in Ev. destruct (registry X k) as [f|] eqn:R.
    - destruct (f a) as [v|e|] eqn:Ef; [| |discriminate]; injection Ev as <-.
      + exact (RO k f a v R Wa Ef).
      + split; [exact Wa|]. intros g Hg. exact (RT k g _ Hg).
    - injection Ev as <-. split; [exact Wa|]. intros g Hg. exact (RT k g _ Hg). }
  apply map_sets_inv; assumption.
Qed.
(** The same for settled payloads. *)
Lemma inv_settled n : registry_ok n -> inv (c_ext X) (wf_json n) (settled_ext X).
Proof.
  intros [_ RO] old j y [So Fo] W H. destruct j; cbn in H; try discriminate; [injection H as <-; split; assumption|].
  apply bind_ok in H. destruct H as (raw & Hr & H). apply bind_ok in H. destruct H as (kvs & Hk & H). injection H as <-.
  assert (G1 : Forall (fun p => utf8_str (fst p) /\ wf_json n (snd p)) raw).
  { pose proof (proj2 (closed_wf n) _ W) as Wm. clear W Hk. apply traverse_ok in Hr. revert Wm.
    induction Hr as [|[k a] [k' b] l vs E Hv IHl]; intros Wm; [constructor|].
    cbn [fst snd] in E. apply bind_ok in E. destruct E as (k2 & Ek & E). injection E as <- <-.
    constructor; [split; [exact (key_of_utf8 _ _ Ek)|exact (Forall_inv Wm)]|]. apply IHl. exact (Forall_inv_tail Wm). }
  destruct (map_sets_inv _ raw [] sk_nil (Forall_nil _) G1) as [S1 G2].
  apply map_sets_inv; [exact So|exact Fo|]. clear G1 S1 Hr. apply traverse_ok in Hk. revert G2.
  induction Hk as [|[k a] [k' b] l vs E Hv IHl]; intros G2; [constructor|].
  cbn [fst snd] in E. apply bind_ok in E. destruct E as (v2 & Ev & E). injection E as <- <-.
  constructor; [|apply IHl; exact (Forall_inv_tail G2)]. exact (RO k a v2 (proj2 (Forall_inv G2)) Ev).
Qed.
End Params.
