(** texturetransform: the text surgery yields the text of the tree without the
    removed members. *)
From Verif Require Import Base BaseFacts Types Doc F64 F64Facts SpecText JsonText JsonTextProofs JsonStringProofs Codec DocCodec SpecJson SpecJsonDoc
  CodecProofs DocCodecBase Ext SpecExt ReplaceProofs SymText.

(** ** Number texts *)
Definition numchar (c : byte) : Prop := b2z c <> 34 /\ b2z c <> 44 /\ b2z c <> 123 /\ b2z c <> 125.
Lemma digit_numchar c : digit c -> numchar c.
Proof. unfold digit, numchar. lia. Qed.
Lemma number_chars l : json_number l -> l <> [] /\ Forall numchar l.
Proof.
  intros (sg & int & frac & exp & -> & Hs & Hi & Hf & He).
  assert (D : forall t, Forall digit t -> Forall numchar t) by (intros t; apply Forall_impl, digit_numchar).
  assert (Ni : int <> []) by (destruct Hi as [->|(b & t & -> & _)]; discriminate).
  split.
  - intros E. apply app_eq_nil in E. destruct E as [_ E]. apply app_eq_nil in E. tauto.
  - apply Forall_app; split; [|apply Forall_app; split; [|apply Forall_app; split]].
    + destruct Hs as [->| ->]; repeat constructor; vm_compute; discriminate.
    + destruct Hi as [->|(b & t & -> & Hb & Ht)]; [repeat constructor; vm_compute; discriminate|].
      constructor; [unfold numchar; lia|apply D, Ht].
    + destruct Hf as [->|(t & -> & _ & Ht)]; [constructor|].
      constructor; [repeat split; vm_compute; discriminate|apply D, Ht].
    + destruct He as [->|(e & s & t & -> & Hin & Hs' & _ & Ht)]; [constructor|].
      constructor; [destruct Hin as [<-|[<-|[]]]; repeat split; vm_compute; discriminate|].
      apply Forall_app. split; [|apply D, Ht]. destruct Hs' as [->|[->| ->]]; repeat constructor; vm_compute; discriminate.
Qed.
(** What the rewriting below needs of a number. *)
Definition special_head (c : byte) : Prop := In (b2z c) [34; 44; 123; 125].
Lemma number_skips l c p : json_number l -> special_head c -> skips (c :: p) l.
Proof.
  intros N S. apply skips_head. intros H. apply number_chars in N. destruct N as [_ N]. rewrite Forall_forall in N.
  specialize (N c H). unfold numchar in N. unfold special_head in S. cbn in S. lia.
Qed.
Lemma number_prefix l c p rest : json_number l -> special_head c -> has_prefix (c :: p) (l ++ rest) = false.
Proof.
  intros N S. apply (number_skips l c p N S [] l rest eq_refl). apply number_chars in N. tauto.
Qed.


Definition num_heads : list byte := [dquote; ","%char; "{"%char; "}"%char].
Lemma num_heads_special c : mem c num_heads = true -> special_head c.
Proof.
  intros M. apply existsb_exists in M. destruct M as (d & D & E). apply Ascii.eqb_eq in E. subst d.
  unfold special_head. repeat (destruct D as [<-|D]; [vm_compute; tauto|]). destruct D.
Qed.

(** Arrays of numbers. *)
Fixpoint selems (l : list (list piece)) : list piece :=
  match l with [] => [] | v :: l' => (Ch ","%char :: v) ++ selems l' end.
Definition sarr (l : list (list piece)) : list piece :=
  match l with
  | [] => lit (str_bytes "[]")
  | v :: l' => (Ch "["%char :: v) ++ selems l' ++ [Ch "]"%char]
  end.
Lemma den_arr env l sl : Forall2 (fun s q => str_bytes s = den env q) l sl -> print_compact (JArr (map JNum l)) = den env (sarr sl).
Proof.
  intros H. destruct H as [|v sv l sl V H]; [reflexivity|]. unfold print_compact. cbn [map print app sarr].
  change (den env (Ch "["%char :: sv ++ selems sl ++ [Ch "]"%char])) with ("["%char :: den env (sv ++ selems sl ++ [Ch "]"%char])).
  rewrite !den_app, V. f_equal. f_equal. f_equal.
  induction H as [|w sw l sl W H IH]; [reflexivity|]. cbn [map flat_map selems print]. rewrite IH, den_app, W. reflexivity.
Qed.

(** ** The members that stay *)
Definition zeros (l : list Z) : bool := match l with [a; b] => (a =? 0) && (b =? 0) | _ => false end.
Definition unit_scale (l : list Z) : bool := match l with [a; b] => (a =? f64_one) && (b =? f64_one) | _ => false end.
Definition kept_TT (F : float_lib) : list (field TextureTransform) := [
  Fld "offset" tt_Offset set_tt_Offset (c_array 0 (c_f64 F)) zeros;
  Fld "rotation" tt_Rotation set_tt_Rotation (c_f64 F) f64_empty;
  Fld "scale" tt_Scale set_tt_Scale (c_array 0 (c_f64 F)) (fun l => unit_scale l || zeros l);
  Fld "texCoord" tt_TexCoord set_tt_TexCoord (c_ptr 0 c_int) is_none
].

Definition tt_tree (o1 o2 : string) (r : option string) (s1 s2 : string) (x : option string) (ko ks : bool) : list (string * json) :=
  (if ko then [("offset"%string, JArr [JNum o1; JNum o2])] else []) ++
  (match r with Some r => [("rotation"%string, JNum r)] | None => [] end) ++
  (if ks then [("scale"%string, JArr [JNum s1; JNum s2])] else []) ++
  (match x with Some x => [("texCoord"%string, JNum x)] | None => [] end).

Definition numlit (s : string) : Prop := json_number (str_bytes s).
(** The scale is one, literally zero, numerically zero, or not edited; the
    offset is literally zero, numerically zero, or not edited. *)
Inductive scale_case : string -> string -> option bytes -> bool -> Prop :=
| sc_one : scale_case "1" "1" (Some (member "scale" "[1,1]")) false
| sc_zero : scale_case "0" "0" (Some (member "scale" "[0,0]")) false
| sc_nz a b : In (a, b) [("-0", "0"); ("0", "-0"); ("-0", "-0")]%string ->
    scale_case a b (Some (member "scale" "[0,0]")) true
| sc_other a b : numlit a -> numlit b -> scale_case a b None true.
Inductive offset_case : string -> string -> bool -> bool -> Prop :=
| oc_zero : offset_case "0" "0" true false
| oc_nz a b : In (a, b) [("-0", "0"); ("0", "-0"); ("-0", "-0")]%string -> offset_case a b true true
| oc_other a b : numlit a -> numlit b -> offset_case a b false true.

Definition tt_edit (sc : option bytes) (off : bool) (out : bytes) : bytes :=
  let out := match sc with Some p => removeProperty p out | None => out end in
  let out := if off then removeProperty (member "offset" "[0,0]") out else out in
  sanitizeJSON out.

(** The edits as a list of replacements. *)
Definition rm (p : bytes) : list (bytes * bytes) := [(p, []); (str_bytes ",,", str_bytes ",")].
Definition san : list (bytes * bytes) := [(str_bytes "{,", str_bytes "{"); (str_bytes ",}", str_bytes "}")].
Lemma edits_app a : forall b l, edits (a ++ b) l = edits b (edits a l).
Proof. induction a as [|[p r] a IH]; intros b l; [reflexivity|]. apply IH. Qed.
Lemma edits_rm p l : edits (rm p) l = removeProperty p l. Proof. reflexivity. Qed.
Lemma edits_san l : edits san l = sanitizeJSON l. Proof. reflexivity. Qed.
Lemma tt_edit_edits sc off l : tt_edit sc off l =
  edits (match sc with Some p => rm p | None => [] end ++ (if off then rm (member "offset" "[0,0]") else []) ++ san) l.
Proof. rewrite !edits_app. destruct sc, off; reflexivity. Qed.

Definition tt_env (o1 o2 : string) (r : option string) (s1 s2 : string) (x : option string) (i : nat) : bytes :=
  str_bytes (nth i [o1; o2; s1; s2; match r with Some r => r | None => "0" end; match x with Some x => x | None => "0" end] "0")%string.
Definition tt_sym (o1 o2 s1 s2 : list piece) (r x : bool) (ko ks : bool) : list (string * list piece) :=
  (if ko then [("offset"%string, sarr [o1; o2])] else []) ++
  (if r then [("rotation"%string, [Op 4])] else []) ++
  (if ks then [("scale"%string, sarr [s1; s2])] else []) ++
  (if x then [("texCoord"%string, [Op 5])] else []).
Definition is_some {A} (o : option A) : bool := match o with Some _ => true | None => false end.

Lemma tt_den o1 o2 r s1 s2 x ko ks env p1 p2 q1 q2 : env = tt_env o1 o2 r s1 s2 x ->
  str_bytes o1 = den env p1 -> str_bytes o2 = den env p2 -> str_bytes s1 = den env q1 -> str_bytes s2 = den env q2 ->
  print_compact (JObj (tt_tree o1 o2 r s1 s2 x ko ks)) = den env (sobj (tt_sym p1 p2 q1 q2 (is_some r) (is_some x) ko ks)).
Proof.
  intros -> H1 H2 H3 H4. apply den_obj. unfold tt_tree, tt_sym.
  repeat apply Forall2_app.
  - destruct ko; constructor; [|constructor]. split; [reflexivity|]. apply (den_arr _ [o1; o2] [p1; p2]).
    constructor; [exact H1|]. constructor; [exact H2|constructor].
  - destruct r; constructor; [|constructor]. split; [reflexivity|]. cbn. rewrite app_nil_r. reflexivity.
  - destruct ks; constructor; [|constructor]. split; [reflexivity|]. apply (den_arr _ [s1; s2] [q1; q2]).
    constructor; [exact H3|]. constructor; [exact H4|constructor].
  - destruct x; constructor; [|constructor]. split; [reflexivity|]. cbn. rewrite app_nil_r. reflexivity.
Qed.

Lemma zero_number : numlit "0".
Proof. exists [], (str_bytes "0"), [], []. split; [reflexivity|]. split; [left; reflexivity|]. split; [left; reflexivity|]. split; left; reflexivity. Qed.
Lemma one_number : numlit "1".
Proof.
  exists [], (str_bytes "1"), [], []. split; [reflexivity|]. split; [left; reflexivity|].
  split; [right; exists "1"%char, []; split; [reflexivity|]; split; [vm_compute; split; discriminate|constructor]|]. split; left; reflexivity.
Qed.
Lemma neg_zero_number : numlit "-0".
Proof. exists (str_bytes "-"), (str_bytes "0"), [], []. split; [reflexivity|]. split; [right; reflexivity|]. split; [left; reflexivity|]. split; left; reflexivity. Qed.

Lemma tt_surgery o1 o2 r s1 s2 x sc off ko ks : scale_case s1 s2 sc ks -> offset_case o1 o2 off ko -> opt numlit r -> opt numlit x ->
  tt_edit sc off (print_compact (JObj (tt_tree o1 o2 r s1 s2 x true true))) = print_compact (JObj (tt_tree o1 o2 r s1 s2 x ko ks)).
Proof.
  intros HS HO Hr Hx. rewrite tt_edit_edits.
  assert (HE : forall i, numlit (nth i [o1; o2; s1; s2; match r with Some r => r | None => "0" end; match x with Some x => x | None => "0" end] "0")%string).
  { assert (G : Forall numlit [o1; o2; s1; s2; match r with Some r => r | None => "0" end; match x with Some x => x | None => "0" end]%string).
    { repeat constructor.
      - destruct HO as [|a b H|]; [apply zero_number| |assumption]. repeat (destruct H as [[= <- <-]|H]; [apply zero_number || apply neg_zero_number|]). destruct H.
      - destruct HO as [|a b H|]; [apply zero_number| |assumption]. repeat (destruct H as [[= <- <-]|H]; [apply zero_number || apply neg_zero_number|]). destruct H.
      - destruct HS as [| |a b H|]; [apply one_number|apply zero_number| |assumption]. repeat (destruct H as [[= <- <-]|H]; [apply zero_number || apply neg_zero_number|]). destruct H.
      - destruct HS as [| |a b H|]; [apply one_number|apply zero_number| |assumption]. repeat (destruct H as [[= <- <-]|H]; [apply zero_number || apply neg_zero_number|]). destruct H.
      - destruct r; [exact Hr|apply zero_number].
      - destruct x; [exact Hx|apply zero_number]. }
    intros i. destruct (Nat.lt_ge_cases i 6) as [L|L].
    - rewrite Forall_forall in G. apply G. apply nth_In. exact L.
    - rewrite nth_overflow by exact L. apply zero_number. }
  assert (HH : heads_ok (tt_env o1 o2 r s1 s2 x) (fun _ => num_heads)).
  { intros i c p rest M. apply number_prefix; [apply HE|apply num_heads_special, M]. }
  assert (HK : forall es : list (bytes * bytes), Forall (fun e => match fst e with c :: _ => special_head c | [] => False end) es ->
    forall i, Forall (fun e => skips (fst e) (tt_env o1 o2 r s1 s2 x i)) es).
  { intros es H i. eapply Forall_impl; [|exact H]. intros [[|c p] q]; cbn [fst]; [contradiction|]. intros S. apply number_skips; [apply HE|exact S]. }
  set (env := tt_env o1 o2 r s1 s2 x) in *.
  assert (D : forall p1 p2 q1 q2 (es : list (bytes * bytes)), str_bytes o1 = den env p1 -> str_bytes o2 = den env p2 -> str_bytes s1 = den env q1 -> str_bytes s2 = den env q2 ->
    Forall (fun e => match fst e with c :: _ => special_head c | [] => False end) es ->
    sedits (fun _ => num_heads) es (sobj (tt_sym p1 p2 q1 q2 (is_some r) (is_some x) true true)) = Some (sobj (tt_sym p1 p2 q1 q2 (is_some r) (is_some x) ko ks)) ->
    edits es (print_compact (JObj (tt_tree o1 o2 r s1 s2 x true true))) = print_compact (JObj (tt_tree o1 o2 r s1 s2 x ko ks))).
  { intros p1 p2 q1 q2 es H1 H2 H3 H4 S E. rewrite !(tt_den o1 o2 r s1 s2 x _ _ env p1 p2 q1 q2 eq_refl H1 H2 H3 H4).
    apply (sedits_sound env (fun _ => num_heads)); [exact HH| |intros i _; apply HK, S|exact E].
    eapply Forall_impl; [|exact S]. intros [[|]]; cbn [fst]; [contradiction|discriminate]. }
  assert (L : forall s, str_bytes s = den env (lit (str_bytes s))) by (intros; symmetry; apply den_lit).
  assert (O1 : str_bytes o1 = den env [Op 0]) by (cbn; rewrite app_nil_r; reflexivity).
  assert (O2 : str_bytes o2 = den env [Op 1]) by (cbn; rewrite app_nil_r; reflexivity).
  assert (O3 : str_bytes s1 = den env [Op 2]) by (cbn; rewrite app_nil_r; reflexivity).
  assert (O4 : str_bytes s2 = den env [Op 3]) by (cbn; rewrite app_nil_r; reflexivity).
  clearbody env. clear HE HH HK.
  destruct HS as [| |s1 s2 HS|s1 s2 HS1 HS2]; destruct HO as [|o1 o2 HO|o1 o2 HO1 HO2];
    repeat match goal with H : In _ _ |- _ => destruct H as [[= <- <-]|H] || destruct H end;
    ((tryif (let t := type of HS1 in idtac)
    then tryif (let t := type of HO1 in idtac) then refine (D _ _ _ _ _ O1 O2 O3 O4 _ _) else refine (D _ _ _ _ _ (L _) (L _) O3 O4 _ _)
    else tryif (let t := type of HO1 in idtac) then refine (D _ _ _ _ _ O1 O2 (L _) (L _) _ _) else refine (D _ _ _ _ _ (L _) (L _) (L _) (L _) _ _));
    [|destruct (is_some r), (is_some x); vm_compute; reflexivity]).
  all: cbn [app rm san]; repeat (apply Forall_cons; [vm_compute; tauto|]); apply Forall_nil.
Qed.

(** ** The values *)
Lemma f64_eq_zero v : float_ok v -> f64_eq v 0 = true -> v = 0 \/ v = neg_zero.
Proof.
  intros [R _] E. unfold f64_eq in E. apply andb_prop in E. destruct E as [_ E]. apply Z.eqb_eq in E.
  unfold f64_key, f64_sign, f64_mag in E. change (2 ^ 63) with 9223372036854775808 in *. change (2 ^ 64) with 18446744073709551616 in R.
  change (9223372036854775808 <=? 0) with false in E. unfold neg_zero.
  destruct (9223372036854775808 <=? v) eqn:S; lia.
Qed.

Section TT.
Context (F : float_lib) (HF : float_contract F) (HT : float_text F).

Lemma fmt_numlit f : float_ok f -> numlit (fmt64 F f).
Proof. intros H. exact (proj1 (HF f H)). Qed.

Lemma zero_texts a b : float_ok a -> float_ok b -> arr_eq [a; b] [0; 0] = true -> zeros [a; b] = false ->
  In (fmt64 F a, fmt64 F b) [("-0", "0"); ("0", "-0"); ("-0", "-0")]%string.
Proof.
  intros Ha Hb E N. cbn [arr_eq] in E. apply andb_prop in E. destruct E as [Ea Eb]. apply andb_prop in Eb. destruct Eb as [Eb _].
  destruct HT as (T0 & T1 & _).
  destruct (f64_eq_zero a Ha Ea) as [->| ->], (f64_eq_zero b Hb Eb) as [->| ->]; rewrite ?T0, ?T1; cbn [In]; try tauto.
  discriminate N.
Qed.
Lemma zeros_eq l : zeros l = true -> l = [0; 0].
Proof. destruct l as [|a [|b [|]]]; try discriminate. cbn. rewrite andb_true_iff, !Z.eqb_eq. intros [-> ->]. reflexivity. Qed.
Lemma unit_eq l : unit_scale l = true -> l = [f64_one; f64_one].
Proof. destruct l as [|a [|b [|]]]; try discriminate. unfold unit_scale. rewrite andb_true_iff, !Z.eqb_eq. intros [-> ->]. reflexivity. Qed.

Lemma offset_cases a b : float_ok a -> float_ok b ->
  offset_case (fmt64 F a) (fmt64 F b) (arr_eq [a; b] [0; 0]) (negb (zeros [a; b])).
Proof.
  intros Ha Hb. destruct (zeros [a; b]) eqn:Z.
  - apply zeros_eq in Z. injection Z as -> ->. rewrite (proj1 HT). exact oc_zero.
  - cbn [negb]. destruct (arr_eq [a; b] [0; 0]) eqn:E.
    + apply oc_nz, zero_texts; assumption.
    + apply oc_other; apply fmt_numlit; assumption.
Qed.
Lemma scale_cases a b : float_ok a -> float_ok b ->
  scale_case (fmt64 F a) (fmt64 F b)
    (if arr_eq [a; b] tt_DefaultScale then Some (member "scale" "[1,1]")
     else if arr_eq [a; b] [0; 0] then Some (member "scale" "[0,0]") else None)
    (negb (unit_scale [a; b] || zeros [a; b])).
Proof.
  intros Ha Hb. destruct (arr_eq [a; b] tt_DefaultScale) eqn:D.
  - apply arr_eq_pos in D; [|apply Forall_cons; [assumption|apply Forall_cons; [assumption|apply Forall_nil]]|repeat apply Forall_cons; try apply Forall_nil; vm_compute; split; reflexivity].
    injection D as -> ->. change f64_one with one. rewrite (proj2 (proj2 HT)). exact sc_one.
  - destruct (unit_scale [a; b]) eqn:U.
    { apply unit_eq in U. injection U as -> ->. discriminate D. }
    cbn [orb]. destruct (zeros [a; b]) eqn:Z.
    + apply zeros_eq in Z. injection Z as -> ->. rewrite (proj1 HT). exact sc_zero.
    + cbn [negb]. destruct (arr_eq [a; b] [0; 0]) eqn:E.
      * apply sc_nz, zero_texts; assumption.
      * apply sc_other; apply fmt_numlit; assumption.
Qed.

Lemma enc_pair a b : float_ok a -> float_ok b -> enc (c_array 0 (c_f64 F)) [a; b] = Ok (JArr [JNum (fmt64 F a); JNum (fmt64 F b)]).
Proof. intros [_ Ha] [_ Hb]. cbn. unfold enc_f64. rewrite Ha, Hb. reflexivity. Qed.

Definition rot_text (r : Z) : option string := if f64_empty r then None else Some (fmt64 F r).

Lemma enc_tree o1 o2 r s1 s2 x (fo fs : list Z -> bool) : float_ok o1 -> float_ok o2 -> float_ok r -> float_ok s1 -> float_ok s2 ->
  enc_fields [
    Fld "offset" tt_Offset set_tt_Offset (c_array 0 (c_f64 F)) fo;
    Fld "rotation" tt_Rotation set_tt_Rotation (c_f64 F) f64_empty;
    Fld "scale" tt_Scale set_tt_Scale (c_array 0 (c_f64 F)) fs;
    Fld "texCoord" tt_TexCoord set_tt_TexCoord (c_ptr 0 c_int) is_none] (mkTT [o1; o2] r [s1; s2] x) =
  Ok (tt_tree (fmt64 F o1) (fmt64 F o2) (rot_text r) (fmt64 F s1) (fmt64 F s2) (option_map fmt_int x) (negb (fo [o1; o2])) (negb (fs [s1; s2]))).
Proof.
  intros H1 H2 Hr H3 H4. cbn [enc_fields tt_Offset tt_Rotation tt_Scale tt_TexCoord].
  rewrite !enc_pair by assumption. unfold rot_text, tt_tree. cbn [c_f64 enc]. unfold enc_f64. rewrite (proj2 Hr).
  destruct (fo [o1; o2]), (f64_empty r), (fs [s1; s2]), x; reflexivity.
Qed.

Lemma int_numlit z : in_i64 z -> numlit (fmt_int z).
Proof. intros H. destruct (rt_int 0 0 z H) as (j & E & W & _). injection E as <-. inversion W. assumption. Qed.

Lemma tt_text t : wf_TT t -> exists m, enc_fields (kept_TT F) t = Ok m /\ tt_MarshalJSON F t = Ok (print_compact (JObj m)).
Proof.
  destruct t as [o r s x]. intros (Ho & Hr & Hs & Hx). cbn [tt_Offset tt_Rotation tt_Scale tt_TexCoord] in *.
  destruct o as [|o1 [|o2 [|]]]; try (destruct Ho; discriminate). destruct s as [|s1 [|s2 [|]]]; try (destruct Hs; discriminate).
  destruct Ho as [_ Ho], Hs as [_ Hs].
  pose proof (Forall_inv Ho) as H1. pose proof (Forall_inv (Forall_inv_tail Ho)) as H2.
  pose proof (Forall_inv Hs) as H3. pose proof (Forall_inv (Forall_inv_tail Hs)) as H4. clear Ho Hs.
  eexists. split; [apply enc_tree; assumption|].
  unfold tt_MarshalJSON, enc_struct, fields_TT. rewrite enc_tree by assumption. cbn [bind never negb tt_Scale tt_Offset].
  f_equal. rewrite <- (tt_surgery _ _ _ _ _ _ _ _ _ _ (scale_cases s1 s2 H3 H4) (offset_cases o1 o2 H1 H2)).
  - unfold tt_edit. cbn beta.
    destruct (arr_eq [s1; s2] tt_DefaultScale); [reflexivity|].
    change tt_emptyScale with [0; 0]. destruct (arr_eq [s1; s2] [0; 0]); reflexivity.
  - unfold rot_text. destruct (f64_empty r); [exact I|]. apply fmt_numlit. exact Hr.
  - destruct x; [|exact I]. apply int_numlit. exact Hx.
Qed.

(** Decoding does not look at the omitempty options. *)
Definition same_dec {T} (f g : field T) : Prop := fname f = fname g /\ forall x j, dec_field f x j = dec_field g x j.
Lemma dec_members_same {T} (fs gs : list (field T)) : Forall2 same_dec fs gs -> forall m x, dec_members fs x m = dec_members gs x m.
Proof.
  intros H m. induction m as [|[raw j] m IH]; intros x; [reflexivity|]. cbn [dec_members].
  destruct (key_of raw) as [k| |]; cbn [bind]; try reflexivity.
  assert (G : (exists f g, find_field fs k = Some f /\ find_field gs k = Some g /\ same_dec f g) \/ find_field fs k = None /\ find_field gs k = None).
  { unfold find_field.
    assert (P : forall p q, (forall f g, same_dec f g -> p f = q g) ->
      (exists f g, find p fs = Some f /\ find q gs = Some g /\ same_dec f g) \/ find p fs = None /\ find q gs = None).
    { intros p q PQ. clear IH. induction H as [|f g fs gs S H IHf]; [right; split; reflexivity|]. cbn [find]. rewrite (PQ f g S).
      destruct (q g); [left; exists f, g; repeat split; apply S|exact IHf]. }
    destruct (P (fun f => String.eqb (fname f) k) (fun f => String.eqb (fname f) k)) as [(f & g & -> & -> & S)|[-> ->]].
    - intros f g [N _]. rewrite N. reflexivity.
    - left. exists f, g. repeat split; apply S.
    - apply P. intros f g [N _]. rewrite N. reflexivity. }
  destruct G as [(f & g & -> & -> & S)|[-> ->]].
  - rewrite (proj2 S). destruct (dec_field g x j); cbn [bind]; try reflexivity. apply IH.
  - cbn [bind]. apply IH.
Qed.
Lemma dec_struct_same {T} (fs gs : list (field T)) x j : Forall2 same_dec fs gs -> dec_struct fs x j = dec_struct gs x j.
Proof. intros H. destruct j; try reflexivity. apply dec_members_same. exact H. Qed.

Lemma ext_TT y z : tt_Offset y = tt_Offset z -> tt_Rotation y = tt_Rotation z -> tt_Scale y = tt_Scale z -> tt_TexCoord y = tt_TexCoord z -> y = z.
Proof. destruct y, z; cbn; intros; subst; reflexivity. Qed.

Lemma rt_pair n old : List.length old = 2%nat -> rt (c_array 0 (c_f64 F)) (S n) old (farray 2) (fun v => v).
Proof. intros H. apply (rt_array 0 (c_f64 F) n 2); [intros; apply rt_f64, HF|exact H]. Qed.

Lemma tt_fields t : wf_TT t -> exists m, enc_fields (kept_TT F) t = Ok m /\ wf_json 2 (JObj m) /\ tt_UnmarshalJSON F (JObj m) = Ok (norm_TT t).
Proof.
  intros (Ho & Hr & Hs & Hx). unfold tt_UnmarshalJSON.
  destruct (rt_fields (kept_TT F) (kept_TT F) 1 (mkTT [0; 0] 0 tt_DefaultScale None) t (norm_TT t)) with (pre := @nil (string * json))
    as (m & Em & Wm & Dm).
  - plain_tac.
  - lens_tac.
  - indep_tac.
  - repeat apply Forall_cons; [..|apply Forall_nil].
    + apply (fspec_intro _ _ _ _ _ _ _ _ _ (farray 2) (fun v => v)); [apply rt_pair; reflexivity|auto|].
      intros O. apply zeros_eq in O. exact O.
    + apply (fspec_intro _ _ _ _ _ _ _ _ _ float_ok (fun v => v)); [apply rt_f64, HF| |].
      * intros O. split; [exact Hr|]. cbn. unfold plain_zero. unfold f64_empty in O. rewrite O. reflexivity.
      * intros O. cbn. unfold plain_zero. unfold f64_empty in O. rewrite O. reflexivity.
    + apply (fspec_intro _ _ _ _ _ _ _ _ _ (farray 2) (fun v => v)); [apply rt_pair; reflexivity| |].
      * intros O. split; [exact Hs|]. apply orb_false_iff in O. destruct O as [_ O]. cbn [norm_TT tt_Scale].
        destruct Hs as [Hs _]. destruct (tt_Scale t) as [|a [|b [|]]]; try discriminate Hs. cbn in O.
        destruct a; [|reflexivity..]. destruct b; [discriminate O|reflexivity..].
      * intros O. apply orb_true_iff in O. cbn [norm_TT tt_Scale].
        destruct O as [O|O]; [apply unit_eq in O|apply zeros_eq in O]; rewrite O; reflexivity.
    + apply (fspec_intro _ _ _ _ _ _ _ _ _ (opt in_i64) (option_map (fun v => v))); [apply rt_oint|field_tac|omit_tac].
  - intros y A K. unfold kept_TT in A, K. agree_tac A. apply ext_TT; assumption.
  - apply Forall_nil.
  - exists m. split; [exact Em|]. split; [exact Wm|]. rewrite <- Dm. apply dec_struct_same.
    repeat constructor.
Qed.
End TT.
