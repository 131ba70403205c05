(** The String methods of the enumerations (C56). *)
From Verif Require Import Base BaseFacts Types Codec CodecProofs Strings.

(** [s] is the decimal numeral of [n]: digits only, no superfluous zero in
    front, and of value [n]. *)
Fixpoint number_value (acc : Z) (s : string) : option Z :=
  match s with
  | EmptyString => Some acc
  | String c s =>
      let d := Z.of_nat (nat_of_ascii c) - 48 in
      if (0 <=? d) && (d <=? 9) then number_value (10 * acc + d) s else None
  end.
Definition numeral (s : string) (n : Z) : Prop :=
  number_value 0 s = Some n /\ s <> EmptyString /\ (s = "0"%string \/ forall t, s <> String "0" t).

(** An enumeration: its Go name, number of bits, named values and the method. *)
Record enumeration : Type := mkEnumeration {
  en_name : string; en_bits : Z; en_values : list (Z * string); en_String : Z -> res string }.

(** The constants of const.go with their line comments. *)
Definition enumerations : list enumeration :=
 [mkEnumeration "ComponentType" 8 [(0, "FLOAT"); (1, "BYTE"); (2, "UNSIGNED_BYTE"); (3, "SHORT"); (4, "UNSIGNED_SHORT"); (5, "UNSIGNED_INT")] ComponentType_String;
  mkEnumeration "AccessorType" 8 [(0, "SCALAR"); (1, "VEC2"); (2, "VEC3"); (3, "VEC4"); (4, "MAT2"); (5, "MAT3"); (6, "MAT4")] AccessorType_String;
  mkEnumeration "PrimitiveMode" 8 [(0, "TRIANGLES"); (1, "POINTS"); (2, "LINES"); (3, "LINE_LOOP"); (4, "LINE_STRIP"); (5, "TRIANGLE_STRIP"); (6, "TRIANGLE_FAN")] PrimitiveMode_String;
  mkEnumeration "AlphaMode" 8 [(0, "OPAQUE"); (1, "MASK"); (2, "BLEND")] AlphaMode_String;
  mkEnumeration "MagFilter" 16 [(0, "UNDEFINED"); (1, "LINEAR"); (2, "NEAREST")] MagFilter_String;
  mkEnumeration "MinFilter" 16 [(0, "UNDEFINED"); (1, "LINEAR"); (2, "NEAREST_MIPMAP_LINEAR"); (3, "NEAREST"); (4, "NEAREST_MIPMAP_NEAREST"); (5, "LINEAR_MIPMAP_NEAREST"); (6, "LINEAR_MIPMAP_LINEAR")] MinFilter_String;
  mkEnumeration "WrappingMode" 16 [(0, "REPEAT"); (1, "CLAMP_TO_EDGE"); (2, "MIRRORED_REPEAT")] WrappingMode_String;
  mkEnumeration "Interpolation" 8 [(0, "LINEAR"); (1, "STEP"); (2, "CUBICSPLINE")] Interpolation_String;
  mkEnumeration "Target" 16 [(0, "NONE"); (34962, "ARRAY_BUFFER"); (34963, "ELEMENT_ARRAY_BUFFER")] Target_String;
  mkEnumeration "TRSProperty" 8 [(0, "translation"); (1, "rotation"); (2, "scale"); (3, "weights")] TRSProperty_String]%string.

(** What String is to give for value [i]. *)
Definition expected (e : enumeration) (i : Z) (s : string) : Prop :=
  match find (fun p => fst p =? i) (en_values e) with
  | Some p => s = snd p
  | None => exists d, numeral d i /\ s = (en_name e ++ "(" ++ d ++ ")")%string
  end.

Lemma number_value_fold l : forall acc, forallb JsonText.is_digit l = true ->
  number_value acc (bytes_str l) = Some (fold_left (fun a d => 10 * a + (b2z d - 48)) l acc).
Proof.
  induction l as [|c l IH]; intros acc H; [reflexivity|]. cbn [forallb] in H. apply andb_prop in H. destruct H as [H1 H2].
  unfold JsonText.is_digit, JsonText.in_range in H1. unfold b2z in *.
  change (bytes_str (c :: l)) with (String c (bytes_str l)). cbn [number_value fold_left].
  assert (N : Z.of_nat (nat_of_ascii c) = Z.of_N (N_of_ascii c)) by (unfold nat_of_ascii; lia). rewrite N.
  replace ((0 <=? Z.of_N (N_of_ascii c) - 48) && (Z.of_N (N_of_ascii c) - 48 <=? 9)) with true by lia.
  apply IH. exact H2.
Qed.
Lemma fmt_int_numeral n : 0 <= n < 10 ^ 20 -> numeral (fmt_int n) n.
Proof.
  intros H. destruct (digits_ok 20 n ltac:(exact H) ltac:(lia)) as (V & A & _ & b & t & E & C).
  unfold fmt_int. replace (n <? 0) with false by lia. split; [|split].
  - rewrite number_value_fold by exact A. unfold dval in V. rewrite V. reflexivity.
  - rewrite E. discriminate.
  - destruct C as [C|C]; [right|left; rewrite C; reflexivity]. intros u. rewrite E. change (bytes_str (b :: t)) with (String b (bytes_str t)).
    intros [= -> _]. revert C. vm_compute. intros [C _]. exact (C eq_refl).
Qed.

(** Every value of the underlying integer type. *)
Theorem C56_strings :
  Forall (fun e => forall i, 0 <= i < 2 ^ en_bits e -> exists s, en_String e i = Ok s /\ expected e i s) enumerations.
Proof.
  assert (B : forall b i, In b [8; 16] -> 0 <= i < 2 ^ b -> 0 <= i < 10 ^ 20).
  { intros b i [<-|[<-|[]]] H; (split; [lia|]); eapply Z.lt_trans; [apply H|reflexivity|apply H|reflexivity]. }
  assert (G : forall typ bits vs name idx n, In bits [8; 16] -> zlen idx - 1 = n ->
    map fst vs = map Z.of_nat (seq 0 (Z.to_nat n)) -> 0 <= n ->
    (forall k, (k < Z.to_nat n)%nat -> exists s, stringer typ name idx (Z.of_nat k) = Ok s /\ expected (mkEnumeration typ bits vs (stringer typ name idx)) (Z.of_nat k) s) ->
    forall i, 0 <= i < 2 ^ bits -> exists s, stringer typ name idx i = Ok s /\ expected (mkEnumeration typ bits vs (stringer typ name idx)) i s).
  { intros typ bits vs name idx n Hb Hz Hv Hn HK i Hi. destruct (Z.lt_ge_cases i n) as [L|L].
    - specialize (HK (Z.to_nat i) ltac:(lia)). rewrite Z2Nat.id in HK by lia. exact HK.
    - unfold stringer at 1. rewrite Hz. replace (n <=? i) with true by lia. eexists. split; [reflexivity|]. unfold expected. cbn [en_values en_name].
      destruct (find _ vs) as [p|] eqn:F.
      + apply find_some in F. destruct F as [F1 F2]. assert (I : In (fst p) (map fst vs)) by (apply in_map; exact F1).
        rewrite Hv in I. apply in_map_iff in I. destruct I as (k & K1 & K2). apply in_seq in K2. lia.
      + exists (fmt_int i). split; [apply fmt_int_numeral; apply (B bits); assumption|reflexivity]. }
  unfold enumerations.
  repeat (apply Forall_cons; [
    first [ eapply G; [cbn; auto|reflexivity|reflexivity|discriminate|];
            intros k Hk; cbn in Hk;
            repeat (destruct k as [|k]; [eexists; split; vm_compute; reflexivity|]); exfalso; lia
          | idtac ] |]); [|apply Forall_nil].
  intros i Hi. cbn [en_bits en_String] in *. unfold Target_String, expected. cbn [en_values find fst snd en_name].
  destruct (i =? 0) eqn:E0; [rewrite Z.eqb_sym, E0; eauto|]. rewrite (Z.eqb_sym 0), E0.
  destruct (Z.eq_dec i 34962) as [->|N1]; [eexists; split; vm_compute; reflexivity|].
  destruct (Z.eq_dec i 34963) as [->|N2]; [eexists; split; vm_compute; reflexivity|].
  replace ((34962 <=? i) && (i <=? 34963)) with false by lia. eexists. split; [reflexivity|].
  replace (34962 =? i) with false by lia. replace (34963 =? i) with false by lia.
  exists (fmt_int i). split; [apply fmt_int_numeral; apply (B 16); [cbn; auto|exact Hi]|reflexivity].
Qed.
Print Assumptions C56_strings.

Fixpoint no_paren (s : string) : bool :=
  match s with EmptyString => true | String c s => negb (Ascii.eqb c "(") && no_paren s end.
Lemma no_paren_app a b : no_paren (a ++ String "(" b) = false.
Proof. induction a as [|c a IH]; [reflexivity|]. cbn. rewrite IH. apply andb_false_r. Qed.
Lemma app_inv (n a b : string) : (n ++ a)%string = (n ++ b)%string -> a = b.
Proof. induction n as [|c n IH]; [auto|]. cbn. intros [= H]. auto. Qed.
Lemma app_last a : forall b, (a ++ ")")%string = (b ++ ")")%string -> a = b.
Proof.
  induction a as [|c a IH]; intros [|d b]; cbn; intros H; [reflexivity| | |].
  - injection H as <- H. destruct b; discriminate.
  - injection H as <- H. destruct a; discriminate.
  - injection H as <- H. f_equal. apply IH. exact H.
Qed.

Theorem C56_distinct :
  Forall (fun e => forall i j, 0 <= i < 2 ^ en_bits e -> 0 <= j < 2 ^ en_bits e -> en_String e i = en_String e j -> i = j) enumerations.
Proof.
  apply Forall_forall. intros e He i j Hi Hj E.
  pose proof C56_strings as S. rewrite Forall_forall in S.
  destruct (S e He i Hi) as (s & Es & Xi). destruct (S e He j Hj) as (t & Et & Xj).
  assert (s = t) as <- by congruence. clear Es Et E Hi Hj S.
  assert (V : forall p q, In p (en_values e) -> In q (en_values e) -> snd p = snd q -> fst p = fst q).
  { assert (G : forallb (fun e => forallb (fun p => forallb (fun q => implb (String.eqb (snd p) (snd q)) (fst p =? fst q)) (en_values e)) (en_values e)) enumerations = true) by reflexivity.
    rewrite forallb_forall in G. specialize (G e He). intros p q P Q H. rewrite forallb_forall in G. specialize (G p P). rewrite forallb_forall in G. specialize (G q Q).
    rewrite H, String.eqb_refl in G. cbn in G. lia. }
  assert (P : forall p, In p (en_values e) -> no_paren (snd p) = true).
  { assert (G : forallb (fun e => forallb (fun p => no_paren (snd p)) (en_values e)) enumerations = true) by reflexivity.
    rewrite forallb_forall in G. specialize (G e He). rewrite forallb_forall in G. exact G. }
  unfold expected in Xi, Xj.
  destruct (find (fun p => fst p =? i) (en_values e)) as [p|] eqn:Fi; destruct (find (fun p => fst p =? j) (en_values e)) as [q|] eqn:Fj.
  - apply find_some in Fi, Fj. assert (fst p = fst q) by (apply V; [apply Fi|apply Fj|congruence]). lia.
  - exfalso. apply find_some in Fi. destruct Xj as (d & _ & Xj). pose proof (P p (proj1 Fi)) as N. rewrite <- Xi, Xj in N. cbn [String.append] in N. rewrite no_paren_app in N. discriminate.
  - exfalso. apply find_some in Fj. destruct Xi as (d & _ & Xi). pose proof (P q (proj1 Fj)) as N. rewrite <- Xj, Xi in N. cbn [String.append] in N. rewrite no_paren_app in N. discriminate.
  - destruct Xi as (d & [D _] & Xi). destruct Xj as (f & [F _] & Xj). rewrite Xi in Xj. apply app_inv in Xj. cbn [String.append] in Xj. injection Xj as Xj. apply app_last in Xj. congruence.
Qed.
Print Assumptions C56_distinct.

(** The enumerations whose JSON form is a string: String gives that form. *)
Definition ct_number (c : ComponentType) : Z :=
  match c with CFloat => 0 | CByte => 1 | CUbyte => 2 | CShort => 3 | CUshort => 4 | CUint => 5 | CTOther n => n end.
Definition at_number (t : AccessorType) : Z :=
  match t with AScalar => 0 | AVec2 => 1 | AVec3 => 2 | AVec4 => 3 | AMat2 => 4 | AMat3 => 5 | AMat4 => 6 | ATOther n => n end.
Theorem C56_json :
  (forall t s, at_valid t = true -> AccessorType_String (at_number t) = Ok s -> enc c_at t = enc c_str s) /\
  (forall i s, 0 <= i < 3 -> AlphaMode_String i = Ok s -> enc c_alpha i = enc c_str s) /\
  (forall i s, 0 <= i < 3 -> Interpolation_String i = Ok s -> enc c_interp i = enc c_str s) /\
  (forall i s, 0 <= i < 4 -> TRSProperty_String i = Ok s -> enc c_trs i = enc c_str s).
Proof.
  split; [|split; [|split]].
  - intros [] s V H; try discriminate V; vm_compute in H; injection H as <-; reflexivity.
  - intros i s Hi H. assert (i = 0 \/ i = 1 \/ i = 2) as [->|[->| ->]] by lia; vm_compute in H; injection H as <-; reflexivity.
  - intros i s Hi H. assert (i = 0 \/ i = 1 \/ i = 2) as [->|[->| ->]] by lia; vm_compute in H; injection H as <-; reflexivity.
  - intros i s Hi H. assert (i = 0 \/ i = 1 \/ i = 2 \/ i = 3) as [->|[->|[->| ->]]] by lia; vm_compute in H; injection H as <-; reflexivity.
Qed.
Print Assumptions C56_json.

Example C56_example :
  MinFilter_String 2 = Ok "NEAREST_MIPMAP_LINEAR"%string /\ MinFilter_String 65535 = Ok "MinFilter(65535)"%string /\
  Target_String 34963 = Ok "ELEMENT_ARRAY_BUFFER"%string /\ Target_String 1 = Ok "Target(1)"%string.
Proof. vm_compute. repeat split. Qed.
