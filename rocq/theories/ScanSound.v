(** The scanner only accepts JSON: what it returns follows the grammar, and
    the bytes it consumed are a text of the returned value. *)
From Verif Require Import Base BaseFacts Types Doc JsonText SpecText JsonTextProofs JsonStringProofs CodecProofs.

Lemma ws_app a b : ws a -> ws b -> ws (a ++ b).
Proof. intros. apply Forall_app. split; assumption. Qed.
Lemma is_space_ws b : is_space b = true -> ws [b].
Proof.
  intros H. constructor; [|constructor]. unfold is_space in H. unfold space. pose proof (z2b_b2z b) as E.
  assert (C : b2z b = 32 \/ b2z b = 9 \/ b2z b = 10 \/ b2z b = 13) by lia.
  cbn. destruct C as [C|[C|[C|C]]]; rewrite C in E; subst b; tauto.
Qed.
Lemma char_of c b : b2z b = c -> b = z2b c.
Proof. intros <-. symmetry. apply z2b_b2z. Qed.

(** ** Sequences built from the left *)
Ltac sp := repeat match goal with |- _ /\ _ => split end; try assumption; try reflexivity.
Ltac flat := repeat first [progress cbn [app] | rewrite <- app_assoc].
Ltac flat_in H := repeat first [progress cbn [app] in H | rewrite <- app_assoc in H].
Lemma elems_ws es e w : elems_of es e -> es <> [] -> ws w -> elems_of es (e ++ w).
Proof.
  intros H N Hw. induction H as [|v w1 t w2 H1 H2 T|v v2 l w1 t w2 t2 H1 H2 T E IH]; [contradiction|..].
  - rewrite <- !app_assoc. constructor; [assumption| |assumption]. apply ws_app; assumption.
  - rewrite <- !app_assoc. cbn [app]. constructor; try assumption. apply IH. discriminate.
Qed.
Lemma elems_join es e l t2 : elems_of es e -> es <> [] -> elems_of l t2 -> l <> [] ->
  elems_of (es ++ l) (e ++ ","%char :: t2).
Proof.
  intros H N Hl Nl. induction H as [|v w1 t w2 H1 H2 T|v v2 l' w1 t w2 t' H1 H2 T E IH]; [contradiction|..].
  - destruct l as [|v2 l]; [contradiction|]. rewrite <- !app_assoc. cbn [app]. constructor; assumption.
  - rewrite <- !app_assoc. cbn [app]. constructor; try assumption. apply IH. discriminate.
Qed.
Lemma members_ws ms e w : members_of ms e -> ms <> [] -> ws w -> members_of ms (e ++ w).
Proof.
  intros H N Hw. induction H as [|k v w1 w2 w3 w4 t H1 H2 H3 H4 T|k v p m w1 w2 w3 w4 t t2 H1 H2 H3 H4 T E IH]; [contradiction|..].
  - pose proof (mb_one k v w1 w2 w3 (w4 ++ w) t H1 H2 H3 (ws_app _ _ H4 Hw) T) as M. flat. flat_in M. exact M.
  - pose proof (mb_cons k v p m w1 w2 w3 w4 t (t2 ++ w) H1 H2 H3 H4 T (IH ltac:(discriminate))) as M. flat. flat_in M. exact M.
Qed.
Lemma members_join ms e l t2 : members_of ms e -> ms <> [] -> members_of l t2 -> l <> [] ->
  members_of (ms ++ l) (e ++ ","%char :: t2).
Proof.
  intros H N Hl Nl. induction H as [|k v w1 w2 w3 w4 t H1 H2 H3 H4 T|k v p m w1 w2 w3 w4 t t' H1 H2 H3 H4 T E IH]; [contradiction|..].
  - destruct l as [|v2 l]; [contradiction|]. 
    pose proof (mb_cons k v v2 l w1 w2 w3 w4 t t2 H1 H2 H3 H4 T Hl) as M. flat. flat_in M. exact M.
  - pose proof (mb_cons k v p (m ++ l) w1 w2 w3 w4 t _ H1 H2 H3 H4 T (IH ltac:(discriminate))) as M. cbn [app]. flat. flat_in M. exact M.
Qed.

Definition open_elems (acc : list json) (e : bytes) : Prop :=
  (acc = [] /\ ws e) \/
  (acc <> [] /\ exists e0 w, elems_of (rev acc) e0 /\ ws w /\ e = e0 ++ ","%char :: w).
Definition open_members (acc : list (string * json)) (e : bytes) : Prop :=
  (acc = [] /\ ws e) \/
  (acc <> [] /\ exists e0 w, members_of (rev acc) e0 /\ ws w /\ e = e0 ++ ","%char :: w).
Definition key_text (k : string) : bytes := z2b 34 :: str_bytes k ++ [z2b 34].

Lemma rev_nonnil {A} (l : list A) : l <> [] -> rev l <> [].
Proof. destruct l; [contradiction|]. intros _ E. apply (f_equal (@List.length A)) in E. rewrite rev_length in E. discriminate. Qed.
Lemma open_elems_ws acc e w : open_elems acc e -> ws w -> open_elems acc (e ++ w).
Proof.
  intros [[-> H]|(N & e0 & w0 & E & H & ->)] Hw; [left; split; [reflexivity|apply ws_app; assumption]|].
  right. split; [exact N|]. exists e0, (w0 ++ w). split; [exact E|]. split; [apply ws_app; assumption|].
  rewrite <- app_assoc. reflexivity.
Qed.
Lemma open_members_ws acc e w : open_members acc e -> ws w -> open_members acc (e ++ w).
Proof.
  intros [[-> H]|(N & e0 & w0 & E & H & ->)] Hw; [left; split; [reflexivity|apply ws_app; assumption]|].
  right. split; [exact N|]. exists e0, (w0 ++ w). split; [exact E|]. split; [apply ws_app; assumption|].
  rewrite <- app_assoc. reflexivity.
Qed.
Lemma open_elems_value acc e v t : open_elems acc e -> text_of v t -> elems_of (rev (v :: acc)) (e ++ t).
Proof.
  intros [[-> H]|(N & e0 & w & E & H & ->)] T; cbn [rev].
  - cbn [app rev]. rewrite <- (app_nil_r t). constructor; [exact H|constructor|exact T].
  - rewrite <- app_assoc. cbn [app]. apply elems_join; [exact E|apply rev_nonnil; exact N| |discriminate].
    rewrite <- (app_nil_r t). constructor; [exact H|constructor|exact T].
Qed.
Lemma open_members_value acc e k v t w2 w3 : open_members acc e -> ws w2 -> ws w3 -> text_of v t ->
  members_of (rev ((k, v) :: acc)) (e ++ key_text k ++ w2 ++ ":"%char :: w3 ++ t).
Proof.
  unfold key_text.
  assert (One : forall w, ws w -> ws w2 -> ws w3 -> text_of v t ->
    members_of [(k, v)] (w ++ (z2b 34 :: str_bytes k ++ [z2b 34]) ++ w2 ++ ":"%char :: w3 ++ t)).
  { intros w H H2 H3 T. pose proof (mb_one k v w w2 w3 [] t H H2 H3 ltac:(constructor) T) as M.
    rewrite app_nil_r in M. exact M. }
  intros [[-> H]|(N & e0 & w & E & H & ->)] H2 H3 T; cbn [rev].
  - cbn [rev app]. apply One; assumption.
  - rewrite <- (app_assoc e0). cbn [app]. apply members_join; [exact E|apply rev_nonnil; exact N| |discriminate].
    apply One; assumption.
Qed.

(** ** Numbers *)
Definition exp_part (l : bytes) : Prop :=
  l = [] \/ exists e s t, l = e :: s ++ t /\ In e (str_bytes "eE") /\
    (s = [] \/ s = str_bytes "+" \/ s = str_bytes "-") /\ t <> [] /\ Forall digit t.
Definition frac_part (l : bytes) : Prop := l = [] \/ exists t, l = "."%char :: t /\ t <> [] /\ Forall digit t.
Definition tail_of (ns : numst) (r : bytes) : Prop :=
  match ns with
  | NExp => Forall digit r
  | NESign => r <> [] /\ Forall digit r
  | NE => exists s t, r = s ++ t /\ (s = [] \/ s = str_bytes "+" \/ s = str_bytes "-") /\ t <> [] /\ Forall digit t
  | NFrac => exists t e, r = t ++ e /\ Forall digit t /\ exp_part e
  | NDot => exists t e, r = t ++ e /\ t <> [] /\ Forall digit t /\ exp_part e
  | NInt => exists t f e, r = t ++ f ++ e /\ Forall digit t /\ frac_part f /\ exp_part e
  | NZero => exists f e, r = f ++ e /\ frac_part f /\ exp_part e
  | NNeg => exists i f e, r = i ++ f ++ e /\
      (i = str_bytes "0" \/ exists b t, i = b :: t /\ 49 <= b2z b <= 57 /\ Forall digit t) /\ frac_part f /\ exp_part e
  end.
Lemma e_char b : b2z b = 101 \/ b2z b = 69 -> In b (str_bytes "eE").
Proof. intros [H|H]; rewrite (char_of _ _ H); cbn; tauto. Qed.
Lemma exp_of b r : tail_of NE r -> b2z b = 101 \/ b2z b = 69 -> exp_part (b :: r).
Proof. intros (s & t & -> & Hs & N & D) Hb. right. exists b, s, t. sp. apply e_char. exact Hb. Qed.
Lemma frac_of b r : tail_of NDot r -> b2z b = 46 -> exists f e, b :: r = f ++ e /\ frac_part f /\ exp_part e.
Proof.
  intros (t & e & -> & N & D & E) Hb. exists ("."%char :: t), e. rewrite (char_of _ _ Hb). split; [reflexivity|].
  split; [|exact E]. right. exists t. sp.
Qed.

Lemma num_run_tail r : forall ns ns', num_run ns r = Some ns' -> num_ok ns' = true -> tail_of ns r.
Proof.
  induction r as [|b r IH]; intros ns ns' H O; cbn in H.
  - injection H as ->. destruct ns'; try discriminate; cbn.
    + exists [], []. repeat split; left; reflexivity.
    + exists [], [], []. split; [reflexivity|]. split; [constructor|]. split; left; reflexivity.
    + exists [], []. split; [reflexivity|]. split; [constructor|left; reflexivity].
    + constructor.
  - destruct (num_step ns b) as [n1|] eqn:S; [|discriminate]. pose proof (IH n1 ns' H O) as T. clear IH H O.
    destruct ns; cbn [num_step] in S.
    + destruct (b2z b =? 48) eqn:E.
      * injection S as <-. destruct T as (f & e & -> & Hf & He). exists (str_bytes "0"), f, e.
        rewrite (char_of 48 b) by lia. sp. left. reflexivity.
      * destruct (in_range 49 57 b) eqn:E2; [|discriminate]. injection S as <-. destruct T as (t & f & e & -> & D & Hf & He).
        exists (b :: t), f, e. sp. right. exists b, t. unfold in_range in E2. sp; lia.
    + destruct (b2z b =? 46) eqn:E.
      * injection S as <-. destruct (frac_of b r T ltac:(lia)) as (f & e & X & Hf & He). exists f, e. sp.
      * destruct ((b2z b =? 101) || (b2z b =? 69)) eqn:E2; [|discriminate]. injection S as <-.
        exists [], (b :: r). split; [reflexivity|]. split; [left; reflexivity|]. apply exp_of; [exact T|lia].
    + destruct (is_digit b) eqn:Ed.
      * injection S as <-. destruct T as (t & f & e & -> & D & Hf & He). exists (b :: t), f, e.
        sp. constructor; [apply is_digit_iff; exact Ed|exact D].
      * destruct (b2z b =? 46) eqn:E.
        -- injection S as <-. destruct (frac_of b r T ltac:(lia)) as (f & e & X & Hf & He). exists [], f, e. sp. constructor.
        -- destruct ((b2z b =? 101) || (b2z b =? 69)) eqn:E2; [|discriminate]. injection S as <-.
           exists [], [], (b :: r). split; [reflexivity|]. split; [constructor|]. split; [left; reflexivity|]. apply exp_of; [exact T|lia].
    + destruct (is_digit b) eqn:Ed; [|discriminate]. injection S as <-. destruct T as (t & e & -> & D & He).
      exists (b :: t), e. split; [reflexivity|]. split; [discriminate|]. split; [constructor; [apply is_digit_iff; exact Ed|exact D]|exact He].
    + destruct (is_digit b) eqn:Ed.
      * injection S as <-. destruct T as (t & e & -> & D & He).
        exists (b :: t), e. split; [reflexivity|]. split; [constructor; [apply is_digit_iff; exact Ed|exact D]|exact He].
      * destruct ((b2z b =? 101) || (b2z b =? 69)) eqn:E2; [|discriminate]. injection S as <-.
        exists [], (b :: r). split; [reflexivity|]. split; [constructor|]. apply exp_of; [exact T|lia].
    + destruct ((b2z b =? 43) || (b2z b =? 45)) eqn:E2.
      * injection S as <-. destruct T as [N D]. exists [b], r. split; [reflexivity|]. split; [|split; assumption].
        right. assert (C : b2z b = 43 \/ b2z b = 45) by lia. destruct C as [C|C]; rewrite (char_of _ _ C); [left|right]; reflexivity.
      * destruct (is_digit b) eqn:Ed; [|discriminate]. injection S as <-.
        exists [], (b :: r). split; [reflexivity|]. split; [left; reflexivity|]. split; [discriminate|].
        constructor; [apply is_digit_iff; exact Ed|exact T].
    + destruct (is_digit b) eqn:Ed; [|discriminate]. injection S as <-. split; [discriminate|].
      constructor; [apply is_digit_iff; exact Ed|exact T].
    + destruct (is_digit b) eqn:Ed; [|discriminate]. injection S as <-.
      constructor; [apply is_digit_iff; exact Ed|exact T].
Qed.

Definition num_pre (ns : numst) (l : bytes) : Prop :=
  exists b t n0, l = b :: t /\ num_start b = Some n0 /\ num_run n0 t = Some ns.
Lemma num_pre_ok ns l : num_pre ns l -> num_ok ns = true -> json_number l.
Proof.
  intros (b & t & n0 & -> & S & R) O. pose proof (num_run_tail t n0 ns R O) as T. unfold num_start in S.
  destruct (b2z b =? 45) eqn:E; [|destruct (b2z b =? 48) eqn:E2; [|destruct (in_range 49 57 b) eqn:E3; [|discriminate]]];
    injection S as <-.
  - destruct T as (i & f & e & -> & Hi & Hf & He). exists (str_bytes "-"), i, f, e. rewrite (char_of 45 b) by lia.
    sp. right; reflexivity.
  - destruct T as (f & e & -> & Hf & He). exists [], (str_bytes "0"), f, e. rewrite (char_of 48 b) by lia.
    sp; left; reflexivity.
  - destruct T as (t' & f & e & -> & D & Hf & He). exists [], (b :: t'), f, e.
    sp; [left; reflexivity|]. right. exists b, t'. unfold in_range in E3. sp; lia.
Qed.
Lemma num_pre_step ns l b ns' : num_pre ns l -> num_step ns b = Some ns' -> num_pre ns' (l ++ [b]).
Proof.
  intros (c & t & n0 & -> & S & R) H. exists c, (t ++ [b]), n0. split; [reflexivity|]. split; [exact S|].
  rewrite num_run_app, R. cbn. rewrite H. reflexivity.
Qed.

(** ** Strings: what may follow a prefix *)
Definition hexs (l : bytes) : Prop := Forall hex l.
Definition pre_str (a : bytes) : Prop := forall r, string_body r -> string_body (a ++ r).
Definition pre_esc (a : bytes) : Prop :=
  (forall b r, In b (z2b 34 :: z2b 92 :: str_bytes "/bfnrt") -> string_body r -> string_body (a ++ b :: r)) /\
  (forall h1 h2 h3 h4 r, hex h1 -> hex h2 -> hex h3 -> hex h4 -> string_body r ->
     string_body (a ++ "u"%char :: h1 :: h2 :: h3 :: h4 :: r)).
Definition pre_u (n : nat) (a : bytes) : Prop :=
  forall hs r, List.length hs = n -> hexs hs -> string_body r -> string_body (a ++ hs ++ r).

Lemma is_hex_hex b : is_hex b = true -> hex b.
Proof.
  intros H. unfold is_hex, in_range in H. unfold hex. rewrite <- (z2b_b2z b).
  assert (C : exists k, b2z b = k /\ (48 <= k <= 57 \/ 97 <= k <= 102 \/ 65 <= k <= 70)) by (exists (b2z b); lia).
  destruct C as (k & -> & C).
  assert (G : In k [48;49;50;51;52;53;54;55;56;57;97;98;99;100;101;102;65;66;67;68;69;70]).
  { cbn. lia. }
  cbn in G. repeat destruct G as [<-|G]; [..|destruct G]; cbn; tauto.
Qed.

(** ** The invariant *)
Definition wfd (k : Z) (v : json) : Prop := wf_json (Z.to_nat (max_depth - k)) v.
Lemma wfd_scalar k v n : wf_json n v -> ~ container v -> wfd k v.
Proof. intros W N. unfold wfd. inversion W; subst; try (constructor; assumption); exfalso; apply N; exact I. Qed.

Inductive hole : list frame -> bytes -> Prop :=
| h_top w : ws w -> hole [] w
| h_arr st t0 acc e : hole st t0 -> zlen st + 1 <= max_depth -> open_elems acc e ->
    Forall (wfd (zlen st + 1)) acc -> hole (FArr acc :: st) (t0 ++ "["%char :: e)
| h_obj st t0 acc k e w2 w3 : hole st t0 -> zlen st + 1 <= max_depth -> open_members acc e ->
    Forall (fun p => string_body (str_bytes (fst p)) /\ wfd (zlen st + 1) (snd p)) acc ->
    string_body (str_bytes k) -> ws w2 -> ws w3 ->
    hole (FObj acc k :: st) (t0 ++ "{"%char :: e ++ key_text k ++ w2 ++ ":"%char :: w3).

(** Where a key may begin. *)
Definition keypos (st : list frame) (t : bytes) : Prop :=
  exists st' t0 acc k e, st = FObj acc k :: st' /\ hole st' t0 /\ zlen st' + 1 <= max_depth /\ open_members acc e /\
    Forall (fun p => string_body (str_bytes (fst p)) /\ wfd (zlen st' + 1) (snd p)) acc /\
    t = t0 ++ "{"%char :: e.
Definition after (st : list frame) (t : bytes) : Prop :=
  match st with
  | [] => False
  | FArr acc :: st' => exists t0 e, hole st' t0 /\ zlen st' + 1 <= max_depth /\ acc <> [] /\ elems_of (rev acc) e /\
      Forall (wfd (zlen st' + 1)) acc /\ t = t0 ++ "["%char :: e
  | FObj acc _ :: st' => exists t0 e, hole st' t0 /\ zlen st' + 1 <= max_depth /\ acc <> [] /\ members_of (rev acc) e /\
      Forall (fun p => string_body (str_bytes (fst p)) /\ wfd (zlen st' + 1) (snd p)) acc /\ t = t0 ++ "{"%char :: e
  end.
Definition strpos (key : bool) (st : list frame) (t : bytes) : Prop := if key then keypos st t else hole st t.
Definition fin (v : json) (t : bytes) : Prop := exists w t', t = w ++ t' /\ ws w /\ text_of v t' /\ wfd 0 v.

Definition ok (st : list frame) (lx : lex) (t : bytes) : Prop :=
  match lx with
  | LVal => hole st t
  | LValOrEnd => exists st', st = FArr [] :: st' /\ hole st t
  | LKeyOrEnd => exists st' k, st = FObj [] k :: st' /\ keypos st t
  | LKey => keypos st t
  | LColon => exists acc k st' t0 e w, st = FObj acc k :: st' /\ hole st' t0 /\ zlen st' + 1 <= max_depth /\ open_members acc e /\
      Forall (fun p => string_body (str_bytes (fst p)) /\ wfd (zlen st' + 1) (snd p)) acc /\
      string_body (str_bytes k) /\ ws w /\ t = t0 ++ "{"%char :: e ++ key_text k ++ w
  | LEnd => after st t
  | LStr key acc => exists t0, strpos key st t0 /\ pre_str (rev acc) /\ t = t0 ++ z2b 34 :: rev acc
  | LEsc key acc => exists t0, strpos key st t0 /\ pre_esc (rev acc) /\ t = t0 ++ z2b 34 :: rev acc
  | LU n key acc => exists t0, strpos key st t0 /\ pre_u n (rev acc) /\ (1 <= n)%nat /\ t = t0 ++ z2b 34 :: rev acc
  | LNum ns acc => exists t0, hole st t0 /\ num_pre ns (rev acc) /\ t = t0 ++ rev acc
  | LLit todo v => exists t0 p, hole st t0 /\ text_of v (p ++ todo) /\ ~ container v /\ wf_json 0 v /\ t = t0 ++ p
  | LTop v => st = [] /\ fin v t
  end.
Definition ok_out (o : outcome) (t : bytes) (b : byte) : Prop :=
  match o with
  | Run (st, lx) => ok st lx (t ++ [b])
  | FinAfter v => fin v (t ++ [b])
  | FinBefore v => fin v t
  | Bad => True
  end.

Lemma hole_ws st t w : hole st t -> ws w -> hole st (t ++ w).
Proof.
  intros H Hw. destruct H as [w0 H0|st t0 acc e H D O F|st t0 acc k e w2 w3 H D O F K H2 H3].
  - constructor. apply ws_app; assumption.
  - rewrite <- app_assoc. cbn [app]. constructor; try assumption. apply open_elems_ws; assumption.
  - flat. constructor; try assumption. apply ws_app; assumption.
Qed.
Lemma keypos_ws st t w : keypos st t -> ws w -> keypos st (t ++ w).
Proof.
  intros (st' & t0 & acc & k & e & -> & H & D & O & F & ->) Hw. exists st', t0, acc, k, (e ++ w).
  repeat (split; [first [reflexivity|assumption|apply open_members_ws; assumption]|]). rewrite <- app_assoc. reflexivity.
Qed.
Lemma after_ws st t w : after st t -> ws w -> after st (t ++ w).
Proof.
  intros H Hw. destruct st as [|[acc|acc k] st]; [exact H|..]; destruct H as (t0 & e & H & D & N & E & F & ->);
    exists t0, (e ++ w); repeat (split; [first [assumption|apply elems_ws; try apply rev_nonnil; assumption|apply members_ws; try apply rev_nonnil; assumption]|]);
    rewrite <- app_assoc; reflexivity.
Qed.

Lemma zlen_nonneg' {A} (l : list A) : 0 <= zlen l. Proof. unfold zlen. lia. Qed.
Lemma hole_depth st t : hole st t -> zlen st <= max_depth.
Proof. intros H. destruct H; unfold zlen, max_depth in *; cbn [List.length]; lia. Qed.

Lemma value_done_ok st t0 v t : hole st t0 -> text_of v t -> wfd (zlen st) v ->
  let '(st', lx') := value_done st v in ok st' lx' (t0 ++ t).
Proof.
  intros H T W. destruct H as [w0 H0|st t0 acc e H D O F|st t0 acc k e w2 w3 H D O F K H2 H3]; cbn [value_done].
  - split; [reflexivity|]. exists w0, t. sp.
  - exists t0, (e ++ t). split; [assumption|]. split; [assumption|]. split; [discriminate|].
    split; [apply open_elems_value; assumption|]. split; [|rewrite <- app_assoc; reflexivity].
    constructor; [|exact F]. unfold zlen in W. cbn [List.length] in W. unfold zlen.
    replace (Z.of_nat (List.length st) + 1) with (Z.of_nat (S (List.length st))) by lia. exact W.
  - exists t0, (e ++ key_text k ++ w2 ++ ":"%char :: w3 ++ t). split; [assumption|]. split; [assumption|]. split; [discriminate|].
    split; [apply open_members_value; assumption|].
    split; [|flat; reflexivity].
    constructor; [|exact F]. split; [exact K|]. unfold zlen in W. cbn [List.length] in W. cbn [snd]. unfold zlen.
    replace (Z.of_nat (List.length st) + 1) with (Z.of_nat (S (List.length st))) by lia. exact W.
Qed.
Lemma close_ok st t0 v t b : hole st t0 -> text_of v (t ++ [b]) -> wfd (zlen st) v -> ok_out (close st v) (t0 ++ t) b.
Proof.
  intros H T W. unfold close. destruct st as [|f st].
  - cbn. inversion H; subst. exists t0, (t ++ [b]). rewrite app_assoc. sp.
  - pose proof (value_done_ok (f :: st) t0 v (t ++ [b]) H T W) as V.
    destruct (value_done (f :: st) v) as [st' lx'] eqn:E. cbn [ok_out]. rewrite <- app_assoc. exact V.
Qed.
Lemma wfd_arr k l : 0 <= k -> k + 1 <= max_depth -> Forall (wfd (k + 1)) l -> wfd k (JArr l).
Proof.
  intros K D H. unfold wfd in *. replace (Z.to_nat (max_depth - k)) with (S (Z.to_nat (max_depth - (k + 1)))) by (unfold max_depth in *; lia).
  constructor. exact H.
Qed.
Lemma wfd_obj k l : 0 <= k -> k + 1 <= max_depth ->
  Forall (fun p => string_body (str_bytes (fst p)) /\ wfd (k + 1) (snd p)) l -> wfd k (JObj l).
Proof.
  intros K D H. unfold wfd in *. replace (Z.to_nat (max_depth - k)) with (S (Z.to_nat (max_depth - (k + 1)))) by (unfold max_depth in *; lia).
  constructor. exact H.
Qed.

Lemma step_value_ok st t b : hole st t -> ok_out (step_value st b) t b.
Proof.
  intros H. unfold step_value. destruct (is_space b) eqn:Es; [cbn; apply hole_ws; [exact H|apply is_space_ws; exact Es]|].
  destruct (b2z b =? 123) eqn:E1.
  { unfold push. destruct (zlen st + 1 <=? max_depth) eqn:D; [|exact I]. cbn. exists st, ""%string. split; [reflexivity|].
    exists st, t, [], ""%string, []. rewrite (char_of 123 b) by lia.
    repeat (split; [first [reflexivity|assumption|lia|constructor]|]); [left; split; constructor|].
    repeat (split; [first [reflexivity|assumption|lia|constructor]|]). reflexivity. }
  destruct (b2z b =? 91) eqn:E2.
  { unfold push. destruct (zlen st + 1 <=? max_depth) eqn:D; [|exact I]. cbn. exists st. split; [reflexivity|].
    rewrite (char_of 91 b) by lia. apply h_arr; [exact H|lia| |constructor]. left. split; constructor. }
  destruct (b2z b =? 34) eqn:E3.
  { cbn. exists t. split; [exact H|]. rewrite (char_of 34 b) by lia. split; [|reflexivity]. intros r Hr. exact Hr. }
  assert (Num : forall ns, num_start b = Some ns -> ok_out (Run (st, LNum ns [b])) t b).
  { intros ns Hn. cbn. exists t. split; [exact H|]. split; [|reflexivity]. exists b, [], ns. repeat split. exact Hn. }
  assert (Lit : forall v c rest, b2z b = c -> text_of v (z2b c :: rest) -> ~ container v -> wf_json 0 v ->
    ok_out (Run (st, LLit rest v)) t b).
  { intros v c rest Hc T N W. cbn. exists t, [b]. split; [exact H|]. rewrite (char_of _ _ Hc). repeat (split; [assumption|]). reflexivity. }
  destruct (b2z b =? 45) eqn:E4; [apply Num; unfold num_start; rewrite E4; reflexivity|].
  destruct (b2z b =? 48) eqn:E5; [apply Num; unfold num_start; rewrite E4, E5; reflexivity|].
  destruct (b2z b =? 116) eqn:E6; [apply (Lit _ 116); [lia|exact to_true|exact (fun x => x)|constructor]|].
  destruct (b2z b =? 102) eqn:E7; [apply (Lit _ 102); [lia|exact to_false|exact (fun x => x)|constructor]|].
  destruct (b2z b =? 110) eqn:E8; [apply (Lit _ 110); [lia|exact to_null|exact (fun x => x)|constructor]|].
  destruct (in_range 49 57 b) eqn:E9; [apply Num; unfold num_start; rewrite E4, E5, E9; reflexivity|]. exact I.
Qed.

Lemma step_end_ok st t b : after st t -> ok_out (step_end st b) t b.
Proof.
  intros H. unfold step_end. destruct (is_space b) eqn:Es; [cbn; apply after_ws; [exact H|apply is_space_ws; exact Es]|].
  destruct st as [|[acc|acc k] st]; [exact I|..]; destruct H as (t0 & e & H & D & N & E & F & ->).
  - destruct (b2z b =? 44) eqn:E1.
    { cbn. rewrite (char_of 44 b) by lia. rewrite <- app_assoc. cbn [app]. apply h_arr; try assumption.
      right. split; [exact N|]. exists e, []. repeat split; [exact E|constructor]. }
    destruct (b2z b =? 93) eqn:E2; [|exact I].
    apply close_ok; [exact H| |].
    + rewrite (char_of 93 b) by lia. cbn [app]. apply (to_arr (rev acc) e E).
    + apply wfd_arr; [apply zlen_nonneg'|exact D|]. apply Forall_rev. exact F.
  - destruct (b2z b =? 44) eqn:E1.
    { cbn. rewrite (char_of 44 b) by lia. rewrite <- app_assoc. cbn [app].
      exists st, t0, acc, k, (e ++ [","%char]). repeat (split; [first [reflexivity|assumption]|]).
      split; [right; split; [exact N|exists e, []; repeat split; [exact E|constructor]]|]. split; [exact F|]. reflexivity. }
    destruct (b2z b =? 125) eqn:E2; [|exact I].
    apply close_ok; [exact H| |].
    + rewrite (char_of 125 b) by lia. cbn [app]. apply (to_obj (rev acc) e E).
    + apply wfd_obj; [apply zlen_nonneg'|exact D|]. apply Forall_rev. exact F.
Qed.

Lemma key_start st t b : keypos st t -> b2z b = 34 -> ok_out (Run (st, LStr true [])) t b.
Proof.
  intros K Hb. cbn. exists t. split; [exact K|]. rewrite (char_of _ _ Hb). split; [intros r Hr; exact Hr|reflexivity].
Qed.

Lemma step_ok st lx t b : ok st lx t -> ok_out (step (st, lx) b) t b.
Proof.
  intros H. destruct lx; cbn [step].
  - apply step_value_ok. exact H.
  - destruct H as (st' & -> & H). destruct (is_space b) eqn:Es.
    { cbn. exists st'. split; [reflexivity|]. apply hole_ws; [exact H|apply is_space_ws; exact Es]. }
    destruct (b2z b =? 93) eqn:E; [|apply step_value_ok; exact H].
    inversion H as [|? t0 ? e H0 D O F|]; subst. apply close_ok; [exact H0| |].
    + rewrite (char_of 93 b) by lia. cbn [app]. apply (to_arr [] e). constructor.
      destruct O as [[_ O]|[O _]]; [exact O|contradiction].
    + apply wfd_arr; [apply zlen_nonneg'|exact D|constructor].
  - destruct H as (st' & k & -> & H). destruct (is_space b) eqn:Es.
    { cbn. exists st', k. split; [reflexivity|]. apply keypos_ws; [exact H|apply is_space_ws; exact Es]. }
    destruct (b2z b =? 125) eqn:E.
    { destruct H as (st2 & t0 & acc & k2 & e & Eq & H0 & D & O & F & ->). injection Eq as <- <- <-.
      apply close_ok; [exact H0| |].
      - rewrite (char_of 125 b) by lia. cbn [app]. apply (to_obj [] e). constructor.
        destruct O as [[_ O]|[O _]]; [exact O|contradiction].
      - apply wfd_obj; [apply zlen_nonneg'|exact D|constructor]. }
    destruct (b2z b =? 34) eqn:E2; [|exact I]. apply key_start; [exact H|lia].
  - destruct (is_space b) eqn:Es; [cbn; apply keypos_ws; [exact H|apply is_space_ws; exact Es]|].
    destruct (b2z b =? 34) eqn:E2; [|exact I]. apply key_start; [exact H|lia].
  - destruct H as (acc & k & st' & t0 & e & w & -> & H & D & O & F & K & Hw & ->). destruct (is_space b) eqn:Es.
    { cbn. exists acc, k, st', t0, e, (w ++ [b]). repeat (split; [first [reflexivity|assumption|apply ws_app; [assumption|apply is_space_ws; exact Es]]|]).
      flat. reflexivity. }
    destruct (b2z b =? 58) eqn:E; [|exact I]. cbn [ok_out ok]. rewrite (char_of 58 b) by lia.
    pose proof (h_obj st' t0 acc k e w [] H D O F K Hw ltac:(constructor)) as G.
    flat. exact G.
  - apply step_end_ok. exact H.
  - destruct H as (t0 & P & Q & ->). destruct (b2z b =? 34) eqn:E.
    { unfold string_done.
      assert (B : string_body (str_bytes (bytes_str (rev acc)))).
      { rewrite str_bytes_str. rewrite <- (app_nil_r (rev acc)). apply Q. constructor. }
      destruct key.
      - destruct P as (st' & t1 & m & k & e & -> & H & D & O & F & ->). cbn.
        exists m, (bytes_str (rev acc)), st', t1, e, []. repeat (split; [first [reflexivity|assumption|constructor]|]).
        rewrite (char_of 34 b) by lia. unfold key_text. rewrite str_bytes_str. flat.
        reflexivity.
      - cbn [strpos] in P. pose proof (value_done_ok st t0 (JStr (bytes_str (rev acc))) _ P (to_str _)) as V.
        rewrite str_bytes_str in V. cbn [ok_out]. destruct (value_done st _) as [st' lx'].
        replace ((t0 ++ z2b 34 :: rev acc) ++ [b]) with (t0 ++ z2b 34 :: rev acc ++ [z2b 34]).
        + apply V. apply (wfd_scalar _ _ 0); [constructor; exact B|exact (fun x => x)].
        + rewrite <- app_assoc. cbn [app]. rewrite (char_of 34 b) by lia. reflexivity. }
    destruct (b2z b =? 92) eqn:E2.
    { cbn. exists t0. split; [exact P|]. split; [|cbn [rev]; rewrite <- app_assoc; reflexivity].
      rewrite (char_of 92 b) by lia. cbn [rev]. split.
      - intros c r Hc Hr. rewrite <- app_assoc. cbn [app]. apply Q. constructor; assumption.
      - intros h1 h2 h3 h4 r H1 H2 H3 H4 Hr. rewrite <- app_assoc. cbn [app]. apply Q. constructor; assumption. }
    destruct (b2z b <? 32) eqn:E3; [exact I|]. cbn. exists t0. split; [exact P|].
    split; [|cbn [rev]; rewrite <- app_assoc; reflexivity].
    intros r Hr. cbn [rev]. rewrite <- app_assoc. cbn [app]. apply Q. constructor; try assumption; lia.
  - destruct H as (t0 & P & [Q1 Q2] & ->).
    destruct ((b2z b =? 98) || (b2z b =? 102) || (b2z b =? 110) || (b2z b =? 114) || (b2z b =? 116) || (b2z b =? 92) || (b2z b =? 47) || (b2z b =? 34)) eqn:E.
    { cbn. exists t0. split; [exact P|]. split; [|cbn [rev]; rewrite <- app_assoc; reflexivity].
      intros r Hr. cbn [rev]. rewrite <- app_assoc. cbn [app]. apply Q1; [|exact Hr].
      assert (C : b2z b = 98 \/ b2z b = 102 \/ b2z b = 110 \/ b2z b = 114 \/ b2z b = 116 \/ b2z b = 92 \/ b2z b = 47 \/ b2z b = 34) by lia.
      repeat destruct C as [C|C]; rewrite (char_of _ _ C); cbn; tauto. }
    destruct (b2z b =? 117) eqn:E2; [|exact I]. cbn. exists t0. split; [exact P|].
    split; [|split; [lia|cbn [rev]; rewrite <- app_assoc; reflexivity]].
    intros hs r L Hh Hr. rewrite (char_of 117 b) by lia. cbn [rev]. rewrite <- app_assoc. cbn [app].
    destruct hs as [|h1 [|h2 [|h3 [|h4 [|]]]]]; try discriminate.
    pose proof (Forall_inv Hh). apply Forall_inv_tail in Hh. pose proof (Forall_inv Hh). apply Forall_inv_tail in Hh.
    pose proof (Forall_inv Hh). apply Forall_inv_tail in Hh. pose proof (Forall_inv Hh).
    apply Q2; assumption.
  - destruct H as (t0 & P & Q & N & ->). destruct (is_hex b) eqn:E; [|exact I]. apply is_hex_hex in E.
    assert (G : forall m, S m = n -> forall hs r, List.length hs = m -> hexs hs -> string_body r ->
      string_body ((rev acc ++ [b]) ++ hs ++ r)).
    { intros m Hm hs r L Hh Hr. rewrite <- app_assoc. cbn [app]. apply (Q (b :: hs) r); [cbn; lia|constructor; assumption|exact Hr]. }
    destruct n as [|[|n]]; [lia|..]; cbn; exists t0; (split; [exact P|]).
    + split; [|rewrite <- app_assoc; reflexivity]. intros r Hr.
      exact (G 0%nat eq_refl [] r eq_refl ltac:(constructor) Hr).
    + split; [|split; [lia|rewrite <- app_assoc; reflexivity]]. intros hs r L Hh Hr.
      exact (G (S n) eq_refl hs r L Hh Hr).
  - destruct H as (t0 & H & Q & ->). destruct (num_step st0 b) as [ns'|] eqn:E.
    { cbn. exists t0. split; [exact H|]. split; [|rewrite <- app_assoc; reflexivity]. exact (num_pre_step _ _ _ _ Q E). }
    destruct (num_ok st0) eqn:O; [|exact I]. pose proof (num_pre_ok _ _ Q O) as J.
    pose proof (value_done_ok st t0 (JNum (bytes_str (rev acc))) _ H (to_num _)) as V.
    rewrite str_bytes_str in V. cbn zeta.
    assert (W : wfd (zlen st) (JNum (bytes_str (rev acc)))).
    { apply (wfd_scalar _ _ 0); [constructor; rewrite str_bytes_str; exact J|exact (fun x => x)]. }
    specialize (V W). destruct st as [|f st].
    + cbn in V |- *. exact (proj2 V).
    + destruct (value_done_cons f st (JNum (bytes_str (rev acc)))) as [f' Ef]. rewrite Ef in V |- *.
      apply step_end_ok. exact V.
  - destruct H as (t0 & p & H & T & N & W & ->). destruct todo as [|c todo]; [exact I|].
    destruct (Ascii.eqb b c) eqn:E; [|exact I]. apply Ascii.eqb_eq in E. subst c. destruct todo as [|d todo].
    + pose proof (value_done_ok st t0 v _ H T (wfd_scalar _ _ 0%nat W N)) as V. cbn [ok_out].
      destruct (value_done st v). rewrite <- app_assoc. exact V.
    + cbn. exists t0, (p ++ [b]). split; [exact H|]. rewrite <- app_assoc. cbn [app]. repeat (split; [assumption|]).
      rewrite <- app_assoc. reflexivity.
  - exact (proj2 H).
Qed.

Lemma scan_ok l : forall st lx t, ok st lx t ->
  match scan (st, lx) l with
  | Done v rest => exists p, l = p ++ rest /\ fin v (t ++ p)
  | More (st', lx') => ok st' lx' (t ++ l)
  | Syntax => True
  end.
Proof.
  induction l as [|b l IH]; intros st lx t H; cbn [scan]; [rewrite app_nil_r; exact H|].
  pose proof (step_ok st lx t b H) as S. destruct (step (st, lx) b) as [[st' lx']|v|v|]; cbn [ok_out] in S.
  - specialize (IH st' lx' (t ++ [b]) S). destruct (scan (st', lx') l) as [v rest|[st2 lx2]|].
    + destruct IH as (p & -> & F). exists (b :: p). split; [reflexivity|]. rewrite <- app_assoc in F. exact F.
    + rewrite <- app_assoc in IH. exact IH.
    + exact I.
  - exists [b]. split; [reflexivity|exact S].
  - exists []. split; [reflexivity|]. rewrite app_nil_r. exact S.
  - exact I.
Qed.

(** What comes out of the scanner is JSON text of the value. *)
Theorem scan_sound l v rest : scan start l = Done v rest ->
  exists w t, l = w ++ t ++ rest /\ ws w /\ text_of v t /\ wf_json (Z.to_nat max_depth) v.
Proof.
  intros H. pose proof (scan_ok l [] LVal [] (h_top [] ltac:(constructor))) as S. unfold start in H. rewrite H in S.
  destruct S as (p & -> & w & t' & E & Hw & T & W). cbn [app] in E. subst p. exists w, t'.
  rewrite <- app_assoc. split; [reflexivity|]. split; [exact Hw|]. split; [exact T|]. unfold wfd in W.
  rewrite Z.sub_0_r in W. exact W.
Qed.
Theorem scan_sound_eof l cf v : scan start l = More cf -> at_eof cf = Some v ->
  exists w t, l = w ++ t /\ ws w /\ text_of v t /\ wf_json (Z.to_nat max_depth) v.
Proof.
  intros H E. pose proof (scan_ok l [] LVal [] (h_top [] ltac:(constructor))) as S. unfold start in H. rewrite H in S.
  destruct cf as [st lx]. cbn [app] in S. destruct st as [|f st]; [|destruct lx; discriminate].
  destruct lx; try discriminate; cbn [at_eof] in E.
  - destruct (num_ok st) eqn:O; [|discriminate]. injection E as <-. destruct S as (t0 & Hh & Q & ->).
    pose proof (num_pre_ok _ _ Q O) as J. inversion Hh; subst. exists t0, (rev acc). split; [reflexivity|]. split; [assumption|].
    pose proof (to_num (bytes_str (rev acc))) as T. rewrite str_bytes_str in T. split; [exact T|].
    constructor. rewrite str_bytes_str. exact J.
  - injection E as <-. destruct S as (_ & w & t' & -> & Hw & T & W). exists w, t'. split; [reflexivity|]. split; [exact Hw|].
    split; [exact T|]. unfold wfd in W. rewrite Z.sub_0_r in W. exact W.
Qed.
