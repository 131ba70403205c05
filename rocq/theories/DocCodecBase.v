(** Lemmas and tactics for DocCodecProofs. *)
From Verif Require Import Base BaseFacts Types Doc F64 SpecText JsonText Codec DocCodec SpecJson SpecJsonDoc CodecProofs.

Lemma rt_oint n old : rt (c_ptr 0 c_int) n old (opt in_i64) (option_map (fun v => v)).
Proof.
  apply rt_ptr; [intros; apply rt_int|]. intros x j _ E. cbn in E. injection E as <-. discriminate.
Qed.
Lemma rt_of64 F (HF : float_contract F) n old : rt (c_ptr 0 (c_f64 F)) n old (opt float_ok) (option_map (fun v => v)).
Proof.
  apply rt_ptr; [intros; apply rt_f64, HF|]. intros x j _ E. cbn in E. unfold enc_f64 in E.
  destruct (f64_finite x); [|discriminate]. injection E as <-. discriminate.
Qed.
Lemma rt_oarr4 F (HF : float_contract F) n old : match old with Some o => List.length o = 4%nat | None => True end ->
  rt (c_ptr (repeat 0 4) (c_array 0 (c_f64 F))) (S n) old (opt (farray 4)) (option_map (fun v => v)).
Proof.
  intros H. apply rt_ptr.
  - intros o Ho. apply rt_array; [intros; apply rt_f64, HF|]. destruct Ho as [->|[-> ->]]; [exact H|reflexivity].
  - intros x j _ E. cbn in E. destruct (traverse (enc_f64 F) x); cbn in E; try discriminate. injection E as <-. discriminate.
Qed.
Lemma enc_struct_nonnull {T} (fs : list (field T)) x j : enc_struct fs x = Ok j -> j <> JNull.
Proof. unfold enc_struct. destruct (enc_fields fs x); cbn; try discriminate. intros [= <-]. discriminate. Qed.

Lemma str_empty_eq s : str_empty s = true -> s = ""%string.
Proof. apply String.eqb_eq. Qed.
Lemma z_zero_eq z : z_zero z = true -> z = 0.
Proof. apply Z.eqb_eq. Qed.
Lemma is_nil_eq {A} (l : list A) : is_nil l = true -> l = [].
Proof. destruct l; [reflexivity|discriminate]. Qed.
Lemma is_none_eq {A} (l : option A) : is_none l = true -> l = None.
Proof. destruct l; [discriminate|reflexivity]. Qed.
Lemma any_nil_eq v : any_nil v = true -> v = VNull.
Proof. destruct v; try discriminate. reflexivity. Qed.
Lemma negb_eq b : negb b = true -> b = false.
Proof. destruct b; [discriminate|reflexivity]. Qed.

Lemma map_id' {A} (l : list A) : map (fun v => v) l = l.
Proof. apply map_id. Qed.
Lemma option_map_id' {A} (o : option A) : option_map (fun v => v) o = o.
Proof. destruct o; reflexivity. Qed.
Lemma option_map_map_id' {A} (o : option (list A)) : option_map (map (fun v => v)) o = o.
Proof. destruct o; cbn; [rewrite map_id|]; reflexivity. Qed.

Lemma f64_eq_pos v d : float_ok v -> 0 < d < 2 ^ 63 -> f64_eq v d = true -> v = d.
Proof.
  intros [R _] D E. unfold f64_eq in E. apply andb_prop in E. destruct E as [_ E]. apply Z.eqb_eq in E.
  unfold f64_key, f64_sign, f64_mag in E.
  change (2 ^ 63) with 9223372036854775808 in *. change (2 ^ 64) with 18446744073709551616 in R.
  replace (9223372036854775808 <=? d) with false in E by lia.
  destruct (9223372036854775808 <=? v) eqn:S; lia.
Qed.
Lemma opt_default_eq d o : 0 < d < 2 ^ 63 -> opt float_ok o -> opt_default d o = true -> or_some d o = Some d.
Proof.
  intros D W E. destruct o as [v|]; [|reflexivity]. cbn in *. rewrite (f64_eq_pos v d W D E). reflexivity.
Qed.
Lemma opt_default_ne d o : opt_default d o = false -> or_some d o = option_map (fun v => v) o.
Proof. destruct o; [reflexivity|discriminate]. Qed.
Lemma oarr_default_ne d o : oarr_default d o = false -> or_some d o = option_map (fun v => v) o.
Proof. destruct o; [reflexivity|discriminate]. Qed.
Lemma arr_eq_pos v : forall d, Forall float_ok v -> Forall (fun x => 0 < x < 2 ^ 63) d -> arr_eq v d = true -> v = d.
Proof.
  induction v as [|a v IH]; intros [|b d] W D E; try discriminate; [reflexivity|].
  cbn in E. apply andb_prop in E. destruct E as [E1 E2].
  rewrite (f64_eq_pos a b (Forall_inv W) (Forall_inv D) E1), (IH d (Forall_inv_tail W) (Forall_inv_tail D) E2). reflexivity.
Qed.
Lemma oarr_default_eq d k o : Forall (fun x => 0 < x < 2 ^ 63) d -> opt (farray k) o -> oarr_default d o = true -> or_some d o = Some d.
Proof.
  intros D W E. destruct o as [v|]; [|reflexivity]. cbn in *. rewrite (arr_eq_pos v d (proj2 W) D E). reflexivity.
Qed.
Lemma same_numbers_arr a : forall b, same_numbers a b = arr_eq a b.
Proof.
  induction a as [|x a IH]; intros [|y b]; try reflexivity. cbn [arr_eq]. rewrite <- IH. unfold same_numbers. cbn.
  rewrite andb_assoc, (andb_comm _ (f64_eq x y)), <- andb_assoc. reflexivity.
Qed.
Lemma arr_default_eq d z v : arr_default d z v = true -> or_default d z v = d.
Proof. unfold arr_default, or_default. rewrite !same_numbers_arr. intros ->. reflexivity. Qed.
Lemma arr_default_ne d z v : arr_default d z v = false -> or_default d z v = v.
Proof. unfold arr_default, or_default. rewrite !same_numbers_arr. intros ->. reflexivity. Qed.

Ltac plain_tac :=
  repeat apply Forall_cons; try apply Forall_nil;
  (split; [vm_compute; reflexivity|split; [apply ascii_utf8; vm_compute; reflexivity|reflexivity]]).
Ltac lens_tac := repeat apply Forall_cons; try apply Forall_nil; intros v y; reflexivity.
Ltac indep_tac :=
  repeat apply FOP_cons; try apply FOP_nil;
  (repeat apply Forall_cons; try apply Forall_nil; split; intros v y; reflexivity).
Ltac keeps_tac := repeat apply Forall_cons; try apply Forall_nil; intros ? ?; reflexivity.
Ltac agree_tac A :=
  repeat match type of A with
  | Forall _ [] => clear A
  | Forall _ (_ :: _) => let H := fresh "G" in pose proof (Forall_inv A) as H; cbn [agree] in H; apply Forall_inv_tail in A
  end.
(** The value of a written field. *)
Ltac field_tac :=
  let O := fresh "O" in
  intros O; split;
  [ first [assumption | exact I | split; [assumption | apply Z.eqb_neq; exact O]]
  | first [ reflexivity
          | symmetry; apply map_id' | symmetry; apply option_map_id' | symmetry; apply option_map_map_id'
          | exact (arr_default_ne _ _ _ O) | exact (opt_default_ne _ _ O) | exact (oarr_default_ne _ _ O)
          | match goal with NV : _ <> ""%string |- _ => unfold norm_Asset, or_version; cbn; apply String.eqb_neq in NV; rewrite NV; reflexivity end ] ].
(** The value of an omitted field. *)
Ltac omit_tac :=
  let O := fresh "O" in
  intros O;
  first [ discriminate O
        | exact (arr_default_eq _ _ _ O)
        | refine (opt_default_eq _ _ _ _ O); [vm_compute; split; reflexivity | assumption]
        | refine (oarr_default_eq _ 4 _ _ _ O); [repeat constructor; vm_compute; reflexivity | assumption]
        | apply str_empty_eq in O | apply z_zero_eq in O | apply is_nil_eq in O | apply is_none_eq in O
        | apply any_nil_eq in O | apply negb_eq in O ];
  try (match type of O with
       | _ = _ => match goal with |- context [?f ?x] => idtac end
       end; cbn; rewrite O; reflexivity).
