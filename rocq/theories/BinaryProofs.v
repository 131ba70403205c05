(** Proofs about the binary package. *)
From Verif Require Import BaseFacts Types Binary SpecLayout.
Local Open Scope nat_scope.

Ltac all_ct c t :=
  destruct c; try discriminate; destruct t; try discriminate.

(** ** Little-endian bytes one by one *)
Lemma nth_error_le_bytes w v k :
  nth_error (le_bytes w v) k =
  if k <? w then Some (z2b (v / 256 ^ Z.of_nat k)%Z) else None.
Proof.
  revert v k; induction w as [|w IH]; intros v k.
  - destruct k; reflexivity.
  - cbn [le_bytes]. destruct k as [|k].
    + cbn [nth_error]. change (Z.of_nat 0) with 0%Z.
      rewrite Z.pow_0_r, Z.div_1_r. reflexivity.
    + cbn [nth_error]. rewrite IH.
      change (S k <? S w) with (k <? w). destruct (k <? w); auto.
      rewrite Z.div_div by (try apply Z.pow_pos_nonneg; lia).
      replace (Z.of_nat (S k)) with (1 + Z.of_nat k)%Z by lia.
      rewrite Z.pow_add_r, Z.pow_1_r by lia. reflexivity.
Qed.

(** ** Effect of a sequence of stores *)
Fixpoint tbl_role (w : nat) (ncols : Z) (tbl : list (Z * (Z * Z))) (j : nat) : option (nat * nat) :=
  match tbl with
  | [] => None
  | (o, (r, k)) :: tbl' =>
      match tbl_role w ncols tbl' j with
      | Some x => Some x
      | None =>
          if (Z.to_nat o <=? j) && (j <? Z.to_nat o + w)
          then Some (Z.to_nat (r * ncols + k), j - Z.to_nat o) else None
      end
  end.

Definition tbl_ok (w : nat) (ncols : Z) (tbl : list (Z * (Z * Z))) (len n : nat) : Prop :=
  Forall (fun '(o, (r, k)) =>
    (0 <= o)%Z /\ Z.to_nat o + w <= len /\
    (0 <= r * ncols + k)%Z /\ Z.to_nat (r * ncols + k) < n) tbl.

Lemma store_ok w b off x :
  off + w <= List.length b ->
  store (Z.of_nat w) b (Z.of_nat off) x = Ok (overwrite b off (le_bytes w x)).
Proof.
  intros H. unfold store, zlen.
  destruct ((0 <=? Z.of_nat off) && (Z.of_nat off + Z.of_nat w <=? Z.of_nat (List.length b)))%Z eqn:E.
  - rewrite !Nat2Z.id. reflexivity.
  - lia.
Qed.

Lemma load_ok w b off :
  off + w <= List.length b ->
  load (Z.of_nat w) b (Z.of_nat off) = Ok (le_val (sub b off w)).
Proof.
  intros H. unfold load, zlen.
  destruct ((0 <=? Z.of_nat off) && (Z.of_nat off + Z.of_nat w <=? Z.of_nat (List.length b)))%Z eqn:E.
  - rewrite !Nat2Z.id. reflexivity.
  - lia.
Qed.

Lemma index_ok {A} (l : list A) i d :
  (0 <= i)%Z -> Z.to_nat i < List.length l -> index l i = Ok (nth (Z.to_nat i) l d).
Proof.
  intros H0 H. unfold index, zlen.
  destruct ((0 <=? i) && (i <? Z.of_nat (List.length l)))%Z eqn:E; [|lia].
  rewrite (nth_error_nth' l d H). reflexivity.
Qed.

Lemma put_all_spec w base ncols tbl v b len :
  tbl_ok w ncols tbl len (List.length v) ->
  base + len <= List.length b ->
  exists b', put_all (Z.of_nat w) (Z.of_nat base) ncols tbl v b = Ok b' /\
    List.length b' = List.length b /\
    forall p, nth_error b' p =
      if base <=? p then
        match tbl_role w ncols tbl (p - base) with
        | Some (f, k) => Some (z2b (nth f v 0 / 256 ^ Z.of_nat k)%Z)
        | None => nth_error b p
        end
      else nth_error b p.
Proof.
  revert b; induction tbl as [|[o [r k]] tbl IH]; intros b Hok Hb.
  - exists b. cbn. repeat split; auto. intros p. destruct (base <=? p); reflexivity.
  - pose proof (Forall_inv Hok) as (H0 & H1 & H2 & H3).
    pose proof (Forall_inv_tail Hok) as Hok'.
    cbn [put_all]. rewrite (index_ok v _ 0%Z) by lia. cbn [bind].
    replace (Z.of_nat base + o)%Z with (Z.of_nat (base + Z.to_nat o)) by lia.
    rewrite store_ok by lia. cbn [bind].
    set (x := nth (Z.to_nat (r * ncols + k)) v 0%Z).
    set (b1 := overwrite b (base + Z.to_nat o) (le_bytes w x)).
    assert (Hl1 : List.length b1 = List.length b).
    { apply overwrite_length. rewrite le_bytes_length. lia. }
    destruct (IH b1 Hok') as (b' & Hput & Hlen & Hnth); [lia|].
    exists b'. split; [exact Hput|]. split; [lia|].
    intros p. rewrite Hnth. cbn [tbl_role].
    destruct (base <=? p) eqn:Ep.
    + destruct (tbl_role w ncols tbl (p - base)) as [[f kk]|] eqn:Er; auto.
      unfold b1. rewrite nth_error_overwrite by (rewrite le_bytes_length; lia).
      rewrite le_bytes_length, nth_error_le_bytes.
      destruct ((Z.to_nat o <=? p - base) && (p - base <? Z.to_nat o + w)) eqn:E1;
      destruct ((base + Z.to_nat o <=? p) && (p <? base + Z.to_nat o + w)) eqn:E2; try lia; auto.
      destruct (p - (base + Z.to_nat o) <? w) eqn:E3; [|lia].
      replace (p - (base + Z.to_nat o)) with (p - base - Z.to_nat o) by lia. reflexivity.
    + unfold b1. rewrite nth_error_overwrite by (rewrite le_bytes_length; lia).
      rewrite le_bytes_length.
      destruct ((base + Z.to_nat o <=? p) && (p <? base + Z.to_nat o + w)) eqn:E2; auto. lia.
Qed.

(** ** The offset tables implement the specified layout *)
Definition opt_pair_eqb (a b : option (nat * nat)) : bool :=
  match a, b with
  | Some (x, y), Some (x', y') => (x =? x') && (y =? y')
  | None, None => true
  | _, _ => false
  end.
Lemma opt_pair_eqb_eq a b : opt_pair_eqb a b = true -> a = b.
Proof.
  destruct a as [[]|], b as [[]|]; simpl; intros; try discriminate; auto.
  f_equal; f_equal; lia.
Qed.

Lemma ByteSize_nat c : ByteSize c = Z.of_nat (comp_bytes c).
Proof. destruct c; reflexivity. Qed.

Lemma Components_nat t : Components t = Z.of_nat (rows t * columns t).
Proof. destruct t; reflexivity. Qed.

Lemma SizeOfElement_nat c t :
  ct_valid c = true -> at_valid t = true -> SizeOfElement c t = Z.of_nat (element_size c t).
Proof. intros Hc Ht. all_ct c t; reflexivity. Qed.

Lemma cols_nat t : at_valid t = true -> cols t = Z.of_nat (columns t).
Proof. intros Ht. destruct t; try discriminate; reflexivity. Qed.

Lemma element_size_le64 c t :
  ct_valid c = true -> at_valid t = true -> columns t * column_stride c t <= 64.
Proof. intros Hc Ht. all_ct c t; vm_compute; lia. Qed.

Lemma byte_role_none_64 c t j :
  ct_valid c = true -> at_valid t = true -> 64 <= j -> byte_role c t j = None.
Proof.
  intros Hc Ht Hj. unfold byte_role.
  pose proof (element_size_le64 c t Hc Ht) as H.
  assert (Hs : 0 < column_stride c t) by (all_ct c t; vm_compute; lia).
  assert (columns t <= j / column_stride c t).
  { apply Nat.div_le_lower_bound; lia. }
  destruct (j / column_stride c t <? columns t) eqn:E; auto. lia.
Qed.

Lemma all_small (P : nat -> bool) (n : nat) :
  forallb P (seq 0 n) = true -> forall j, j < n -> P j = true.
Proof.
  intros H j Hj. rewrite forallb_forall in H. apply H. apply in_seq. lia.
Qed.

Lemma byte_role_bound c t j f k :
  ct_valid c = true -> at_valid t = true ->
  byte_role c t j = Some (f, k) ->
  j < element_size c t /\ f < rows t * columns t /\ k < comp_bytes c.
Proof.
  intros Hc Ht H.
  destruct (Nat.lt_ge_cases j 64) as [Hj|Hj].
  2:{ rewrite byte_role_none_64 in H by auto. discriminate. }
  assert (Hall : forallb (fun j => match byte_role c t j with
    | Some (f, k) => (j <? element_size c t) && (f <? rows t * columns t) && (k <? comp_bytes c)
    | None => true end) (seq 0 64) = true).
  { all_ct c t; vm_compute; reflexivity. }
  pose proof (all_small _ _ Hall j Hj) as H1. cbn beta in H1. rewrite H in H1.
  lia.
Qed.

Lemma tbl_role_bound w ncols tbl len n j :
  tbl_ok w ncols tbl len n -> len <= j -> tbl_role w ncols tbl j = None.
Proof.
  intros H Hj. induction tbl as [|[o [r k]] tbl IH]; cbn [tbl_role]; auto.
  pose proof (Forall_inv H) as (H0 & H1 & H2 & H3).
  rewrite (IH (Forall_inv_tail H)). destruct ((Z.to_nat o <=? j) && (j <? Z.to_nat o + w)) eqn:E; auto. lia.
Qed.

Lemma put_tbl_ok c t :
  ct_valid c = true -> at_valid t = true ->
  tbl_ok (comp_bytes c) (cols t) (put_offsets c t) (element_size c t) (rows t * columns t).
Proof.
  intros Hc Ht. unfold tbl_ok.
  all_ct c t; cbn -[Z.mul Z.add Z.to_nat];
    repeat constructor; vm_compute; try discriminate; lia.
Qed.

Lemma put_tbl_role c t j :
  ct_valid c = true -> at_valid t = true ->
  tbl_role (comp_bytes c) (cols t) (put_offsets c t) j = byte_role c t j.
Proof.
  intros Hc Ht.
  destruct (Nat.lt_ge_cases j 64) as [Hj|Hj].
  - apply opt_pair_eqb_eq.
    assert (Hall : forallb (fun j => opt_pair_eqb
      (tbl_role (comp_bytes c) (cols t) (put_offsets c t) j) (byte_role c t j)) (seq 0 64) = true).
    { all_ct c t; vm_compute; reflexivity. }
    apply (all_small _ _ Hall j Hj).
  - rewrite byte_role_none_64 by auto.
    eapply tbl_role_bound; [apply put_tbl_ok; auto|].
    assert (element_size c t <= 64) by (all_ct c t; vm_compute; lia). lia.
Qed.

(** Offset of the component with flat index f. *)
Definition flat_offset (c : ComponentType) (t : AccessorType) (f : nat) : nat :=
  component_offset c t (f / columns t) (f mod columns t).

Lemma get_offsets_spec c t :
  ct_valid c = true -> at_valid t = true ->
  get_offsets c t = map (fun f => Z.of_nat (flat_offset c t f)) (seq 0 (rows t * columns t)).
Proof. intros Hc Ht. all_ct c t; reflexivity. Qed.

Lemma flat_offset_bound c t f :
  ct_valid c = true -> at_valid t = true -> f < rows t * columns t ->
  flat_offset c t f + comp_bytes c <= element_size c t.
Proof.
  intros Hc Ht Hf.
  assert (Hall : forallb (fun f => (flat_offset c t f + comp_bytes c <=? element_size c t))
     (seq 0 (rows t * columns t)) = true) by (all_ct c t; vm_compute; reflexivity).
  pose proof (all_small _ _ Hall f Hf) as H. cbn beta in H. lia.
Qed.

Lemma byte_role_flat c t f k :
  ct_valid c = true -> at_valid t = true -> f < rows t * columns t -> k < comp_bytes c ->
  byte_role c t (flat_offset c t f + k) = Some (f, k).
Proof.
  intros Hc Ht Hf Hk. apply opt_pair_eqb_eq.
  assert (Hall : forallb (fun f => forallb (fun k =>
     opt_pair_eqb (byte_role c t (flat_offset c t f + k)) (Some (f, k))) (seq 0 (comp_bytes c)))
     (seq 0 (rows t * columns t)) = true) by (all_ct c t; vm_compute; reflexivity).
  pose proof (all_small _ _ Hall f Hf) as H. cbn beta in H.
  exact (all_small _ _ H k Hk).
Qed.

Lemma byte_role_inv c t j f k :
  ct_valid c = true -> at_valid t = true ->
  byte_role c t j = Some (f, k) -> j = flat_offset c t f + k.
Proof.
  intros Hc Ht H.
  destruct (Nat.lt_ge_cases j 64) as [Hj|Hj].
  2:{ rewrite byte_role_none_64 in H by auto. discriminate. }
  assert (Hall : forallb (fun j => match byte_role c t j with
    | Some (f, k) => (j =? flat_offset c t f + k)
    | None => true end) (seq 0 64) = true).
  { all_ct c t; vm_compute; reflexivity. }
  pose proof (all_small _ _ Hall j Hj) as H1. cbn beta in H1. rewrite H in H1. lia.
Qed.

(** ** put_elem *)
Lemma put_elem_spec c t b pos v :
  ct_valid c = true -> at_valid t = true -> wf_elem c t v ->
  pos + element_size c t <= List.length b ->
  exists b', put_elem c t b (Z.of_nat pos) v = Ok b' /\
    List.length b' = List.length b /\
    forall p, nth_error b' p =
      if pos <=? p then
        match encoded_byte c t v (p - pos) with
        | Some y => Some y
        | None => nth_error b p
        end
      else nth_error b p.
Proof.
  intros Hc Ht [Hlen Hwf] Hb.
  unfold put_elem, zlen.
  destruct ((0 <=? Z.of_nat pos) && (Z.of_nat pos <=? Z.of_nat (List.length b)))%Z eqn:E; [|lia].
  rewrite ByteSize_nat.
  destruct (put_all_spec (comp_bytes c) pos (cols t) (put_offsets c t) v b (element_size c t))
    as (b' & H1 & H2 & H3); auto.
  { rewrite Hlen. apply put_tbl_ok; auto. }
  exists b'. split; [exact H1|]. split; auto.
  intros p. rewrite H3. destruct (pos <=? p); auto.
  unfold encoded_byte. rewrite put_tbl_role by auto.
  destruct (byte_role c t (p - pos)) as [[f k]|]; reflexivity.
Qed.

(** ** get_elem *)
Definition decode_elem (c : ComponentType) (t : AccessorType) (b : bytes) (pos : nat) : elem :=
  map (fun f => le_val (sub b (pos + flat_offset c t f) (comp_bytes c))) (seq 0 (rows t * columns t)).

Lemma get_elem_ok c t b pos :
  ct_valid c = true -> at_valid t = true ->
  pos + element_size c t <= List.length b ->
  get_elem c t b (Z.of_nat pos) = Ok (decode_elem c t b pos).
Proof.
  intros Hc Ht Hb. unfold get_elem, zlen.
  destruct ((0 <=? Z.of_nat pos) && (Z.of_nat pos <=? Z.of_nat (List.length b)))%Z eqn:E; [|lia].
  rewrite ByteSize_nat, get_offsets_spec by auto.
  unfold decode_elem.
  assert (G : forall l, (forall f, In f l -> f < rows t * columns t) ->
    mapM (fun o => load (Z.of_nat (comp_bytes c)) b (Z.of_nat pos + o))
         (map (fun f => Z.of_nat (flat_offset c t f)) l)
    = Ok (map (fun f => le_val (sub b (pos + flat_offset c t f) (comp_bytes c))) l)).
  { induction l as [|f l IH]; intros Hl; [reflexivity|].
    cbn [map mapM].
    replace (Z.of_nat pos + Z.of_nat (flat_offset c t f))%Z
      with (Z.of_nat (pos + flat_offset c t f)) by lia.
    rewrite load_ok.
    2:{ pose proof (flat_offset_bound c t f Hc Ht (Hl f (or_introl eq_refl))). lia. }
    cbn [bind]. rewrite IH by (intros; apply Hl; right; auto). reflexivity. }
  apply G. intros f Hf. apply in_seq in Hf. lia.
Qed.

Lemma decode_elem_wf c t b pos :
  ct_valid c = true -> at_valid t = true ->
  pos + element_size c t <= List.length b ->
  wf_elem c t (decode_elem c t b pos).
Proof.
  intros Hc Ht Hb. split.
  - unfold decode_elem. rewrite map_length, seq_length. reflexivity.
  - unfold decode_elem. apply Forall_forall. intros x Hx.
    apply in_map_iff in Hx as (f & <- & Hf). apply in_seq in Hf.
    pose proof (le_val_range (sub b (pos + flat_offset c t f) (comp_bytes c))) as H.
    unfold zlen in H. rewrite sub_length in H; auto.
    pose proof (flat_offset_bound c t f Hc Ht). lia.
Qed.

Lemma nth_decode c t b pos f :
  f < rows t * columns t ->
  nth f (decode_elem c t b pos) 0%Z = le_val (sub b (pos + flat_offset c t f) (comp_bytes c)).
Proof.
  intros Hf. unfold decode_elem.
  set (g := fun f => le_val (sub b (pos + flat_offset c t f) (comp_bytes c))).
  rewrite (nth_indep _ 0%Z (g 0)) by (rewrite map_length, seq_length; auto).
  rewrite map_nth, seq_nth by auto. reflexivity.
Qed.

Lemma decode_elem_stored c t b pos :
  ct_valid c = true -> at_valid t = true ->
  pos + element_size c t <= List.length b ->
  stored_at c t b pos (decode_elem c t b pos).
Proof.
  intros Hc Ht Hb j y H. unfold encoded_byte in H.
  destruct (byte_role c t j) as [[f k]|] eqn:E; [|discriminate]. injection H as <-.
  pose proof (byte_role_bound _ _ _ _ _ Hc Ht E) as (Hj & Hf & Hk).
  pose proof (byte_role_inv _ _ _ _ _ Hc Ht E) as ->.
  rewrite nth_decode by auto.
  set (s := sub b (pos + flat_offset c t f) (comp_bytes c)).
  pose proof (flat_offset_bound c t f Hc Ht Hf) as Hfo.
  assert (Hs : List.length s = comp_bytes c) by (apply sub_length; lia).
  pose proof (nth_error_le_bytes (List.length s) (le_val s) k) as Hn.
  rewrite le_bytes_le_val, Hs in Hn.
  destruct (k <? comp_bytes c) eqn:Ek; [|lia].
  rewrite <- Hn. unfold s. rewrite nth_error_sub, Ek. f_equal. lia.
Qed.

Lemma nth_error_pow_digits w x y :
  (0 <= x < 256 ^ Z.of_nat w)%Z -> (0 <= y < 256 ^ Z.of_nat w)%Z ->
  (forall k, k < w -> z2b (x / 256 ^ Z.of_nat k)%Z = z2b (y / 256 ^ Z.of_nat k)%Z) -> x = y.
Proof.
  intros Hx Hy H.
  assert (E : le_bytes w x = le_bytes w y).
  { apply nth_error_ext. intros i. rewrite !nth_error_le_bytes.
    destruct (i <? w) eqn:Ei; auto. rewrite H by lia. reflexivity. }
  apply (f_equal le_val) in E. rewrite !le_val_le_bytes in E.
  rewrite !Z.mod_small in E by lia. exact E.
Qed.

Lemma wf_elem_nth c t v f :
  wf_elem c t v -> f < rows t * columns t -> (0 <= nth f v 0 < 256 ^ Z.of_nat (comp_bytes c))%Z.
Proof.
  intros [Hl Hf] H. rewrite Forall_forall in Hf. apply Hf. apply nth_In. lia.
Qed.

(** An element is determined by its stored bytes. *)
Lemma stored_at_unique c t b pos v v' :
  ct_valid c = true -> at_valid t = true -> wf_elem c t v -> wf_elem c t v' ->
  stored_at c t b pos v -> stored_at c t b pos v' -> v = v'.
Proof.
  intros Hc Ht Hv Hv' H H'.
  apply nth_ext with (d := 0%Z) (d' := 0%Z).
  - destruct Hv, Hv'; lia.
  - intros f Hf. assert (Hf' : f < rows t * columns t) by (destruct Hv; lia).
    apply (nth_error_pow_digits (comp_bytes c)); try apply wf_elem_nth with (t := t); auto.
    intros k Hk.
    pose proof (byte_role_flat c t f k Hc Ht Hf' Hk) as Hr.
    assert (E : encoded_byte c t v (flat_offset c t f + k) = Some (z2b (nth f v 0 / 256 ^ Z.of_nat k)%Z))
      by (unfold encoded_byte; rewrite Hr; reflexivity).
    assert (E' : encoded_byte c t v' (flat_offset c t f + k) = Some (z2b (nth f v' 0 / 256 ^ Z.of_nat k)%Z))
      by (unfold encoded_byte; rewrite Hr; reflexivity).
    apply H in E. apply H' in E'. congruence.
Qed.

Lemma stored_at_decode c t b pos v :
  ct_valid c = true -> at_valid t = true -> wf_elem c t v ->
  pos + element_size c t <= List.length b ->
  stored_at c t b pos v -> decode_elem c t b pos = v.
Proof.
  intros Hc Ht Hv Hb H.
  eapply stored_at_unique; eauto.
  - apply decode_elem_wf; auto.
  - apply decode_elem_stored; auto.
Qed.

Lemma encoded_byte_bound c t v j y :
  ct_valid c = true -> at_valid t = true ->
  encoded_byte c t v j = Some y -> j < element_size c t.
Proof.
  intros Hc Ht H. unfold encoded_byte in H.
  destruct (byte_role c t j) as [[f k]|] eqn:E; [|discriminate].
  apply byte_role_bound in E; auto. lia.
Qed.

Lemma element_size_pos c t : ct_valid c = true -> at_valid t = true -> 0 < element_size c t.
Proof. intros Hc Ht. all_ct c t; vm_compute; lia. Qed.

(** ** write_loop *)
Lemma write_loop_spec c t b stride i vs :
  ct_valid c = true -> at_valid t = true -> Forall (wf_elem c t) vs ->
  element_size c t <= stride ->
  (match vs with [] => 0 | _ => stride * (i + List.length vs - 1) + element_size c t end) <= List.length b ->
  (Z.of_nat (List.length b) < 2 ^ 63)%Z ->
  exists b', write_loop c t b (Z.of_nat stride) (Z.of_nat i) vs = Ok b' /\
    List.length b' = List.length b /\
    forall p, nth_error b' p =
      if i <=? p / stride then
      match nth_error vs (p / stride - i) with
      | Some v =>
          match encoded_byte c t v (p mod stride) with
          | Some y => Some y
          | None => nth_error b p
          end
      | None => nth_error b p
      end else nth_error b p.
Proof.
  intros Hc Ht Hwf Hst Hb H63.
  pose proof (element_size_pos c t Hc Ht) as Hpos.
  revert b i Hb H63; induction Hwf as [|v vs Hv Hvs IH]; intros b i Hb H63.
  - exists b. cbn [write_loop]. repeat split; auto. intros p.
    destruct (i <=? p / stride); auto. destruct (p / stride - i); reflexivity.
  - cbn [List.length] in Hb.
    cbn [write_loop].
    assert (Hi : stride * i + element_size c t <= List.length b) by nia.
    rewrite i64_id by (unfold in_i64; nia).
    replace (Z.of_nat stride * Z.of_nat i)%Z with (Z.of_nat (stride * i)) by lia.
    destruct (put_elem_spec c t b (stride * i) v Hc Ht Hv Hi) as (b1 & P1 & L1 & N1).
    rewrite P1. cbn [bind].
    destruct (IH b1 (S i)) as (b' & P2 & L2 & N2).
    { rewrite L1. destruct vs; [lia|]. cbn [List.length] in *. nia. }
    { lia. }
    replace (Z.of_nat i + 1)%Z with (Z.of_nat (S i)) by lia.
    exists b'. split; [exact P2|]. split; [lia|].
    intros p. rewrite N2, N1.
    pose proof (Nat.div_mod p stride ltac:(lia)) as Hdm.
    pose proof (Nat.mod_upper_bound p stride ltac:(lia)) as Hmod.
    set (q := p / stride) in *. set (m := p mod stride) in *.
    destruct (S i <=? q) eqn:E1.
    + assert (E2 : (i <=? q) = true) by lia. rewrite E2.
      replace (q - i) with (S (q - S i)) by lia. cbn [nth_error].
      assert (Hun : (if stride * i <=? p then match encoded_byte c t v (p - stride * i) with
               | Some y => Some y | None => nth_error b p end else nth_error b p) = nth_error b p).
      { destruct (stride * i <=? p); auto.
        destruct (encoded_byte c t v (p - stride * i)) eqn:Ee; auto.
        apply encoded_byte_bound in Ee; auto. nia. }
      rewrite Hun. reflexivity.
    + destruct (i <=? q) eqn:E2.
      * assert (q = i) as -> by lia. rewrite Nat.sub_diag. cbn [nth_error].
        assert (E3 : (stride * i <=? p) = true) by lia. rewrite E3.
        replace (p - stride * i) with m by lia. reflexivity.
      * assert (E3 : (stride * i <=? p) = false) by nia. rewrite E3. reflexivity.
Qed.

(** ** read_loop *)
Lemma read_loop_spec c t b e i n :
  ct_valid c = true -> at_valid t = true ->
  (match n with 0 => 0 | _ => e * (i + n - 1) + element_size c t end) <= List.length b ->
  (Z.of_nat (List.length b) < 2 ^ 63)%Z ->
  read_loop c t b (Z.of_nat e) (Z.of_nat i) n =
  Ok (map (fun k => decode_elem c t b (e * k)) (seq i n)).
Proof.
  intros Hc Ht. revert i; induction n as [|n IH]; intros i Hb H63; [reflexivity|].
  pose proof (element_size_pos c t Hc Ht).
  cbn [read_loop seq map].
  rewrite i64_id by (unfold in_i64; nia).
  replace (Z.of_nat e * Z.of_nat i)%Z with (Z.of_nat (e * i)) by lia.
  rewrite get_elem_ok by (auto; nia). cbn [bind].
  replace (Z.of_nat i + 1)%Z with (Z.of_nat (S i)) by lia.
  rewrite IH; [reflexivity| |auto]. destruct n; [lia|]. nia.
Qed.

Lemma kind_ct_valid k c t :
  kind_ct k = Some (c, t) -> ct_valid c = true /\ at_valid t = true.
Proof.
  destruct k; cbn; intros H; try discriminate.
  - destruct (ct_valid c0 && at_valid t0) eqn:E; [|discriminate].
    injection H as <- <-. apply andb_prop in E. exact E.
  - injection H as <- <-. auto.
  - injection H as <- <-. auto.
Qed.

Lemma TypeOf_kind k c t vs :
  kind_ct k = Some (c, t) -> TypeOf (mkSlice k vs) = Ok (c, t, zlen vs).
Proof.
  destruct k; cbn; intros H; try discriminate.
  - destruct (ct_valid c0 && at_valid t0) eqn:E; [|discriminate].
    injection H as <- <-. reflexivity.
  - injection H as <- <-. reflexivity.
  - injection H as <- <-. reflexivity.
Qed.

Lemma copy_bytes_spec b (new : bytes) :
  List.length new <= List.length b ->
  copy b new = new ++ skipn (List.length new) b.
Proof.
  intros H. unfold copy. rewrite Nat.min_r by lia. rewrite firstn_all. reflexivity.
Qed.

(** The Ubyte scalar case of Write: copy is a store with stride 1. *)
Lemma copy_stored b vs :
  Forall (wf_elem CUbyte AScalar) vs -> List.length vs <= List.length b ->
  stored_all CUbyte AScalar b (copy b (map (fun v => z2b (hd 0%Z v)) vs)) 1 vs.
Proof.
  intros Hwf Hl. rewrite copy_bytes_spec by (rewrite map_length; lia).
  rewrite map_length. split.
  - rewrite app_length, map_length, skipn_length. lia.
  - intros p Hp. rewrite Nat.div_1_r, Nat.mod_1_r.
    destruct (Nat.lt_ge_cases p (List.length vs)) as [H|H].
    + rewrite nth_error_app1 by (rewrite map_length; lia).
      destruct (nth_error vs p) as [v|] eqn:E.
      2:{ apply nth_error_None in E. lia. }
      rewrite (map_nth_error _ _ _ E).
      rewrite Forall_forall in Hwf. specialize (Hwf v (nth_error_In _ _ E)).
      destruct Hwf as [Hv _]. destruct v as [|x [|]]; try discriminate Hv.
      cbn. rewrite Z.div_1_r. reflexivity.
    + rewrite nth_error_app2 by (rewrite map_length; lia).
      rewrite map_length, nth_error_skipn'.
      replace (List.length vs + (p - List.length vs)) with p by lia.
      destruct (nth_error vs p) eqn:E; auto.
      assert (nth_error vs p <> None) by congruence. apply nth_error_Some in H0. lia.
Qed.

Theorem Write_ok k c t vs b stride :
  kind_ct k = Some (c, t) -> Forall (wf_elem c t) vs ->
  (stride = 0 \/ element_size c t <= stride) ->
  (k = SK CUbyte AScalar -> stride <= 1) ->
  (Z.of_nat (List.length b) < 2 ^ 63)%Z ->
  needed c t (eff_stride c t stride) (List.length vs) <= List.length b ->
  exists b', Write b (Z.of_nat stride) (mkSlice k vs) = Ok b' /\
             stored_all c t b b' (eff_stride c t stride) vs.
Proof.
  intros Hk Hwf Hst Hub H63 Hn.
  destruct (kind_ct_valid _ _ _ Hk) as [Hc Ht].
  unfold Write. rewrite (TypeOf_kind _ _ _ _ Hk). cbn [bind].
  pose proof (element_size_pos c t Hc Ht) as Hpos.
  destruct vs as [|v vs].
  { cbn. exists b. split; auto. split; auto. intros p Hp.
    destruct (p / eff_stride c t stride); reflexivity. }
  set (w := v :: vs) in *.
  assert (Hw : (zlen w =? 0)%Z = false) by (unfold w; rewrite zlen_cons; pose proof (zlen_nonneg vs); lia).
  rewrite Hw. rewrite SizeOfElement_nat by auto.
  set (e := eff_stride c t stride) in *.
  assert (He : (if (Z.of_nat stride =? 0)%Z then Z.of_nat (element_size c t) else Z.of_nat stride) = Z.of_nat e).
  { unfold e, eff_stride. destruct (stride =? 0) eqn:E; destruct (Z.of_nat stride =? 0)%Z eqn:E'; auto; lia. }
  rewrite He.
  assert (Hes : element_size c t <= e) by (unfold e, eff_stride; destruct (stride =? 0) eqn:E; lia).
  assert (Hneed : e * (List.length w - 1) + element_size c t <= List.length b).
  { unfold w in Hn |- *. cbn [List.length needed] in Hn |- *. nia. }
  assert (Hlw : 0 < List.length w) by (unfold w; cbn; lia).
  rewrite (i64_id (Z.of_nat e * (zlen w - 1))) by (unfold in_i64, zlen; nia).
  rewrite i64_id by (unfold in_i64, zlen; nia).
  destruct (zlen b <? Z.of_nat e * (zlen w - 1) + Z.of_nat (element_size c t))%Z eqn:Eshort.
  { unfold zlen in Eshort. nia. }
  cbn [sk els].
  destruct (write_loop_spec c t b e 0 w Hc Ht Hwf Hes) as (b' & P & L & N); auto.
  change (Z.of_nat 0) with 0%Z in P.
  assert (Hloop : exists b', write_loop c t b (Z.of_nat e) 0 w = Ok b' /\ stored_all c t b b' e w).
  { exists b'. split; auto. split; auto. intros p Hp. rewrite N.
    cbn [Nat.leb]. rewrite Nat.sub_0_r. reflexivity. }
  destruct k as [ck tk| | | |]; try exact Hloop.
  destruct ck, tk; try exact Hloop.
  (* []uint8 *)
  injection Hk as <- <-.
  eexists. split; [reflexivity|].
  assert (e = 1) as ->.
  { unfold e, eff_stride. destruct (stride =? 0) eqn:E; [reflexivity|].
    specialize (Hub eq_refl). lia. }
  apply copy_stored; auto. cbn [element_size comp_bytes] in Hneed. lia.
Qed.

Theorem Write_short k c t vs b stride :
  kind_ct k = Some (c, t) ->
  (Z.of_nat (needed c t (eff_stride c t stride) (List.length vs)) < 2 ^ 63)%Z ->
  List.length b < needed c t (eff_stride c t stride) (List.length vs) ->
  Write b (Z.of_nat stride) (mkSlice k vs) = Err ErrShortBuffer.
Proof.
  intros Hk H63 Hn.
  destruct (kind_ct_valid _ _ _ Hk) as [Hc Ht].
  unfold Write. rewrite (TypeOf_kind _ _ _ _ Hk). cbn [bind].
  destruct vs as [|v vs]; [cbn in Hn; lia|].
  set (w := v :: vs) in *.
  assert (Hw : (zlen w =? 0)%Z = false) by (unfold w; rewrite zlen_cons; pose proof (zlen_nonneg vs); lia).
  rewrite Hw. rewrite SizeOfElement_nat by auto.
  set (e := eff_stride c t stride) in *.
  assert (He : (if (Z.of_nat stride =? 0)%Z then Z.of_nat (element_size c t) else Z.of_nat stride) = Z.of_nat e).
  { unfold e, eff_stride. destruct (stride =? 0) eqn:E; destruct (Z.of_nat stride =? 0)%Z eqn:E'; auto; lia. }
  rewrite He.
  assert (Hneed : needed c t e (List.length w) = e * (List.length w - 1) + element_size c t).
  { unfold w. cbn [List.length needed]. f_equal. f_equal. lia. }
  assert (Hlw : 0 < List.length w) by (unfold w; cbn; lia).
  rewrite (i64_id (Z.of_nat e * (zlen w - 1))) by (unfold in_i64, zlen; nia).
  rewrite i64_id by (unfold in_i64, zlen; nia).
  destruct (zlen b <? Z.of_nat e * (zlen w - 1) + Z.of_nat (element_size c t))%Z eqn:Eshort; auto.
  unfold zlen in Eshort. nia.
Qed.

(** ** Read *)
Lemma Read_high c t e n :
  ct_valid c = true -> at_valid t = true ->
  (Z.of_nat (e * n) < 2 ^ 63)%Z -> (Z.of_nat e < 2 ^ 63)%Z ->
  let size := Z.of_nat (element_size c t) in
  (Z.of_nat e * (Z.of_nat n - 1) + size < 2 ^ 63)%Z ->
  (if (Z.of_nat e =? size)%Z then i64 (Z.of_nat n * Z.of_nat e)
   else i64 (i64 (Z.of_nat n * Z.of_nat e) - i64 (Z.of_nat e - size)))%Z
  = (Z.of_nat e * (Z.of_nat n - 1) + size)%Z.
Proof.
  intros Hc Ht H63 He size H63'.
  pose proof (element_size_pos c t Hc Ht).
  assert (Hs : (Z.of_nat (element_size c t) <= 64)%Z).
  { clear. destruct c, t; vm_compute; discriminate. }
  rewrite (i64_id (Z.of_nat n * Z.of_nat e)) by (unfold in_i64; nia).
  destruct (Z.of_nat e =? size)%Z eqn:E.
  - assert (Z.of_nat e = size) by lia. nia.
  - rewrite (i64_id (Z.of_nat e - size)) by (unfold in_i64, size; nia).
    rewrite i64_id by (unfold in_i64, size; nia). nia.
Qed.

(** Strides and extents that fit Go's int. *)
Lemma Read_unfold k c t old b stride :
  kind_ct k = Some (c, t) ->
  let e := eff_stride c t stride in
  let n := List.length old in
  fits c t e n ->
  Read b (Z.of_nat stride) (mkSlice k old) =
  if (zlen b <? Z.of_nat e * (Z.of_nat n - 1) + Z.of_nat (element_size c t))%Z
  then Err ErrShortBuffer else
  match k with
  | SK CByte AScalar =>
      if (zlen old <? zlen b)%Z then Panic
      else Ok (mkSlice k (copy old (map (fun x => [b2z x]) b)))
  | SK CUbyte AScalar =>
      if negb (Z.of_nat e =? 1)%Z
      then Ok (mkSlice k (copy old (map (fun x => [b2z x]) b)))
      else vs <- read_loop c t b (Z.of_nat e) 0 n ;; Ok (mkSlice k vs)
  | _ => vs <- read_loop c t b (Z.of_nat e) 0 n ;; Ok (mkSlice k vs)
  end.
Proof.
  intros Hk e n (F1 & F2 & F3).
  destruct (kind_ct_valid _ _ _ Hk) as [Hc Ht].
  unfold Read. rewrite (TypeOf_kind _ _ _ _ Hk). cbn [bind].
  rewrite SizeOfElement_nat by auto.
  assert (He : (if (Z.of_nat stride =? 0)%Z then Z.of_nat (element_size c t) else Z.of_nat stride) = Z.of_nat e).
  { unfold e, eff_stride. destruct (stride =? 0) eqn:E; destruct (Z.of_nat stride =? 0)%Z eqn:E'; auto; lia. }
  rewrite He.
  change (zlen old) with (Z.of_nat n) at 1 2.
  rewrite Read_high; auto.
  assert (Hs : (Z.of_nat (element_size c t) <= 64)%Z).
  { clear. destruct c, t; vm_compute; discriminate. }
  unfold needed in F3. destruct n; nia.
Qed.

Lemma Read_strided k c t old b stride :
  kind_ct k = Some (c, t) -> reads_strided k stride ->
  let e := eff_stride c t stride in
  let n := List.length old in
  fits c t e n -> (Z.of_nat (List.length b) < 2 ^ 63)%Z ->
  (n = 0 -> element_size c t <= e) ->
  needed c t e n <= List.length b ->
  Read b (Z.of_nat stride) (mkSlice k old) =
  Ok (mkSlice k (map (fun i => decode_elem c t b (e * i)) (seq 0 n))).
Proof.
  intros Hk [Hi8 Hu8] e n F H63 Hn0 Hn.
  destruct (kind_ct_valid _ _ _ Hk) as [Hc Ht].
  rewrite Read_unfold with (c := c) (t := t) by auto. fold e n.
  destruct (zlen b <? Z.of_nat e * (Z.of_nat n - 1) + Z.of_nat (element_size c t))%Z eqn:E.
  { exfalso. unfold zlen in E. unfold needed in Hn. clearbody n.
    destruct n; [specialize (Hn0 eq_refl)|]; nia. }
  assert (Hloop : read_loop c t b (Z.of_nat e) 0 n =
    Ok (map (fun i => decode_elem c t b (e * i)) (seq 0 n))).
  { change 0%Z with (Z.of_nat 0). apply read_loop_spec; auto.
    unfold needed in Hn. destruct n; [lia|]. nia. }
  rewrite Hloop. cbn [bind].
  destruct k as [ck tk| | | |]; try reflexivity.
  destruct ck, tk; try reflexivity; try (exfalso; apply Hi8; reflexivity).
  injection Hk as <- <-.
  assert (He : e = 1).
  { unfold e, eff_stride. destruct (stride =? 0) eqn:E'; [reflexivity|]. specialize (Hu8 eq_refl). lia. }
  rewrite He. reflexivity.
Qed.

Lemma Read_short k c t old b stride :
  kind_ct k = Some (c, t) ->
  let e := eff_stride c t stride in
  let n := List.length old in
  fits c t e n ->
  List.length b < needed c t e n ->
  Read b (Z.of_nat stride) (mkSlice k old) = Err ErrShortBuffer.
Proof.
  intros Hk e n F Hn.
  rewrite Read_unfold with (c := c) (t := t) by auto. fold e n.
  destruct (zlen b <? Z.of_nat e * (Z.of_nat n - 1) + Z.of_nat (element_size c t))%Z eqn:E; auto.
  exfalso. unfold zlen in E. unfold needed in Hn. destruct n; nia.
Qed.

(** Elements stored by [stored_all] are found by the strided decoder. *)
Lemma stored_all_stored_at c t b b' e vs i v :
  ct_valid c = true -> at_valid t = true ->
  element_size c t <= e -> stored_all c t b b' e vs ->
  needed c t e (List.length vs) <= List.length b ->
  nth_error vs i = Some v -> stored_at c t b' (e * i) v.
Proof.
  intros Hc Ht He [Hl Hs] Hn Hi j y Hj.
  pose proof (encoded_byte_bound _ _ _ _ _ Hc Ht Hj) as Hjb.
  assert (Hi' : i < List.length vs) by (apply nth_error_Some; congruence).
  assert (e * i + j < List.length b).
  { unfold needed in Hn. destruct (List.length vs); [lia|]. nia. }
  rewrite Hs by auto.
  assert (Hd : (e * i + j) / e = i).
  { rewrite Nat.mul_comm, Nat.div_add_l by lia. rewrite Nat.div_small by lia. lia. }
  assert (Hm : (e * i + j) mod e = j).
  { rewrite Nat.add_comm, Nat.mul_comm, Nat.mod_add by lia. apply Nat.mod_small. lia. }
  rewrite Hd, Hm, Hi, Hj. reflexivity.
Qed.

Lemma stored_all_decode c t b b' e vs :
  ct_valid c = true -> at_valid t = true -> Forall (wf_elem c t) vs ->
  element_size c t <= e -> stored_all c t b b' e vs ->
  needed c t e (List.length vs) <= List.length b ->
  map (fun i => decode_elem c t b' (e * i)) (seq 0 (List.length vs)) = vs.
Proof.
  intros Hc Ht Hwf He Hs Hn.
  apply nth_error_ext. intros i.
  destruct (nth_error vs i) as [v|] eqn:E.
  - assert (Hi' : i < List.length vs) by (apply nth_error_Some; congruence).
    rewrite (map_nth_error (fun i => decode_elem c t b' (e * i)) i (seq 0 (List.length vs)) (d := i)).
    2:{ rewrite nth_error_nth' with (d := 0) by (rewrite seq_length; auto).
        rewrite seq_nth by auto. reflexivity. }
    f_equal. apply stored_at_decode; auto.
    + rewrite Forall_forall in Hwf. apply Hwf. eapply nth_error_In; eauto.
    + destruct Hs as [Hl _]. rewrite Hl. unfold needed in Hn. destruct (List.length vs); [lia|]. nia.
    + eapply stored_all_stored_at; eauto.
  - apply nth_error_None. rewrite map_length, seq_length. apply nth_error_None. auto.
Qed.

Lemma copy_all {A} (old new : list A) :
  List.length old = List.length new -> copy old new = new.
Proof.
  intros H. unfold copy. rewrite H, Nat.min_id, firstn_all.
  rewrite <- H, skipn_all. apply app_nil_r.
Qed.

(** Round trip. *)
Theorem Read_Write k c t vs old b stride b' :
  kind_ct k = Some (c, t) -> Forall (wf_elem c t) vs ->
  (stride = 0 \/ element_size c t <= stride) ->
  reads_strided k stride ->
  fits c t (eff_stride c t stride) (List.length vs) ->
  (Z.of_nat (List.length b) < 2 ^ 63)%Z ->
  List.length old = List.length vs ->
  Write b (Z.of_nat stride) (mkSlice k vs) = Ok b' ->
  Read b' (Z.of_nat stride) (mkSlice k old) = Ok (mkSlice k vs).
Proof.
  intros Hk Hwf Hst Hr F H63 Hold HW.
  destruct (kind_ct_valid _ _ _ Hk) as [Hc Ht].
  pose proof (element_size_pos c t Hc Ht) as Hpos.
  set (e := eff_stride c t stride) in *.
  assert (Hes : element_size c t <= e) by (unfold e, eff_stride; destruct (stride =? 0) eqn:E; lia).
  destruct (Nat.lt_ge_cases (List.length b) (needed c t e (List.length vs))) as [Hlt|Hge].
  { rewrite (Write_short k c t) in HW; auto; [discriminate|]. destruct F as (_ & _ & F). exact F. }
  destruct (Write_ok k c t vs b stride) as (b1 & P & S); auto.
  { destruct Hr as [_ Hr]. exact Hr. }
  assert (b1 = b') as -> by congruence.
  destruct S as [SL SN].
  rewrite (Read_strided k c t); auto.
  - rewrite Hold. fold e.
    f_equal. f_equal. apply stored_all_decode with (b := b); auto. split; auto.
  - fold e. rewrite Hold. exact F.
  - rewrite SL. exact H63.
  - fold e. rewrite Hold, SL. exact Hge.
Qed.

(** ** Panic freedom *)
Theorem Read_no_panic k c t old b stride :
  kind_ct k = Some (c, t) -> k <> SK CByte AScalar ->
  fits c t (eff_stride c t stride) (List.length old) ->
  (Z.of_nat (List.length b) < 2 ^ 63)%Z ->
  Read b (Z.of_nat stride) (mkSlice k old) <> Panic.
Proof.
  intros Hk Hi8 F H63.
  destruct (kind_ct_valid _ _ _ Hk) as [Hc Ht].
  rewrite Read_unfold with (c := c) (t := t) by auto.
  set (e := eff_stride c t stride) in *. set (n := List.length old) in *.
  destruct (zlen b <? Z.of_nat e * (Z.of_nat n - 1) + Z.of_nat (element_size c t))%Z eqn:E; [discriminate|].
  assert (Hloop : read_loop c t b (Z.of_nat e) 0 n =
    Ok (map (fun i => decode_elem c t b (e * i)) (seq 0 n))).
  { change 0%Z with (Z.of_nat 0). apply read_loop_spec; auto.
    unfold zlen in E. destruct n; [lia|]. nia. }
  rewrite Hloop. cbn [bind].
  destruct k as [ck tk| | | |]; try discriminate.
  destruct ck, tk; try discriminate; try (exfalso; apply Hi8; reflexivity).
  destruct (negb (Z.of_nat e =? 1)%Z); discriminate.
Qed.

(** The []int8 case panics exactly when b is longer than data. *)
Theorem Read_int8_panics old b stride :
  fits CByte AScalar (eff_stride CByte AScalar stride) (List.length old) ->
  needed CByte AScalar (eff_stride CByte AScalar stride) (List.length old) <= List.length b ->
  0 < List.length old ->
  (Read b (Z.of_nat stride) (mkSlice (SK CByte AScalar) old) = Panic <->
   List.length old < List.length b).
Proof.
  intros F Hn H0.
  rewrite Read_unfold with (c := CByte) (t := AScalar) by auto.
  set (e := eff_stride CByte AScalar stride) in *. set (n := List.length old) in *.
  destruct (zlen b <? Z.of_nat e * (Z.of_nat n - 1) + Z.of_nat (element_size CByte AScalar))%Z eqn:E.
  { exfalso. unfold zlen in E. unfold needed in Hn. destruct n; nia. }
  destruct (zlen old <? zlen b)%Z eqn:E2; unfold zlen in E2; fold n in E2; split; intros; auto; try lia; discriminate.
Qed.

Theorem Write_no_panic k c t vs b stride :
  kind_ct k = Some (c, t) -> Forall (wf_elem c t) vs ->
  (stride = 0 \/ element_size c t <= stride) ->
  fits c t (eff_stride c t stride) (List.length vs) ->
  (Z.of_nat (List.length b) < 2 ^ 63)%Z ->
  Write b (Z.of_nat stride) (mkSlice k vs) <> Panic.
Proof.
  intros Hk Hwf Hst F H63.
  destruct (kind_ct_valid _ _ _ Hk) as [Hc Ht].
  set (e := eff_stride c t stride) in *.
  destruct (Nat.lt_ge_cases (List.length b) (needed c t e (List.length vs))) as [Hlt|Hge].
  { rewrite (Write_short k c t); auto; [discriminate|]. destruct F as (_ & _ & F). exact F. }
  assert (HD : k = SK CUbyte AScalar \/ k <> SK CUbyte AScalar).
  { destruct k as [ck tk| | | |]; try (right; discriminate).
    destruct ck, tk; try (right; discriminate). left; reflexivity. }
  destruct HD as [->|Hne].
  - injection Hk as <- <-. unfold Write. cbn [TypeOf sk els ct_valid at_valid andb bind].
    destruct (zlen vs =? 0)%Z; [discriminate|].
    match goal with |- context[(zlen b <? ?x)%Z] => destruct (zlen b <? x)%Z end; discriminate.
  - destruct (Write_ok k c t vs b stride) as (b1 & P & S); auto; [|congruence].
    intros Hk'. congruence.
Qed.

(** ** Component accessors in terms of (row, column) *)
Lemma flat_rc c t r k :
  at_valid t = true -> r < rows t -> k < columns t ->
  r * columns t + k < rows t * columns t /\
  flat_offset c t (r * columns t + k) = component_offset c t r k.
Proof.
  intros Ht Hr Hk. split; [nia|].
  unfold flat_offset. rewrite Nat.div_add_l by lia. rewrite (Nat.div_small k) by lia.
  rewrite (Nat.add_comm (r * columns t) k), Nat.mod_add by lia. rewrite (Nat.mod_small k) by lia.
  rewrite Nat.add_0_r. reflexivity.
Qed.

Theorem component_layout c t b pos v :
  ct_valid c = true -> at_valid t = true -> wf_elem c t v ->
  pos + element_size c t <= List.length b ->
  exists b', put_elem c t b (Z.of_nat pos) v = Ok b' /\
    List.length b' = List.length b /\
    (forall r k, r < rows t -> k < columns t ->
       sub b' (pos + component_offset c t r k) (comp_bytes c) =
       le_bytes (comp_bytes c) (nth (r * columns t + k) v 0%Z)) /\
    (forall p,
       (forall r k, r < rows t -> k < columns t ->
          p < pos + component_offset c t r k \/
          pos + component_offset c t r k + comp_bytes c <= p) ->
       nth_error b' p = nth_error b p) /\
    get_elem c t b' (Z.of_nat pos) = Ok v.
Proof.
  intros Hc Ht Hwf Hb.
  destruct (put_elem_spec c t b pos v) as (b' & H1 & H2 & H3); auto.
  exists b'. split; auto. split; auto. split; [|split].
  - intros r k Hr Hk. destruct (flat_rc c t r k) as [Hf Ho]; auto. rewrite <- Ho.
    apply nth_error_ext. intros i. rewrite nth_error_le_bytes, nth_error_sub.
    destruct (i <? comp_bytes c) eqn:E; auto.
    rewrite H3. destruct (pos <=? _) eqn:E2; [|lia].
    replace (_ - pos) with (flat_offset c t (r * columns t + k) + i) by lia.
    unfold encoded_byte. rewrite byte_role_flat by (auto; lia). reflexivity.
  - intros p Hp. rewrite H3. destruct (pos <=? p) eqn:E; auto.
    unfold encoded_byte. destruct (byte_role c t (p - pos)) as [[f k]|] eqn:E2; auto.
    exfalso. destruct (byte_role_bound _ _ _ _ _ Hc Ht E2) as (_ & Hf & Hk).
    apply byte_role_inv in E2; auto.
    assert (Hcol : columns t <> 0) by (destruct t; try discriminate; cbn; lia).
    assert (Hr : f / columns t < rows t) by (apply Nat.div_lt_upper_bound; lia).
    assert (Hm : f mod columns t < columns t) by (apply Nat.mod_upper_bound; lia).
    specialize (Hp _ _ Hr Hm). unfold flat_offset in E2. lia.
  - rewrite get_elem_ok by (auto; lia). f_equal.
    apply stored_at_decode; auto; [lia|].
    intros j y Hj. rewrite H3. destruct (pos <=? pos + j) eqn:E; [|lia].
    replace (pos + j - pos) with j by lia. rewrite Hj. reflexivity.
Qed.

(** []int8 with a buffer exactly as long as the data. *)
Theorem Read_int8_exact old b stride :
  stride <= 1 -> (Z.of_nat (List.length b) < 2 ^ 63)%Z -> List.length b = List.length old ->
  Read b (Z.of_nat stride) (mkSlice (SK CByte AScalar) old) =
  Ok (mkSlice (SK CByte AScalar) (map (fun i => decode_elem CByte AScalar b (1 * i)) (seq 0 (List.length old)))).
Proof.
  intros Hs H63 Hl.
  assert (He : eff_stride CByte AScalar stride = 1).
  { unfold eff_stride. destruct (stride =? 0) eqn:E; [reflexivity|lia]. }
  rewrite Read_unfold with (c := CByte) (t := AScalar); auto.
  2:{ rewrite He. unfold fits. destruct (List.length old); cbn [needed element_size comp_bytes]; lia. }
  rewrite He.
  destruct (zlen b <? Z.of_nat 1 * (Z.of_nat (List.length old) - 1) + Z.of_nat (element_size CByte AScalar))%Z eqn:E.
  { unfold zlen in E. cbn [element_size comp_bytes] in E. lia. }
  cbn [sk els]. destruct (zlen old <? zlen b)%Z eqn:E2; [unfold zlen in E2; lia|].
  f_equal. f_equal. rewrite copy_all by (rewrite map_length; auto).
  rewrite <- Hl. clear. induction b as [|x b IH]; auto.
  cbn [map List.length seq]. rewrite <- seq_shift, map_map. f_equal.
  - unfold decode_elem, flat_offset, component_offset. cbn. rewrite Z.add_0_r. reflexivity.
  - rewrite IH. apply map_ext. intros i. unfold decode_elem. cbn [rows columns Nat.mul seq map Nat.add].
    f_equal.
Qed.
