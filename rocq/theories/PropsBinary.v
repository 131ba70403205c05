(** Properties of package binary: C01-C07, C54. *)
From Verif Require Import BaseFacts Types Binary SpecLayout BinaryProofs SliceProofs.

(** ** C01 *)
Theorem C01_component_layout :
  forall c t b pos v,
  ct_valid c = true -> at_valid t = true -> wf_elem c t v ->
  (pos + element_size c t <= List.length b)%nat ->
  exists b', put_elem c t b (Z.of_nat pos) v = Ok b' /\
    List.length b' = List.length b /\
    (* component (r, k) is little-endian at its column-major offset *)
    (forall r k, (r < rows t)%nat -> (k < columns t)%nat ->
       sub b' (pos + component_offset c t r k) (comp_bytes c) =
       le_bytes (comp_bytes c) (nth (r * columns t + k) v 0)) /\
    (* every other byte is untouched *)
    (forall p,
       (forall r k, (r < rows t)%nat -> (k < columns t)%nat ->
          (p < pos + component_offset c t r k)%nat \/
          (pos + component_offset c t r k + comp_bytes c <= p)%nat) ->
       nth_error b' p = nth_error b p) /\
    (* and the element reads back *)
    get_elem c t b' (Z.of_nat pos) = Ok v.
Proof. exact component_layout. Qed.
Print Assumptions C01_component_layout.

(** Columns of multi-column types start at multiples of 4 bytes. *)
Theorem C01_column_alignment :
  forall c t k, ct_valid c = true -> at_valid t = true -> (component_offset c t 0 k mod 4 = 0)%nat.
Proof.
  intros c t k _ _. unfold component_offset, column_stride, align4.
  cbn [Nat.mul]. rewrite Nat.add_0_r, Nat.mul_assoc. apply Nat.mod_mul. lia.
Qed.
Print Assumptions C01_column_alignment.

(** A [3][3]uint8 into dirty memory: columns at 0, 4 and 8, padding kept. *)
Example C01_example :
  put_elem CUbyte AMat3 (repeat "x"%char 14) 1
    [1;2;3; 4;5;6; 7;8;9] =
  Ok (map z2b [120; 1;4;7;120; 2;5;8;120; 3;6;9;120; 120]).
Proof. vm_compute. reflexivity. Qed.
Example C01_example_hyp :
  wf_elem CUbyte AMat3 [1;2;3; 4;5;6; 7;8;9] /\
  (1 + element_size CUbyte AMat3 <= List.length (repeat "x"%char 14))%nat.
Proof. split; [split; [reflexivity|]|vm_compute; lia]. repeat constructor; cbn; lia. Qed.

(** ** C02 *)
Theorem C02_write_partial :
  forall k c t vs b stride,
  kind_ct k = Some (c, t) -> Forall (wf_elem c t) vs ->
  (stride = 0 \/ element_size c t <= stride)%nat ->
  (k = SK CUbyte AScalar -> (stride <= 1)%nat) ->
  Z.of_nat (List.length b) < 2 ^ 63 ->
  (needed c t (eff_stride c t stride) (List.length vs) <= List.length b)%nat ->
  exists b', Write b (Z.of_nat stride) (mkSlice k vs) = Ok b' /\
             stored_all c t b b' (eff_stride c t stride) vs.
Proof. exact Write_ok. Qed.
Print Assumptions C02_write_partial.

Theorem C02_write_short :
  forall k c t vs b stride,
  kind_ct k = Some (c, t) ->
  Z.of_nat (needed c t (eff_stride c t stride) (List.length vs)) < 2 ^ 63 ->
  (List.length b < needed c t (eff_stride c t stride) (List.length vs))%nat ->
  Write b (Z.of_nat stride) (mkSlice k vs) = Err ErrShortBuffer.
Proof. exact Write_short. Qed.
Print Assumptions C02_write_short.

(** The missing case: a []uint8 is copied packed whatever the stride. *)
Theorem C02_write_uint8_refuted :
  exists vs b stride b',
    Forall (wf_elem CUbyte AScalar) vs /\ (element_size CUbyte AScalar <= stride)%nat /\
    (needed CUbyte AScalar stride (List.length vs) <= List.length b)%nat /\
    Write b (Z.of_nat stride) (mkSlice (SK CUbyte AScalar) vs) = Ok b' /\
    ~ stored_all CUbyte AScalar b b' stride vs.
Proof.
  exists [[1];[2]], (zeros 4), 2%nat, (map z2b [1;2;0;0]).
  split; [repeat constructor; cbn; lia|]. split; [cbn; lia|]. split; [cbn; lia|].
  split; [vm_compute; reflexivity|].
  intros [_ H]. specialize (H 1%nat ltac:(cbn; lia)). vm_compute in H. discriminate.
Qed.
Print Assumptions C02_write_uint8_refuted.

Example C02_example :
  Write (repeat "x"%char 18) 10 (mkSlice (SK CUshort AVec3) [[1;2;772];[5;6;65535]]) =
  Ok (map z2b [1;0;2;0;4;3;120;120;120;120; 5;0;6;0;255;255;120;120]).
Proof. vm_compute. reflexivity. Qed.
Example C02_example_short :
  Write (repeat "x"%char 17) 10 (mkSlice (SK CUshort AVec3) [[1;2;772];[5;6;65535]]) =
  Err ErrShortBuffer.
Proof. vm_compute. reflexivity. Qed.

(** ** C03 *)
Theorem C03_read_write_partial :
  forall k c t vs old b stride b',
  kind_ct k = Some (c, t) -> Forall (wf_elem c t) vs ->
  (stride = 0 \/ element_size c t <= stride)%nat ->
  reads_strided k stride ->
  fits c t (eff_stride c t stride) (List.length vs) ->
  Z.of_nat (List.length b) < 2 ^ 63 ->
  List.length old = List.length vs ->
  Write b (Z.of_nat stride) (mkSlice k vs) = Ok b' ->
  Read b' (Z.of_nat stride) (mkSlice k old) = Ok (mkSlice k vs).
Proof. exact Read_Write. Qed.
Print Assumptions C03_read_write_partial.

(** []int8 into a buffer of exactly its size also round trips. *)
Theorem C03_int8_exact_partial :
  forall vs old b stride b',
  Forall (wf_elem CByte AScalar) vs -> (stride <= 1)%nat ->
  Z.of_nat (List.length b) < 2 ^ 63 ->
  List.length old = List.length vs -> List.length b = List.length vs ->
  Write b (Z.of_nat stride) (mkSlice (SK CByte AScalar) vs) = Ok b' ->
  Read b' (Z.of_nat stride) (mkSlice (SK CByte AScalar) old) = Ok (mkSlice (SK CByte AScalar) vs).
Proof.
  intros vs old b stride b' Hwf Hs H63 Ho Hb HW.
  assert (He : eff_stride CByte AScalar stride = 1%nat).
  { unfold eff_stride. destruct (stride =? 0)%nat eqn:E; [reflexivity|lia]. }
  assert (Hn : (needed CByte AScalar 1 (List.length vs) <= List.length b)%nat).
  { rewrite Hb. destruct (List.length vs); cbn [needed element_size comp_bytes]; lia. }
  destruct (Write_ok (SK CByte AScalar) CByte AScalar vs b stride) as (b1 & P & S); auto.
  { cbn. lia. } { rewrite He. auto. }
  assert (b1 = b') as -> by congruence. rewrite He in S.
  rewrite Read_int8_exact by (destruct S; auto; lia).
  f_equal. f_equal. rewrite Ho. apply stored_all_decode with (b := b); auto.
Qed.
Print Assumptions C03_int8_exact_partial.

Theorem C03_read_write_refuted :
  (* []int8 into a larger buffer: Read panics *)
  (exists vs b b',
    Forall (wf_elem CByte AScalar) vs /\
    Write b 0 (mkSlice (SK CByte AScalar) vs) = Ok b' /\
    Read b' 0 (mkSlice (SK CByte AScalar) vs) = Panic) /\
  (* empty data and a stride smaller than the element: Write accepts, Read
     reports a short buffer *)
  (exists b, Write [] 1 (mkSlice (SK CFloat AScalar) []) = Ok b /\
             Read b 1 (mkSlice (SK CFloat AScalar) []) = Err ErrShortBuffer).
Proof.
  split.
  - exists [[1]], (zeros 2), (map z2b [1; 0]). split; [repeat constructor; cbn; lia|].
    split; vm_compute; reflexivity.
  - exists []. split; vm_compute; reflexivity.
Qed.
Print Assumptions C03_read_write_refuted.

Example C03_example :
  let d := mkSlice (SK CFloat AMat2) [[1065353216;1;2;3];[4;5;6;4294967295]] in
  bind (Write (repeat "x"%char 40) 20 d) (fun b => Read b 20 (mkSlice (SK CFloat AMat2) [[];[]])) = Ok d.
Proof. vm_compute. reflexivity. Qed.

(** ** C04 *)
Theorem C04_read_strided_partial :
  forall k c t old b stride,
  kind_ct k = Some (c, t) -> reads_strided k stride ->
  fits c t (eff_stride c t stride) (List.length old) ->
  Z.of_nat (List.length b) < 2 ^ 63 ->
  (List.length old = 0%nat -> (element_size c t <= eff_stride c t stride)%nat) ->
  (needed c t (eff_stride c t stride) (List.length old) <= List.length b)%nat ->
  exists vs, Read b (Z.of_nat stride) (mkSlice k old) = Ok (mkSlice k vs) /\
    List.length vs = List.length old /\
    forall i v, nth_error vs i = Some v ->
      wf_elem c t v /\ stored_at c t b (eff_stride c t stride * i) v.
Proof.
  intros k c t old b stride Hk Hr F H63 H0 Hn.
  destruct (kind_ct_valid _ _ _ Hk) as [Hc Ht].
  eexists. split; [apply Read_strided with (c := c) (t := t); auto|].
  split; [rewrite map_length, seq_length; reflexivity|].
  intros i v Hi. rewrite nth_error_map in Hi.
  destruct (nth_error (seq 0 (List.length old)) i) as [x|] eqn:E; [|discriminate].
  assert (Hlt : (i < List.length old)%nat).
  { assert (nth_error (seq 0 (List.length old)) i <> None) by congruence.
    apply nth_error_Some in H. rewrite seq_length in H. exact H. }
  assert (x = i) as ->.
  { rewrite (nth_error_nth' _ 0%nat) in E by (rewrite seq_length; auto).
    rewrite seq_nth in E by auto. cbn in E. congruence. }
  cbn in Hi. injection Hi as <-.
  assert (Hb : (eff_stride c t stride * i + element_size c t <= List.length b)%nat).
  { unfold needed in Hn. destruct (List.length old); [lia|]. nia. }
  split; [apply decode_elem_wf|apply decode_elem_stored]; auto.
Qed.
Print Assumptions C04_read_strided_partial.

Theorem C04_read_short :
  forall k c t old b stride,
  kind_ct k = Some (c, t) ->
  fits c t (eff_stride c t stride) (List.length old) ->
  (List.length b < needed c t (eff_stride c t stride) (List.length old))%nat ->
  Read b (Z.of_nat stride) (mkSlice k old) = Err ErrShortBuffer.
Proof. exact Read_short. Qed.
Print Assumptions C04_read_short.

(** Missing cases: []uint8 with a stride larger than 1, and []int8 with any
    stride, are read as if packed. *)
Theorem C04_read_refuted :
  (exists b stride vs i v, (1 < stride)%nat /\
     Read b (Z.of_nat stride) (mkSlice (SK CUbyte AScalar) [[0];[0]]) = Ok (mkSlice (SK CUbyte AScalar) vs) /\
     nth_error vs i = Some v /\ ~ stored_at CUbyte AScalar b (stride * i) v) /\
  (exists b stride, (1 < stride)%nat /\ (needed CByte AScalar stride 2 <= List.length b)%nat /\
     Read b (Z.of_nat stride) (mkSlice (SK CByte AScalar) [[0];[0]]) = Panic).
Proof.
  split.
  - exists (map z2b [1;9;2]), 2%nat, [[1];[9]], 1%nat, [9].
    split; [lia|]. split; [vm_compute; reflexivity|]. split; [reflexivity|].
    intros H. specialize (H 0%nat (z2b 9) eq_refl). vm_compute in H. discriminate.
  - exists (map z2b [1;9;2]), 2%nat. split; [lia|]. split; [cbn; lia|]. vm_compute. reflexivity.
Qed.
Print Assumptions C04_read_refuted.

Example C04_example :
  Read (map z2b [1;0;2;0;77;77; 3;0;4;1]) 6 (mkSlice (SK CUshort AVec2) [[];[]]) =
  Ok (mkSlice (SK CUshort AVec2) [[1;2];[3;260]]).
Proof. vm_compute. reflexivity. Qed.

(** ** C05 *)
Theorem C05_read_no_panic_partial :
  forall k c t old b stride,
  kind_ct k = Some (c, t) -> k <> SK CByte AScalar ->
  fits c t (eff_stride c t stride) (List.length old) ->
  Z.of_nat (List.length b) < 2 ^ 63 ->
  Read b (Z.of_nat stride) (mkSlice k old) <> Panic.
Proof. exact Read_no_panic. Qed.
Print Assumptions C05_read_no_panic_partial.

Theorem C05_write_no_panic_partial :
  forall k c t vs b stride,
  kind_ct k = Some (c, t) -> Forall (wf_elem c t) vs ->
  (stride = 0 \/ element_size c t <= stride)%nat ->
  fits c t (eff_stride c t stride) (List.length vs) ->
  Z.of_nat (List.length b) < 2 ^ 63 ->
  Write b (Z.of_nat stride) (mkSlice k vs) <> Panic.
Proof. exact Write_no_panic. Qed.
Print Assumptions C05_write_no_panic_partial.

(** []int8: Read panics exactly when the bytes outnumber the data. *)
Theorem C05_read_int8_panics :
  forall old b stride,
  fits CByte AScalar (eff_stride CByte AScalar stride) (List.length old) ->
  (needed CByte AScalar (eff_stride CByte AScalar stride) (List.length old) <= List.length b)%nat ->
  (0 < List.length old)%nat ->
  (Read b (Z.of_nat stride) (mkSlice (SK CByte AScalar) old) = Panic <->
   (List.length old < List.length b)%nat).
Proof. exact Read_int8_panics. Qed.
Print Assumptions C05_read_int8_panics.

Theorem C05_no_panic_refuted :
  (exists b data, wf_slice data /\ Read b 0 data = Panic) /\
  (* an overflowing stride passes the length check and panics *)
  (exists b stride data, 0 <= stride < 2 ^ 63 /\ wf_slice data /\ Write b stride data = Panic) /\
  (exists b stride data, 0 <= stride < 2 ^ 63 /\ wf_slice data /\ Read b stride data = Panic).
Proof.
  assert (W : wf_slice (mkSlice (SK CFloat AScalar) (repeat [0] 5))).
  { exists CFloat, AScalar. split; [reflexivity|]. repeat constructor; cbn; lia. }
  split; [|split].
  - exists (zeros 2), (mkSlice (SK CByte AScalar) [[0]]). split; [|vm_compute; reflexivity].
    exists CByte, AScalar. split; [reflexivity|]. repeat constructor; cbn; lia.
  - exists (zeros 4), (2 ^ 62), (mkSlice (SK CFloat AScalar) (repeat [0] 5)).
    split; [lia|]. split; [exact W|vm_compute; reflexivity].
  - exists (zeros 4), (2 ^ 62), (mkSlice (SK CFloat AScalar) (repeat [0] 5)).
    split; [lia|]. split; [exact W|vm_compute; reflexivity].
Qed.
Print Assumptions C05_no_panic_refuted.

(** ** C06 *)
Theorem C06_make_slice_type_partial :
  forall c t n buf,
  ct_valid c = true -> at_valid t = true -> Z.of_nat (n * mem_size c t) <= max_alloc ->
  (exists s, MakeSlice c t (Z.of_nat n) = Ok s /\ TypeOf s = Ok (c, t, Z.of_nat n)) /\
  ((buf = [] \/ ~ (c = CUint /\ t = AMat3)) ->
   exists s, MakeSliceBuffer c t (Z.of_nat n) buf = Ok s /\ TypeOf s = Ok (c, t, Z.of_nat n)).
Proof.
  intros c t n buf Hc Ht Hn. split.
  - eexists. split; [apply MakeSlice_ok; auto|].
    unfold TypeOf. cbn [sk els]. rewrite Hc, Ht. cbn. unfold zlen. rewrite repeat_length. reflexivity.
  - intros Hx. eexists. split; [apply MakeSliceBuffer_ok; auto|].
    unfold TypeOf. cbn [sk els]. rewrite Hc, Ht. cbn. unfold zlen.
    rewrite map_length, seq_length. reflexivity.
Qed.
Print Assumptions C06_make_slice_type_partial.

Theorem C06_invalid_types_error :
  forall c t n buf,
  ct_valid c && at_valid t = false ->
  (exists e, MakeSliceBuffer c t n buf = Err e) /\ (exists e, MakeSlice c t n = Err e).
Proof. exact MakeSliceBuffer_invalid. Qed.
Print Assumptions C06_invalid_types_error.

(** The missing case: [][3][3]uint32 on a non-empty buffer always panics. *)
Theorem C06_uint_mat3_refuted :
  forall n buf, buf <> [] -> MakeSliceBuffer CUint AMat3 n buf = Panic.
Proof. exact MakeSliceBuffer_uint_mat3. Qed.
Print Assumptions C06_uint_mat3_refuted.

Example C06_example :
  bind (MakeSliceBuffer CUshort AVec3 3 (map z2b [1;0;2;0;3;0;4])) TypeOf = Ok (CUshort, AVec3, 3) /\
  Z.of_nat (3 * mem_size CUshort AVec3) <= max_alloc.
Proof. split; vm_compute; [reflexivity|discriminate]. Qed.
Example C06_example_panic : MakeSliceBuffer CUint AMat3 1 [byte0] = Panic.
Proof. reflexivity. Qed.

(** ** C07 *)
Theorem C07_make_slice_zero :
  forall c t n s, MakeSlice c t n = Ok s -> Forall (Forall (fun x => x = 0)) (els s) /\ zlen (els s) = n.
Proof.
  intros c t n s. unfold MakeSlice. destruct (checkAccessorType c t); cbn [bind]; try discriminate.
  destruct ((n <? 0) || _)%bool eqn:E; [discriminate|]. intros [= <-]. cbn [els]. split.
  - apply Forall_forall. intros x Hx. apply repeat_spec in Hx as ->.
    apply Forall_forall. intros y Hy. apply repeat_spec in Hy. exact Hy.
  - unfold zlen. rewrite repeat_length. lia.
Qed.
Print Assumptions C07_make_slice_zero.

Theorem C07_make_slice_buffer :
  forall c t n buf,
  ct_valid c = true -> at_valid t = true -> Z.of_nat (n * mem_size c t) <= max_alloc ->
  (buf = [] \/ ~ (c = CUint /\ t = AMat3)) ->
  exists vs, MakeSliceBuffer c t (Z.of_nat n) buf = Ok (mkSlice (SK c t) vs) /\
    List.length vs = n /\
    forall i v, nth_error vs i = Some v ->
      v = if ((i + 1) * mem_size c t <=? List.length buf)%nat
          then map (fun f => le_val (sub buf (i * mem_size c t + f * comp_bytes c) (comp_bytes c)))
                   (seq 0 (rows t * columns t))
          else repeat 0 (rows t * columns t)%nat.
Proof.
  intros c t n buf Hc Ht Hn Hx. eexists. split; [apply MakeSliceBuffer_ok; auto|].
  split; [rewrite map_length, seq_length; reflexivity|].
  intros i v Hi. rewrite nth_error_map in Hi.
  destruct (nth_error (seq 0 n) i) as [x|] eqn:E; [|discriminate].
  assert (Hlt : (i < n)%nat).
  { assert (nth_error (seq 0 n) i <> None) by congruence.
    apply nth_error_Some in H. rewrite seq_length in H. exact H. }
  rewrite (nth_error_nth' _ 0%nat) in E by (rewrite seq_length; auto).
  rewrite seq_nth in E by auto. injection E as <-. cbn in Hi. injection Hi as <-. reflexivity.
Qed.
Print Assumptions C07_make_slice_buffer.

Example C07_example :
  MakeSliceBuffer CUshort AVec2 3 (map z2b [1;0;2;1;3;0;4]) =
  Ok (mkSlice (SK CUshort AVec2) [[1;258];[0;0];[0;0]]).
Proof. vm_compute. reflexivity. Qed.

(** ** C54 *)
Theorem C54_size_of_element :
  forall c t,
  (ct_valid c = true -> at_valid t = true ->
     SizeOfElement c t = Z.of_nat (element_size c t) /\
     0 < SizeOfElement c t /\
     (t <> AScalar -> SizeOfElement c t mod 4 = 0) /\
     (forall r k, (r < rows t)%nat -> (k < columns t)%nat ->
        Z.of_nat (component_offset c t r k) + ByteSize c <= SizeOfElement c t)) /\
  (ct_valid c = false \/ at_valid t = false -> SizeOfElement c t = 0).
Proof.
  intros c t. split.
  - intros Hc Ht. rewrite SizeOfElement_nat by auto. split; [reflexivity|].
    split; [pose proof (element_size_pos c t Hc Ht); lia|]. split.
    + intros Hs. unfold element_size, column_stride, align4.
      destruct t; try congruence; lia.
    + intros r k Hr Hk. destruct (flat_rc c t r k) as [Hf Ho]; auto.
      pose proof (flat_offset_bound c t _ Hc Ht Hf). rewrite Ho in H.
      rewrite ByteSize_nat. lia.
  - intros [H|H]; destruct c, t; try discriminate; reflexivity.
Qed.
Print Assumptions C54_size_of_element.

(** No two components of an element overlap. *)
Theorem C54_components_disjoint :
  forall c t r k r' k', ct_valid c = true -> at_valid t = true ->
  (r < rows t)%nat -> (k < columns t)%nat -> (r' < rows t)%nat -> (k' < columns t)%nat ->
  (r, k) <> (r', k') ->
  (component_offset c t r k + comp_bytes c <= component_offset c t r' k')%nat \/
  (component_offset c t r' k' + comp_bytes c <= component_offset c t r k)%nat.
Proof.
  intros c t r k r' k' Hc Ht Hr Hk Hr' Hk' Hne.
  unfold component_offset, column_stride.
  assert (Ha : (rows t * comp_bytes c <= align4 (rows t * comp_bytes c))%nat) by (unfold align4; lia).
  set (a := align4 (rows t * comp_bytes c)) in *.
  destruct (Nat.lt_trichotomy k k') as [H|[->|H]]; [left; nia| |right; nia].
  destruct (Nat.lt_trichotomy r r') as [H|[->|H]]; [left; nia|congruence|right; nia].
Qed.
Print Assumptions C54_components_disjoint.

Example C54_example :
  SizeOfElement CUshort AMat3 = 24 /\ SizeOfElement CUbyte AVec3 = 4 /\ SizeOfElement CFloat AMat4 = 64.
Proof. repeat split. Qed.
