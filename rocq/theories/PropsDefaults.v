(** C84: the ...OrDefault methods. *)
From Coq Require Import Reals Lra Machin.
From Flocq Require Import Core IEEE754.Binary IEEE754.Bits.
From Verif Require Import Base BaseFacts Types Doc F64 Codec DocCodec SpecGo Marshal Ext.

(** The real number that a float64 stands for. *)
Definition real (z : Z) : R := Binary.B2R 53 1024 (b64_of_bits z).
(** Positive and negative zero. *)
Definition a_zero (z : Z) : Prop := z = 0 \/ z = 2 ^ 63.
(** An optional number, and the number that is used. *)
Definition used (o : option Z) (d : R) (v : Z) : Prop := match o with Some x => v = x | None => real v = d end.
Definition used_all (o : option (list Z)) (d : list R) (v : list Z) : Prop := match o with Some x => v = x | None => map real v = d end.
(** An array of numbers: it counts as absent when all of them are zero. *)
Definition used_array (a : list Z) (d : list R) (v : list Z) : Prop :=
  (Forall a_zero a -> map real v = d) /\ (~ Forall a_zero a -> v = a).

Lemma real_0 : real 0 = 0%R.
Proof. reflexivity. Qed.
Lemma real_1 : real f64_one = 1%R.
Proof. unfold real. replace (b64_of_bits f64_one) with (Binary.B754_finite 53 1024 false 4503599627370496 (-52) eq_refl) by (apply Binary.B2FF_inj; vm_compute; reflexivity). unfold Binary.B2R, F2R. cbn. lra. Qed.
Lemma real_half : real f64_half = (/ 2)%R.
Proof. unfold real. replace (b64_of_bits f64_half) with (Binary.B754_finite 53 1024 false 4503599627370496 (-53) eq_refl) by (apply Binary.B2FF_inj; vm_compute; reflexivity). unfold Binary.B2R, F2R. cbn. lra. Qed.
Lemma zero_eq z : go_float z -> (f64_eq z 0 = true <-> a_zero z).
Proof.
  intros G. unfold f64_eq, f64_key, a_zero. change (f64_is_nan 0) with false. change (f64_sign 0) with false. change (f64_mag 0) with 0. unfold go_float in G. cbn [negb]. rewrite andb_true_r.
  unfold f64_is_nan, f64_mag, f64_sign, f64_inf. destruct (2 ^ 63 <=? z) eqn:E.
  - apply Z.leb_le in E. rewrite (Zmod_eq z (2 ^ 63)) by lia. assert (z / 2 ^ 63 = 1) as -> by (symmetry; apply Z.div_unique_pos with (z - 2 ^ 63); lia).
    rewrite andb_true_iff, negb_true_iff, Z.ltb_ge, Z.eqb_eq. lia.
  - apply Z.leb_gt in E. rewrite Z.mod_small by lia. rewrite andb_true_iff, negb_true_iff, Z.ltb_ge, Z.eqb_eq. lia.
Qed.
Lemma zeros_eq l : Forall go_float l -> (arr_eq l (repeat 0 (List.length l)) = true <-> Forall a_zero l).
Proof.
  induction 1 as [|z l G _ IH]; [split; [constructor|reflexivity]|]. cbn [List.length repeat arr_eq]. rewrite andb_true_iff, IH, (zero_eq z G). split.
  - intros [H1 H2]. constructor; assumption.
  - intros H. inversion H. split; assumption.
Qed.
Lemma array_used n a d dv : go_array n a -> map real dv = d -> used_array a d (if arr_eq a (repeat 0 n) then dv else a).
Proof.
  intros [<- G] E. pose proof (zeros_eq a G) as Z. destruct (arr_eq a _); split; intros H; [exact E|tauto|exfalso|reflexivity]. destruct Z as [_ Z]. discriminate (Z H).
Qed.

(** Nodes: the identity matrix in column order, no rotation, scale 1. *)
Theorem C84_node n :
  go_array 16 (nod_Matrix n) -> go_array 4 (nod_Rotation n) -> go_array 3 (nod_Scale n) ->
  used_array (nod_Matrix n) (map (fun i => if i mod 4 =? i / 4 then 1%R else 0%R) [0;1;2;3;4;5;6;7;8;9;10;11;12;13;14;15]) (MatrixOrDefault n) /\
  used_array (nod_Rotation n) [0; 0; 0; 1]%R (RotationOrDefault n) /\
  used_array (nod_Scale n) [1; 1; 1]%R (ScaleOrDefault n) /\
  TranslationOrDefault n = nod_Translation n.
Proof.
  intros M R S. split; [|split; [|split; [|reflexivity]]].
  - apply (array_used 16); [exact M|]. cbn [DefaultMatrix map]. rewrite real_0, real_1. reflexivity.
  - apply (array_used 4); [exact R|]. cbn [DefaultRotation map]. rewrite real_0, real_1. reflexivity.
  - apply (array_used 3); [exact S|]. cbn [DefaultScale map]. rewrite real_1. reflexivity.
Qed.
Print Assumptions C84_node.

(** Materials and textures. *)
Theorem C84_material m p n o :
  used (mat_AlphaCutoff m) (/ 2) (AlphaCutoffOrDefault m) /\
  used (pbr_MetallicFactor p) 1 (MetallicFactorOrDefault p) /\ used (pbr_RoughnessFactor p) 1 (RoughnessFactorOrDefault p) /\
  used_all (pbr_BaseColorFactor p) [1; 1; 1; 1]%R (BaseColorFactorOrDefault p) /\
  used (ntx_Scale n) 1 (NormalScaleOrDefault n) /\ used (otx_Strength o) 1 (StrengthOrDefault o).
Proof.
  unfold AlphaCutoffOrDefault, MetallicFactorOrDefault, RoughnessFactorOrDefault, BaseColorFactorOrDefault, NormalScaleOrDefault, StrengthOrDefault.
  repeat apply conj; match goal with |- used ?o _ _ => destruct o | |- used_all ?o _ _ => destruct o end; cbn [used used_all repeat map]; rewrite ?real_1, ?real_half; reflexivity.
Qed.
Print Assumptions C84_material.

(** Texture transforms and lights. *)
Theorem C84_extensions t l :
  (go_array 2 (tt_Scale t) -> used_array (tt_Scale t) [1; 1]%R (tt_ScaleOrDefault t)) /\
  used (lig_Intensity l) 1 (lig_IntensityOrDefault l) /\ used_all (lig_Color l) [1; 1; 1]%R (lig_ColorOrDefault l).
Proof.
  split; [|split].
  - intros S. apply (array_used 2); [exact S|]. cbn [tt_DefaultScale map]. rewrite real_1. reflexivity.
  - unfold lig_IntensityOrDefault. destruct (lig_Intensity l); [reflexivity|exact real_1].
  - unfold lig_ColorOrDefault. destruct (lig_Color l); [reflexivity|]. cbn [used_all repeat map]. rewrite real_1. reflexivity.
Qed.
Print Assumptions C84_extensions.
(** The outer cone angle is the float64 nearest to PI / 4: in [1/2,1) they are
    2^-53 apart. *)
Theorem C84_cone s :
  match spo_OuterConeAngle s with
  | Some x => spo_OuterConeAngleOrDefault s = x
  | None => (Rabs (real (spo_OuterConeAngleOrDefault s) - PI / 4) < bpow radix2 (-54))%R /\
      (/ 2 <= real (spo_OuterConeAngleOrDefault s) < 1)%R
  end.
Proof.
  unfold spo_OuterConeAngleOrDefault. destruct (spo_OuterConeAngle s); [reflexivity|].
  assert (E : real f64_pi4 = (IZR 7074237752028440 * / 9007199254740992)%R).
  { unfold real. replace (b64_of_bits f64_pi4) with (Binary.B754_finite 53 1024 false 7074237752028440 (-53) eq_refl) by (apply Binary.B2FF_inj; vm_compute; reflexivity). unfold Binary.B2R, F2R. cbn. lra. }
  rewrite E. split; [|lra]. change (bpow radix2 (-54)) with (/ IZR (Z.pow_pos 2 54))%R. cbn [Z.pow_pos Pos.iter Z.mul Pos.mul].
  destruct (PI_2_3_7_ineq 9) as [L H]. cbn -[Nat.mul] in L, H. unfold tg_alt, PI_2_3_7_tg, Ratan_seq in *. cbn in L, H. apply Rabs_lt. split; lra.
Qed.
Print Assumptions C84_cone.

(** The hypotheses are met, by arrays of both kinds. *)
Example C84_case : go_array 3 [2 ^ 63; 0; 0] /\ Forall a_zero [2 ^ 63; 0; 0] /\ go_array 3 [f64_one; 0; 0] /\ ~ Forall a_zero [f64_one; 0; 0].
Proof.
  unfold go_array, go_float, a_zero. split; [split; [reflexivity|]; repeat constructor; lia|]. split; [repeat constructor; lia|]. split; [split; [reflexivity|]; repeat constructor; unfold f64_one; lia|].
  intros H. apply Forall_inv in H. unfold f64_one in H. lia.
Qed.
