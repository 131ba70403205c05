(** Properties of math.go: C51-C53, C60, C61, and the float conversions of C22. *)
From Coq Require Import Reals Lra.
From Flocq Require Import Core IEEE754.Bits.
From Verif Require Import Norm NormProofs NormAlpha NormWhite.
From Verif Require Import BaseFacts Types Doc ModelerRead ModelerReadProofs ModelerReadSpecProofs PropsModelerRead.
Import Verif.Binary.
Open Scope Z_scope.

(** The value of a float32, [None] for infinities and NaNs. *)
Definition value (x : binary32) : option R := if fin32 x then Some (R32 x) else None.

(** [n] is an integer nearest to [x], the one further from zero at a tie. *)
Definition nearest_int (x : R) (n : Z) : Prop :=
  (Rabs (IZR n - x) <= / 2 /\ (Rabs (IZR n - x) = / 2 -> Rabs x < Rabs (IZR n)))%R.

Lemma nearest_int_Znearest x : nearest_int x (Znearest (Zle_bool 0) x).
Proof.
  unfold nearest_int. pose proof (Znearest_half (Zle_bool 0) x) as H. rewrite Rabs_minus_sym. split; [exact H|]. intros E.
  unfold Znearest in *. pose proof (Zfloor_lb x) as L. pose proof (Zceil_ub x) as U. pose proof (Zfloor_ub x) as L'.
  destruct (Rcompare_spec (x - IZR (Zfloor x)) (/ 2)) as [C|C|C].
  - rewrite Rabs_pos_eq in E by lra. lra.
  - assert (NI : IZR (Zfloor x) <> x) by lra. rewrite (Zceil_floor_neq _ NI) in *.
    destruct (Zle_bool 0 (Zfloor x)) eqn:Z0.
    + apply Zle_bool_imp_le in Z0. apply IZR_le in Z0. rewrite plus_IZR in *. rewrite !Rabs_pos_eq by lra. lra.
    + assert (Z1 : Zfloor x <= -1) by (apply Z.leb_gt in Z0; lia). apply IZR_le in Z1. rewrite !Rabs_left by lra. lra.
  - assert (NI : IZR (Zfloor x) <> x) by lra. rewrite (Zceil_floor_neq _ NI) in *. rewrite plus_IZR in *.
    rewrite Rabs_left in E by lra. lra.
Qed.
Lemma nearest_int_unique x n m : nearest_int x n -> (Rabs (IZR m - x) < / 2)%R -> n = m.
Proof.
  intros [H _] M. apply Rabs_le_inv in H. apply Rabs_lt_inv in M.
  assert (A : (-1 < IZR (n - m) < 1)%R) by (rewrite minus_IZR; lra). destruct A as [A B]. apply (lt_IZR (-1)) in A. apply (lt_IZR _ 1) in B. lia.
Qed.

(** ** C52: for every finite float32 whatever, the result is the nearest
    integer when it fits the type, and is left to the implementation otherwise. *)
Definition normalizes (f : binary32 -> option Z) (lo hi max : Z) : Prop :=
  forall x r, value x = Some r ->
  exists n, nearest_int (r * IZR max) n /\
  ((lo <= n <= hi -> f x = Some n) /\ (~ lo <= n <= hi -> f x = None)).
Theorem C52_nearest :
  normalizes NormalizeByte (-128) 127 127 /\ normalizes NormalizeUbyte 0 255 255 /\
  normalizes NormalizeShort (-32768) 32767 32767 /\ normalizes NormalizeUshort 0 65535 65535.
Proof.
  assert (G : forall lo hi k, 0 < k < 2 ^ 29 -> normalizes (fun v => conv64 lo hi (Round (mul64 (f64_of_f32 v) (f64_of_Z k)))) lo hi k).
  { intros lo hi k K x r V. unfold value in V. destruct (fin32 x) eqn:F; [|discriminate]. injection V as <-.
    exists (Znearest (Zle_bool 0) (R32 x * IZR k)). split; [apply nearest_int_Znearest|].
    rewrite (normalize_ok lo hi k x F K). cbv zeta. split; intros H; destruct ((lo <=? _) && _) eqn:E; try reflexivity; exfalso; lia. }
  split; [|split; [|split]]; apply G; lia.
Qed.
Print Assumptions C52_nearest.

(** Consequence: defined on the whole range glTF allows. *)
Theorem C52_in_range :
  forall x r, value x = Some r ->
  ((-1 <= r <= 1)%R -> exists b s, NormalizeByte x = Some b /\ -127 <= b <= 127 /\ (Rabs (IZR b - r * 127) <= / 2)%R /\
                                   NormalizeShort x = Some s /\ -32767 <= s <= 32767 /\ (Rabs (IZR s - r * 32767) <= / 2)%R) /\
  ((0 <= r <= 1)%R -> exists b s, NormalizeUbyte x = Some b /\ 0 <= b <= 255 /\ (Rabs (IZR b - r * 255) <= / 2)%R /\
                                  NormalizeUshort x = Some s /\ 0 <= s <= 65535 /\ (Rabs (IZR s - r * 65535) <= / 2)%R).
Proof.
  intros x r V. destruct C52_nearest as (B & UB & S & US).
  assert (G : forall f lo hi lo' k, normalizes f lo hi k -> lo <= lo' -> k <= hi -> 0 < k -> (IZR lo' <= r * IZR k <= IZR k)%R ->
    exists n, f x = Some n /\ lo' <= n <= k /\ (Rabs (IZR n - r * IZR k) <= / 2)%R).
  { intros f lo hi lo' k N L H K R. destruct (N x r V) as (n & [E _] & Y & _). pose proof (Rabs_le_inv _ _ E) as E'.
    assert (A : (IZR (lo' - 1) < IZR n < IZR (k + 1))%R) by (rewrite minus_IZR, plus_IZR; lra). destruct A as [A1 A2].
    apply lt_IZR in A1, A2. exists n. split; [apply Y; lia|]. split; [lia|exact E]. }
  split; intros R.
  - destruct (G _ _ _ (-127) _ B) as (b & B1 & B2 & B3); [lia|lia|lia|lra|].
    destruct (G _ _ _ (-32767) _ S) as (s & S1 & S2 & S3); [lia|lia|lia|lra|]. exists b, s. repeat (split; [assumption|]). assumption.
  - destruct (G _ _ _ 0 _ UB) as (b & B1 & B2 & B3); [lia|lia|lia|lra|].
    destruct (G _ _ _ 0 _ US) as (s & S1 & S2 & S3); [lia|lia|lia|lra|]. exists b, s. repeat (split; [assumption|]). assumption.
Qed.
Print Assumptions C52_in_range.

Example C52_example :
  NormalizeUbyte (b32_of_bits 0x3f000000) = Some 128 /\ NormalizeByte (b32_of_bits 0xbf000000) = Some (-64) /\
  NormalizeUbyte (b32_of_bits 0x40000000) = None /\ NormalizeUbyte (b32_of_bits 0x7fc00000) = None.
Proof. vm_compute. repeat split. Qed.

(** ** Denormalization: the float32 nearest to the quotient. *)
Definition nearest_f32 (x : R) (f : binary32) : Prop :=
  exists y, value f = Some y /\ forall g z, value g = Some z -> (Rabs (y - x) <= Rabs (z - x))%R.
Lemma nearest_rnd32 x f : fin32 f = true -> R32 f = rnd32 x -> nearest_f32 x f.
Proof.
  intros F E. exists (R32 f). unfold value. rewrite F. split; [reflexivity|]. intros g z Hz. destruct (fin32 g) eqn:G; [|discriminate]. injection Hz as <-.
  rewrite E. assert (VE : Valid_exp (FLT_exp (-149) 24)) by (apply FLT_exp_valid; reflexivity). destruct (round_N_pt radix2 (FLT_exp (-149) 24) (fun x => negb (Z.even x)) x) as [_ N]. apply N.
  apply (Flocq.IEEE754.Binary.generic_format_B2R 24 128 g).
Qed.
Theorem C61_unsigned :
  (forall v, 0 <= v <= 255 -> nearest_f32 (IZR v / 255) (DenormalizeUbyte v)) /\
  (forall v, 0 <= v <= 65535 -> nearest_f32 (IZR v / 65535) (DenormalizeUshort v)).
Proof.
  split; intros v Hv.
  - destruct (div32_ok v 255 ltac:(lia) ltac:(lia)) as [A B]. apply nearest_rnd32; assumption.
  - destruct (div32_ok v 65535 ltac:(lia) ltac:(lia)) as [A B]. apply nearest_rnd32; assumption.
Qed.
Print Assumptions C61_unsigned.

Theorem C61_signed :
  let close x f := exists y, value f = Some y /\ (Rabs (y - x) <= / 2 ^ 24 + / 2 ^ 53)%R in
  (forall v, -128 <= v <= 127 -> close (Rmax (IZR v / 127) (-1)) (DenormalizeByte v)) /\
  (forall v, -32768 <= v <= 32767 -> close (Rmax (IZR v / 32767) (-1)) (DenormalizeShort v)).
Proof.
  assert (P24 : bpow radix2 (-24) = (/ 2 ^ 24)%R) by (cbn; f_equal; ring). assert (P53 : bpow radix2 (-53) = (/ 2 ^ 53)%R) by (cbn; f_equal; ring).
  split; intros v Hv.
  - destruct (signed_ok v 127 ltac:(lia) ltac:(lia)) as (A & _ & B). rewrite P24, P53 in B. exists (R32 (DenormalizeByte v)).
    split; [unfold value; change (DenormalizeByte v) with (f32_of_f64 (Max (div64 (f64_of_Z v) (f64_of_Z 127)) (f64_of_Z (-1)))); rewrite A; reflexivity|exact B].
  - destruct (signed_ok v 32767 ltac:(lia) ltac:(lia)) as (A & _ & B). rewrite P24, P53 in B. exists (R32 (DenormalizeShort v)).
    split; [unfold value; change (DenormalizeShort v) with (f32_of_f64 (Max (div64 (f64_of_Z v) (f64_of_Z 32767)) (f64_of_Z (-1)))); rewrite A; reflexivity|exact B].
Qed.
Print Assumptions C61_signed.

(** ** C51 *)
Theorem C51_unsigned :
  (forall v, 0 <= v <= 255 -> NormalizeUbyte (DenormalizeUbyte v) = Some v) /\
  (forall v, 0 <= v <= 65535 -> NormalizeUshort (DenormalizeUshort v) = Some v).
Proof.
  destruct C52_nearest as (_ & UB & _ & US).
  assert (G : forall f k, normalizes f 0 k k -> 0 < k <= 65535 -> forall v, 0 <= v <= k -> f (div32 (f32_of_Z v) (f32_of_Z k)) = Some v).
  { intros f k N K v V. destruct (div32_ok v k ltac:(lia) ltac:(lia)) as [A B].
    destruct (N (div32 (f32_of_Z v) (f32_of_Z k)) (R32 (div32 (f32_of_Z v) (f32_of_Z k)))) as (n & Hn & Y & _); [unfold value; rewrite B; reflexivity|].
    assert (n = v) as ->; [|apply Y; lia]. apply (nearest_int_unique _ _ _ Hn). rewrite A.
    pose proof (err_le1 (-149) 24 hp32 (IZR v / IZR k) ltac:(lia) ltac:(lia) (quot_abs v k ltac:(lia) ltac:(lia))) as E.
    assert (PK : (0 < IZR k <= 65535)%R) by (split; [apply (IZR_lt 0)|apply IZR_le]; lia).
    replace (IZR v - rnd32 (IZR v / IZR k) * IZR k)%R with (- ((rnd32 (IZR v / IZR k) - IZR v / IZR k) * IZR k))%R by (field; lra).
    rewrite Rabs_Ropp, Rabs_mult, (Rabs_pos_eq (IZR k)) by lra.
    apply Rle_lt_trans with (bpow radix2 (-24) * 65535)%R; [apply Rmult_le_compat; [apply Rabs_pos|lra|exact E|lra]|].
    change (bpow radix2 (-24)) with (/ 16777216)%R. lra. }
  split; [apply (G _ 255 UB)|apply (G _ 65535 US)]; lia.
Qed.
Print Assumptions C51_unsigned.

(** The extra negative value becomes the other end of the range. *)
Theorem C51_signed :
  (forall v, -128 <= v <= 127 -> NormalizeByte (DenormalizeByte v) = Some (Z.max v (-127))) /\
  (forall v, -32768 <= v <= 32767 -> NormalizeShort (DenormalizeShort v) = Some (Z.max v (-32767))).
Proof.
  destruct C52_nearest as (B & _ & S & _).
  assert (G : forall f k, normalizes f (- k - 1) k k -> 1 < k <= 32767 -> forall v, - k - 1 <= v <= k ->
    f (f32_of_f64 (Max (div64 (f64_of_Z v) (f64_of_Z k)) (f64_of_Z (-1)))) = Some (Z.max v (- k))).
  { intros f k N K v V. destruct (signed_ok v k ltac:(lia) ltac:(lia)) as (A & _ & E).
    set (y := f32_of_f64 _) in *.
    destruct (N y (R32 y)) as (n & Hn & Y & _); [unfold value; rewrite A; reflexivity|].
    assert (n = Z.max v (- k)) as ->; [|apply Y; lia]. apply (nearest_int_unique _ _ _ Hn).
    assert (PK : (0 < IZR k <= 32767)%R) by (split; [apply (IZR_lt 0)|apply IZR_le]; lia).
    assert (M : (IZR (Z.max v (- k)) = Rmax (IZR v / IZR k) (-1) * IZR k)%R).
    { destruct (Z.max_spec v (- k)) as [[H ->]|[H ->]].
      - rewrite Rmax_right; [rewrite opp_IZR; ring|]. apply (Rmult_le_reg_r (IZR k)); [lra|]. unfold Rdiv. rewrite Rmult_assoc, Rinv_l by lra.
        rewrite Rmult_1_r, <- mult_IZR. apply IZR_le. lia.
      - rewrite Rmax_left; [field; lra|]. apply (Rmult_le_reg_r (IZR k)); [lra|]. unfold Rdiv. rewrite Rmult_assoc, Rinv_l by lra.
        rewrite Rmult_1_r, <- mult_IZR. apply IZR_le. lia. }
    rewrite M. replace (Rmax (IZR v / IZR k) (-1) * IZR k - R32 y * IZR k)%R with (- ((R32 y - Rmax (IZR v / IZR k) (-1)) * IZR k))%R by ring.
    rewrite Rabs_Ropp, Rabs_mult, (Rabs_pos_eq (IZR k)) by lra.
    apply Rle_lt_trans with ((bpow radix2 (-24) + bpow radix2 (-53)) * 32767)%R; [apply Rmult_le_compat; [apply Rabs_pos|lra|exact E|lra]|].
    change (bpow radix2 (-24)) with (/ 16777216)%R. change (bpow radix2 (-53)) with (/ 9007199254740992)%R. lra. }
  split; [apply (G _ 127 B)|apply (G _ 32767 S)]; lia.
Qed.
Print Assumptions C51_signed.

Example C51_example : NormalizeByte (DenormalizeByte (-128)) = Some (-127) /\ NormalizeUshort (DenormalizeUshort 40001) = Some 40001.
Proof. vm_compute. split; reflexivity. Qed.

(** ** C53: the truncating conversion of the alpha channel, every value. *)
Theorem C53_alpha :
  forall pow r g b a,
  (0 <= a <= 255 -> snd (NormalizeRGBA pow (DenormalizeRGBA pow (r, g, b, a))) = Some a) /\
  (0 <= a <= 65535 -> snd (NormalizeRGBA64 pow (DenormalizeRGBA64 pow (r, g, b, a))) = Some a).
Proof.
  intros pow r g b a. split; intros Ha; cbn [NormalizeRGBA DenormalizeRGBA NormalizeRGBA64 DenormalizeRGBA64 snd].
  - apply alpha8. exact Ha.
  - apply alpha16. exact Ha.
Qed.
Print Assumptions C53_alpha.

(** ** C60: colour channels.  Below the linear threshold no power is taken:
    8-bit channels up to 10 round trip whatever math.Pow does. *)
Theorem C60_dark_partial :
  forall pow r g b, 0 <= r <= 10 -> 0 <= g <= 10 -> 0 <= b <= 10 ->
  NormalizeRGB pow (DenormalizeRGB pow (r, g, b)) = (Some r, Some g, Some b).
Proof.
  intros pow.
  assert (G : forall v, 0 <= v <= 10 -> srgb_channel pow 255 (linear_channel pow 255 v) = Some v).
  { intros v Hv. assert (v = 0 \/ v = 1 \/ v = 2 \/ v = 3 \/ v = 4 \/ v = 5 \/ v = 6 \/ v = 7 \/ v = 8 \/ v = 9 \/ v = 10) as C by lia.
    repeat (destruct C as [->|C]; [vm_compute; reflexivity|]). subst. vm_compute. reflexivity. }
  intros r g b Hr Hg Hb. cbn [NormalizeRGB DenormalizeRGB]. rewrite !G by assumption. reflexivity.
Qed.
Print Assumptions C60_dark_partial.

(** The 16-bit channels do not, even there, because the conversion truncates. *)
Theorem C60_rgb64_refuted :
  exists v, 0 <= v <= 65535 /\ forall pow, NormalizeRGB64 pow (DenormalizeRGB64 pow (v, 0, 0)) <> (Some v, Some 0, Some 0).
Proof. exists 53. split; [lia|]. intros pow. vm_compute. discriminate. Qed.
Print Assumptions C60_rgb64_refuted.

(** Nor does 8-bit white, with any math.Pow that is accurate to 2^-40: it
    comes back as 254. *)
Theorem C60_white_refuted :
  forall pow, accurate pow -> NormalizeRGB pow (DenormalizeRGB pow (255, 255, 255)) = (Some 254, Some 254, Some 254).
Proof. intros pow P. cbn [NormalizeRGB DenormalizeRGB]. rewrite white_dark by exact P. reflexivity. Qed.
Print Assumptions C60_white_refuted.
Example C60_white_example : accurate exact_pow.
Proof. exact exact_pow_accurate. Qed.

(** ** C22: the readers of modeler/read.go with the conversions of math.go.
    [unspec] stands for the values an implementation gives to conversions that
    do not fit. *)
Definition channel (unspec : Z -> Z) (f : binary32 -> option Z) (bits : Z) : Z :=
  match f (b32_of_bits bits) with Some n => n | None => unspec bits end.
Definition go_conv (pow : binary64 -> binary64 -> binary64) (unspec : Z -> Z) : conversions :=
  mkConv (fun v => bits_of_b32 (DenormalizeUbyte v)) (fun v => bits_of_b32 (DenormalizeUshort v))
    (map (channel unspec (srgb_channel pow 255)))
    (fun e => map (channel unspec (srgb_channel pow 255)) (firstn 3 e) ++ map (channel unspec (alpha_channel 255)) (skipn 3 e))
    (map (channel unspec (srgb_channel pow 65535)))
    (fun e => map (channel unspec (srgb_channel pow 65535)) (firstn 3 e) ++ map (channel unspec (alpha_channel 65535)) (skipn 3 e)).

Lemma b32_bits x : b32_of_bits (bits_of_b32 x) = x.
Proof. apply (binary_float_of_bits_of_binary_float 23 8). Qed.

(** Every component of a normalized texture coordinate or weight is the
    float32 nearest to the stored integer divided by the maximum. *)
Theorem C22_normalized :
  forall pow unspec d a buffer pool p data,
  acr_Count a <> 0 -> ReadAccessor d a pool p = Ok data ->
  forall max, (acr_ComponentType a = CUbyte /\ max = 255) \/ (acr_ComponentType a = CUshort /\ max = 65535) ->
  let good l := Forall2 (Forall2 (fun x y => nearest_f32 (IZR x / IZR max) (b32_of_bits y))) (els data) l in
  (acr_Type a = AVec2 -> exists l, ReadTextureCoord (go_conv pow unspec) d a buffer pool p = Ok l /\ good l) /\
  (acr_Type a = AVec4 -> exists l, ReadWeights (go_conv pow unspec) d a buffer pool p = Ok l /\ good l).
Proof.
  intros pow unspec d a buffer pool p data Hn Hr max Hc good. set (cv := go_conv pow unspec).
  pose proof (ReadAccessor_wf _ _ _ _ _ Hr) as W.
  assert (G : forall read t, typed_by read (fmt_norm cv t) -> acr_Type a = t -> exists l, read d a buffer pool p = Ok l /\ good l).
  { intros read t HT Ht. specialize (HT d a). rewrite Ht in HT. unfold fmt_norm in HT.
    assert (ET : at_eqb t t = true) by (destruct t; cbn; try reflexivity; apply Z.eqb_refl). rewrite ET in HT.
    assert (HF : exists f, fmt_norm cv t (acr_ComponentType a) t = Some (map f) /\
       forall x, 0 <= x < 256 ^ Z.of_nat (SpecLayout.comp_bytes (acr_ComponentType a)) -> nearest_f32 (IZR x / IZR max) (b32_of_bits (f x))).
    { unfold fmt_norm. rewrite ET. destruct Hc as [[-> ->]|[-> ->]]; eexists; (split; [reflexivity|]); intros x Hx; cbn in Hx;
        cbn [cv go_conv cv_DenormalizeUbyte cv_DenormalizeUshort]; rewrite b32_bits; apply C61_unsigned; lia. }
    destruct HF as (f & HF & HV). unfold fmt_norm in HF. rewrite ET in HF. rewrite HF in HT.
    specialize (HT buffer pool p). rewrite Hr in HT. destruct HT as (r & E & _ & Q). exists r. split; [exact E|]. rewrite Q by (left; exact Hn).
    clear -W HV. unfold good. induction W as [|v l [_ Wv] _ IH]; [constructor|]. cbn [map]. constructor; [|exact IH].
    clear -Wv HV. induction Wv as [|x v Hx _ IH]; [constructor|]. cbn [map]. constructor; [apply HV; exact Hx|exact IH]. }
  split; intros Ht.
  - apply (G _ AVec2 (ReadTextureCoord_by cv) Ht).
  - apply (G _ AVec4 (ReadWeights_by cv) Ht).
Qed.
Print Assumptions C22_normalized.

Example C22_normalized_example :
  forall pow unspec, let d := rd_doc [0; 51; 0; 0; 255; 128; 0; 0] [(0, 8, 0)] in
  ReadTextureCoord (go_conv pow unspec) d (rd_acr (Some 0) 0 CUbyte AVec2 2) [] [] fresh_pools =
  Ok [[0; 0x3e4ccccd]; [0x3f800000; 0x3f008081]].
Proof. intros. vm_compute. reflexivity. Qed.

