(** C73 with the conversions of math.go. *)
From Coq Require Import ZArith List Lia Bool.
From Flocq Require Import IEEE754.Bits.
From Verif Require Import Norm PropsNorm.
From Verif Require Import Base BaseFacts Types Doc ModelerRead Memory SpecMemory MemoryProofs MemoryReads MemoryCalls.
Import ListNotations.
Open Scope Z_scope.

Lemma bits_range32 x : 0 <= bits_of_b32 x < 2 ^ 32.
Proof. apply (bits_of_binary_float_range 23 8); reflexivity. Qed.
Lemma conv32_range lo hi x n : conv32 lo hi x = Some n -> lo <= n <= hi.
Proof. unfold conv32. destruct (Binary.is_finite _ _ x); [|discriminate]. destruct (_ && _) eqn:E; [|discriminate]. apply andb_prop in E. intros [= <-]. lia. Qed.
Lemma channel_range unspec f max b :
  (forall x n, f x = Some n -> 0 <= n < max) -> (forall z, 0 <= unspec z < 256) -> 256 <= max -> 0 <= channel unspec f b < max.
Proof. intros Hf Hu Hm. unfold channel. destruct (f _) eqn:E; [exact (Hf _ _ E)|]. specialize (Hu b). lia. Qed.
Lemma srgb_range pow max x n : srgb_channel pow max x = Some n -> 0 <= n < max + 1.
Proof. intros H. apply conv32_range in H. lia. Qed.
Lemma alpha_range max x n : alpha_channel max x = Some n -> 0 <= n < max + 1.
Proof. intros H. apply conv32_range in H. lia. Qed.
Lemma comps_range n max e f : (forall x, 0 <= f x < max) -> comps n (2 ^ 32) e -> comps n max (map f e).
Proof. intros Hf [L _]. split; [now rewrite map_length|]. clear L. induction e; constructor; auto. Qed.
Lemma comps_range4 max e f g : (forall x, 0 <= f x < max) -> (forall x, 0 <= g x < max) -> comps 4 (2 ^ 32) e ->
  comps 4 max (map f (firstn 3 e) ++ map g (skipn 3 e)).
Proof.
  intros Hf Hg [L _]. split; [rewrite app_length, !map_length, firstn_length, skipn_length; lia|].
  apply Forall_app. split; apply Forall_forall; intros y I; apply in_map_iff in I; destruct I as (x & <- & _); auto.
Qed.

(** Whatever math.Pow is, and whatever bytes the platform makes of conversions
    that do not fit, math.go meets the hypothesis of C73 and C74. *)
Theorem C73_go_conversions :
  forall pow unspec, (forall z, 0 <= unspec z < 256) -> conv_ranges (go_conv pow unspec).
Proof.
  intros pow unspec Hu. unfold conv_ranges, go_conv.
  cbn [cv_DenormalizeUbyte cv_DenormalizeUshort cv_NormalizeRGB cv_NormalizeRGBA cv_NormalizeRGB64 cv_NormalizeRGBA64].
  split; [intros; apply bits_range32|]. split; [intros; apply bits_range32|].
  split; [intros e; apply comps_range; intros; apply channel_range; [apply (srgb_range _ 255)|exact Hu|lia]|].
  split; [intros e; apply comps_range4; intros; apply channel_range; try exact Hu; try lia; [apply (srgb_range _ 255)|apply (alpha_range 255)]|].
  split; [intros e; apply comps_range; intros; apply channel_range; [apply (srgb_range _ 65535)|exact Hu|lia]|].
  intros e; apply comps_range4; intros; apply channel_range; try exact Hu; try lia; [apply (srgb_range _ 65535)|apply (alpha_range 65535)].
Qed.
Print Assumptions C73_go_conversions.
Example C73_go_example : forall z : Z, 0 <= (fun _ => 0) z < 256.
Proof. lia. Qed.
