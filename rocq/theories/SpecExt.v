(** Specification of what JSON keeps of the extension values. *)
From Verif Require Import Base Types Doc F64 JsonText Codec SpecText SpecJson SpecJsonDoc Ext.

(** strconv.AppendFloat on 0, -0 and 1. *)
Definition neg_zero : Z := 0x8000000000000000.
Definition float_text (F : float_lib) : Prop :=
  fmt64 F 0 = "0"%string /\ fmt64 F neg_zero = "-0"%string /\ fmt64 F one = "1"%string.

(** An omitted float64 comes back as +0. *)
Definition plain_zero (f : Z) : Z := if f64_eq f 0 then 0 else f.

(** Encodable texture transforms; an all-zero scale stands for the default. *)
Definition wf_TT (t : TextureTransform) : Prop :=
  farray 2 (tt_Offset t) /\ float_ok (tt_Rotation t) /\ farray 2 (tt_Scale t) /\ opt in_i64 (tt_TexCoord t).
Definition norm_TT (t : TextureTransform) : TextureTransform :=
  mkTT (tt_Offset t) (plain_zero (tt_Rotation t))
    (match tt_Scale t with [0; 0] => [one; one] | s => s end) (tt_TexCoord t).

(** Specular-glossiness values; missing factors stand for ones. *)
Definition wf_SG (X : ext_lib) (n : nat) (p : PBRSpecularGlossiness) : Prop :=
  opt (farray 4) (sg_DiffuseFactor p) /\ opt (wf_TextureInfo X n) (sg_DiffuseTexture p) /\
  opt (farray 3) (sg_SpecularFactor p) /\ opt float_ok (sg_GlossinessFactor p) /\
  opt (wf_TextureInfo X n) (sg_SpecularGlossinessTexture p).
Definition norm_SG (X : ext_lib) (p : PBRSpecularGlossiness) : PBRSpecularGlossiness :=
  mkSG (or_some [one; one; one; one] (sg_DiffuseFactor p))
    (option_map (norm_TextureInfo X) (sg_DiffuseTexture p))
    (or_some [one; one; one] (sg_SpecularFactor p)) (or_some one (sg_GlossinessFactor p))
    (option_map (norm_TextureInfo X) (sg_SpecularGlossinessTexture p)).

(** Lights. *)
Definition wf_Spot (s : Spot) : Prop := float_ok (spo_InnerConeAngle s) /\ opt float_ok (spo_OuterConeAngle s).
Definition norm_Spot (s : Spot) : Spot :=
  mkSpot (plain_zero (spo_InnerConeAngle s)) (or_some f64_pi4 (spo_OuterConeAngle s)).
Definition wf_Light (l : Light) : Prop :=
  utf8_str (lig_Type l) /\ utf8_str (lig_Name l) /\ opt (farray 3) (lig_Color l) /\ opt float_ok (lig_Intensity l) /\
  opt float_ok (lig_Range l) /\ opt wf_Spot (lig_Spot l).
Definition norm_Light (l : Light) : Light :=
  mkLight (lig_Type l) (lig_Name l) (or_some [one; one; one] (lig_Color l)) (or_some one (lig_Intensity l))
    (or_some f64_inf (lig_Range l)) (option_map norm_Spot (lig_Spot l)).

(** Texts in which the specular-glossiness encoder finds nothing to edit. *)
Definition occurs_in (p t : bytes) : Prop := exists a b, t = a ++ p ++ b.
Definition q (s : string) : bytes := dquote :: str_bytes s.
Definition edited_texts : list bytes := [
  q "glossinessFactor" ++ q ":1"; q "diffuseFactor" ++ q ":[1,1,1,1]"; q "specularFactor" ++ q ":[1,1,1]";
  str_bytes ",,"; str_bytes "{,"; str_bytes ",}"].
Definition clean_text (t : bytes) : Prop := Forall (fun p => ~ occurs_in p t) edited_texts.
(** Every text of the texture that encoding/json writes is clean. *)
Definition clean_texture (F : float_lib) (X : ext_lib) (t : TextureInfo) : Prop :=
  forall j, enc (DocCodec.c_TextureInfo F X) t = Ok j -> clean_text (print_compact j).
Definition clean_SG (F : float_lib) (X : ext_lib) (p : PBRSpecularGlossiness) : Prop :=
  opt (clean_texture F X) (sg_DiffuseTexture p) /\ opt (clean_texture F X) (sg_SpecularGlossinessTexture p).
(** In particular textures without extras and extensions. *)
Definition bare_texture (t : TextureInfo) : Prop := txi_Extensions t = [] /\ txi_Extras t = VNull.
