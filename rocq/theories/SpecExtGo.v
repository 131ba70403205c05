(** Specification: the values a Go program can give to the extensions of the
    packages under ext/, and which of them JSON can carry. *)
From Verif Require Import Base Types Doc F64 SpecText JsonText Codec SpecJson SpecGo SpecGoDoc Ext ExtRegistry.

(** The numbers are numbers of their Go types. *)
Definition go_TT (t : TextureTransform) : Prop :=
  go_array 2 (tt_Offset t) /\ go_float (tt_Rotation t) /\ go_array 2 (tt_Scale t) /\ opt in_i64 (tt_TexCoord t).
Definition go_SG (X : ext_lib) (p : PBRSpecularGlossiness) : Prop :=
  opt (go_array 4) (sg_DiffuseFactor p) /\ opt (go_TextureInfo X) (sg_DiffuseTexture p) /\ opt (go_array 3) (sg_SpecularFactor p) /\
  opt go_float (sg_GlossinessFactor p) /\ opt (go_TextureInfo X) (sg_SpecularGlossinessTexture p).
Definition go_Spot (s : Spot) : Prop := go_float (spo_InnerConeAngle s) /\ opt go_float (spo_OuterConeAngle s).
Definition go_Light (l : Light) : Prop :=
  opt (go_array 3) (lig_Color l) /\ opt go_float (lig_Intensity l) /\ opt go_float (lig_Range l) /\ opt go_Spot (lig_Spot l).
Definition go_lights (v : lights) : Prop :=
  match v with LightIndex i => in_i64 i | LightList l => opt (Forall (opt go_Light)) l end.
(** Any string is a key of an Unlit; its values are raw messages with JSON. *)
Definition go_unlit (u : list (string * json)) : Prop := Forall (fun p => lexical (snd p)) u.

(** No number is NaN or infinite. *)
Definition savable_Spot (s : Spot) : Prop := finite (spo_InnerConeAngle s) /\ opt finite (spo_OuterConeAngle s).
Definition savable_Light (l : Light) : Prop :=
  opt (Forall finite) (lig_Color l) /\ opt finite (lig_Intensity l) /\ opt finite (lig_Range l) /\ opt savable_Spot (lig_Spot l).
Definition savable_lights (v : lights) : Prop :=
  match v with LightIndex _ => True | LightList l => opt (Forall (opt savable_Light)) l end.

(** A value of the type that the package's Unmarshal returns.  [X] is the
    registry in use inside textures. *)
Definition go_value (X : ext_lib) (p : package) (v : any) : Prop :=
  match p with
  | Lightspunctual => exists l, v = lights_any l /\ go_lights l
  | Specular => exists s, v = sg_any s /\ go_SG X s
  | Texturetransform => exists t, v = tt_any t /\ go_TT t
  | Unlitpkg => exists u, v = unlit_any u /\ go_unlit u
  end.
