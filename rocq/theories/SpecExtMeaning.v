(** What the payloads of the extensions say, written down from the Khronos
    specifications of KHR_texture_transform, KHR_lights_punctual,
    KHR_materials_pbrSpecularGlossiness and KHR_materials_unlit: the schema of
    each payload, the member each property has and the defaults. *)
From Verif Require Import Base Types Doc SpecText JsonText Codec SpecJson SpecSchema SpecMeaning Ext.
Local Open Scope string_scope.

(** ** Schemas *)
Definition s_transform : schema := SObj []
  ["offset" =>> STuple 2 SNum; "rotation" =>> SNum; "scale" =>> STuple 2 SNum; "texCoord" =>> SInt 0].
Definition s_spot : schema := SObj [] ["innerConeAngle" =>> SNum; "outerConeAngle" =>> SNum].
Definition s_light : schema := SObj ["type" =>> SEnum ["directional"; "point"; "spot"]]
  ["name" =>> SStr; "color" =>> STuple 3 SNum; "intensity" =>> SNum; "range" =>> SNum; "spot" =>> s_spot].
(** At the root of the document, and at a node. *)
Definition s_light_list : schema := SObj ["lights" =>> SList 1 s_light] [].
Definition s_light_ref : schema := SObj ["light" =>> SInt 0] [].
Definition s_specular : schema := SObj []
  ["diffuseFactor" =>> STuple 4 SNum; "diffuseTexture" =>> s_textureInfo; "specularFactor" =>> STuple 3 SNum;
   "glossinessFactor" =>> SNum; "specularGlossinessTexture" =>> s_textureInfo].
Definition s_unlit : schema := SDict 0 SRaw.

(** ** Meanings *)
Local Open Scope Z_scope.
(** pi / 4 and infinity as float64 *)
Definition quarter_pi : Z := 0x3FE921FB54442D18.
Definition infinity : Z := 0x7FF0000000000000.

Section Params.
Context (F : float_lib) (X : ext_lib).
Definition m_transform : meaning TextureTransform := m_obj
  [Prp "offset" tt_Offset (m_list (m_num F)) (fun l => l = [0; 0]); Prp "rotation" tt_Rotation (m_num F) is_zero;
   Prp "scale" tt_Scale (m_list (m_num F)) (fun l => l = [one; one]); Prp "texCoord" tt_TexCoord (m_some m_int) nothing].
Definition m_spot : meaning Spot := m_obj
  [Prp "innerConeAngle" spo_InnerConeAngle (m_num F) is_zero;
   Prp "outerConeAngle" spo_OuterConeAngle (m_some (m_num F)) (fun o => o = Some quarter_pi)].
Definition m_light : meaning Light := m_obj
  [Prp "type" lig_Type m_str needed; Prp "name" lig_Name m_str no_text;
   Prp "color" lig_Color (m_some (m_list (m_num F))) (fun o => o = Some [one; one; one]);
   Prp "intensity" lig_Intensity (m_some (m_num F)) (fun o => o = Some one);
   Prp "range" lig_Range (m_some (m_num F)) (fun o => o = Some infinity);
   Prp "spot" lig_Spot (m_some m_spot) nothing].
(** The lights of the document, and the light of a node. *)
Definition m_light_list : meaning lights := fun v j => exists ls ms w,
  v = LightList (Some ls) /\ j = JObj ms /\ SpecMeaning.member "lights" ms w /\ m_list (m_some m_light) ls w.
Definition m_light_ref : meaning lights := fun v j => exists i ms w,
  v = LightIndex i /\ j = JObj ms /\ SpecMeaning.member "light" ms w /\ m_int i w.
Definition m_specular : meaning PBRSpecularGlossiness := m_obj
  [Prp "diffuseFactor" sg_DiffuseFactor (m_some (m_list (m_num F))) (fun o => o = Some [one; one; one; one]);
   Prp "diffuseTexture" sg_DiffuseTexture (m_some (m_textureInfo F X)) nothing;
   Prp "specularFactor" sg_SpecularFactor (m_some (m_list (m_num F))) (fun o => o = Some [one; one; one]);
   Prp "glossinessFactor" sg_GlossinessFactor (m_some (m_num F)) (fun o => o = Some one);
   Prp "specularGlossinessTexture" sg_SpecularGlossinessTexture (m_some (m_textureInfo F X)) nothing].
Definition m_unlit : meaning (list (string * json)) := m_dict (fun _ v w => v = w).
End Params.
