(** The extension packages ext/texturetransform, ext/specular, ext/unlit and
    ext/lightspunctual.

    Their MarshalJSON methods edit the text produced by encoding/json, so
    they are modelled on bytes; json.Marshal then checks and compacts what
    they return. *)
From Verif Require Import Base Types Doc F64 JsonText Codec DocCodec.

(** bytes.HasPrefix *)
Fixpoint has_prefix (p b : bytes) : bool :=
  match p, b with
  | [], _ => true
  | c :: p', d :: b' => Ascii.eqb c d && has_prefix p' b'
  | _ :: _, [] => false
  end.
(** bytes.Replace(b, pat, rep, 1) for a non-empty pat *)
Fixpoint replace1 (pat rep b : bytes) : bytes :=
  if has_prefix pat b then rep ++ skipn (List.length pat) b
  else match b with
       | [] => []
       | c :: b' => c :: replace1 pat rep b'
       end.

(** specular.go:65-68, transform.go:78-81 *)
Definition removeProperty (str b : bytes) : bytes :=
  replace1 (str_bytes ",,") (str_bytes ",") (replace1 str [] b).
(** specular.go:70-73, transform.go:83-86 *)
Definition sanitizeJSON (b : bytes) : bytes :=
  replace1 (str_bytes ",}") (str_bytes "}") (replace1 (str_bytes "{,") (str_bytes "{") b).

(** The tree of a complete JSON text (checkValid, then the decoder). *)
Definition json_parse (text : bytes) : res json :=
  match scan start text with
  | Done v rest => if forallb is_space rest then Ok v else Err (ErrMsg "invalid character after top-level value")
  | More cf => match at_eof cf with
               | Some v => Ok v
               | None => Err (ErrMsg "unexpected end of JSON input")
               end
  | Syntax => Err (ErrMsg "invalid character")
  end.
(** encoding/json marshalerEncoder: the text of a MarshalJSON method is
    checked, compacted and HTML-escaped. *)
Definition marshaler (out : res bytes) : res json :=
  text <- out ;; j <- json_parse text ;; Ok (html_json j).

(** A pattern with its quotes, e.g. [member "scale" "[1,1]"]. *)
Definition member (name value : string) : bytes := str_text name ++ ":"%char :: str_bytes value.

(** omitempty on a float64: -0 counts as empty *)
Definition f64_empty (f : Z) : bool := f64_eq f 0.

Section Ext.
Context (F : float_lib) (X : ext_lib).

(** ** ext/texturetransform *)

(** transform.go:34-39 *)
Record TextureTransform : Type := mkTT {
  tt_Offset : list Z;      (* [2]float64 *)
  tt_Rotation : Z;
  tt_Scale : list Z;       (* [2]float64 *)
  tt_TexCoord : option Z
}.
Definition set_tt_Offset v t := mkTT v (tt_Rotation t) (tt_Scale t) (tt_TexCoord t).
Definition set_tt_Rotation v t := mkTT (tt_Offset t) v (tt_Scale t) (tt_TexCoord t).
Definition set_tt_Scale v t := mkTT (tt_Offset t) (tt_Rotation t) v (tt_TexCoord t).
Definition set_tt_TexCoord v t := mkTT (tt_Offset t) (tt_Rotation t) (tt_Scale t) v.
Definition fields_TT : list (field TextureTransform) := [
  Fld "offset" tt_Offset set_tt_Offset (c_array 0 (c_f64 F)) never;
  Fld "rotation" tt_Rotation set_tt_Rotation (c_f64 F) f64_empty;
  Fld "scale" tt_Scale set_tt_Scale (c_array 0 (c_f64 F)) never;
  Fld "texCoord" tt_TexCoord set_tt_TexCoord (c_ptr 0 c_int) is_none
].
(** transform.go:10-15 *)
Definition tt_DefaultScale : list Z := [f64_one; f64_one].
Definition tt_emptyScale : list Z := [0; 0].
Definition tt_emptyOffset : list Z := [0; 0].

(** transform.go:42-47 *)
Definition tt_ScaleOrDefault (t : TextureTransform) : list Z :=
  if arr_eq (tt_Scale t) tt_emptyScale then tt_DefaultScale else tt_Scale t.

(** transform.go:50-58; [j] is the tree of data *)
Definition tt_UnmarshalJSON (j : json) : res TextureTransform :=
  dec_struct fields_TT (mkTT [0; 0] 0 tt_DefaultScale None) j.

(** transform.go:61-76 *)
Definition tt_MarshalJSON (t : TextureTransform) : res bytes :=
  j <- enc_struct fields_TT t ;;
  let out := print_compact j in
  let out := if arr_eq (tt_Scale t) tt_DefaultScale then removeProperty (member "scale" "[1,1]") out
             else if arr_eq (tt_Scale t) tt_emptyScale then removeProperty (member "scale" "[0,0]") out
             else out in
  let out := if arr_eq (tt_Offset t) tt_emptyOffset then removeProperty (member "offset" "[0,0]") out else out in
  Ok (sanitizeJSON out).

(** ** ext/specular *)

(** specular.go:27-33 *)
Record PBRSpecularGlossiness : Type := mkSG {
  sg_DiffuseFactor : option (list Z);      (* *[4]float64 *)
  sg_DiffuseTexture : option TextureInfo;
  sg_SpecularFactor : option (list Z);     (* *[3]float64 *)
  sg_GlossinessFactor : option Z;
  sg_SpecularGlossinessTexture : option TextureInfo
}.
Definition set_sg_DiffuseFactor v p := mkSG v (sg_DiffuseTexture p) (sg_SpecularFactor p) (sg_GlossinessFactor p) (sg_SpecularGlossinessTexture p).
Definition set_sg_DiffuseTexture v p := mkSG (sg_DiffuseFactor p) v (sg_SpecularFactor p) (sg_GlossinessFactor p) (sg_SpecularGlossinessTexture p).
Definition set_sg_SpecularFactor v p := mkSG (sg_DiffuseFactor p) (sg_DiffuseTexture p) v (sg_GlossinessFactor p) (sg_SpecularGlossinessTexture p).
Definition set_sg_GlossinessFactor v p := mkSG (sg_DiffuseFactor p) (sg_DiffuseTexture p) (sg_SpecularFactor p) v (sg_SpecularGlossinessTexture p).
Definition set_sg_SpecularGlossinessTexture v p := mkSG (sg_DiffuseFactor p) (sg_DiffuseTexture p) (sg_SpecularFactor p) (sg_GlossinessFactor p) v.
Definition fields_SG : list (field PBRSpecularGlossiness) := [
  Fld "diffuseFactor" sg_DiffuseFactor set_sg_DiffuseFactor (c_ptr (repeat 0 4) (c_array 0 (c_f64 F))) is_none;
  Fld "diffuseTexture" sg_DiffuseTexture set_sg_DiffuseTexture (c_ptr zero_TextureInfo (c_TextureInfo F X)) is_none;
  Fld "specularFactor" sg_SpecularFactor set_sg_SpecularFactor (c_ptr (repeat 0 3) (c_array 0 (c_f64 F))) is_none;
  Fld "glossinessFactor" sg_GlossinessFactor set_sg_GlossinessFactor (c_ptr 0 (c_f64 F)) is_none;
  Fld "specularGlossinessTexture" sg_SpecularGlossinessTexture set_sg_SpecularGlossinessTexture
    (c_ptr zero_TextureInfo (c_TextureInfo F X)) is_none
].
(** specular.go:36-44 *)
Definition default_SG : PBRSpecularGlossiness :=
  mkSG (Some (repeat f64_one 4)) None (Some (repeat f64_one 3)) (Some f64_one) None.
Definition sg_UnmarshalJSON (j : json) : res PBRSpecularGlossiness := dec_struct fields_SG default_SG j.

(** specular.go:47-63 *)
Definition is_value {A} (eqb : A -> A -> bool) (o : option A) (v : A) : bool :=
  match o with Some w => eqb w v | None => false end.
Definition sg_MarshalJSON (p : PBRSpecularGlossiness) : res bytes :=
  j <- enc_struct fields_SG p ;;
  let out := print_compact j in
  let out := if is_value f64_eq (sg_GlossinessFactor p) f64_one
             then removeProperty (member "glossinessFactor" "1") out else out in
  let out := if is_value arr_eq (sg_DiffuseFactor p) (repeat f64_one 4)
             then removeProperty (member "diffuseFactor" "[1,1,1,1]") out else out in
  let out := if is_value arr_eq (sg_SpecularFactor p) (repeat f64_one 3)
             then removeProperty (member "specularFactor" "[1,1,1]") out else out in
  Ok (sanitizeJSON out).

(** ** ext/lightspunctual *)

(** math.Pi / 4 and math.Inf(0) *)
Definition f64_pi4 : Z := 0x3FE921FB54442D18.

(** lightspunctual.go:52-55 *)
Record Spot : Type := mkSpot { spo_InnerConeAngle : Z; spo_OuterConeAngle : option Z }.
Definition set_spo_InnerConeAngle v s := mkSpot v (spo_OuterConeAngle s).
Definition set_spo_OuterConeAngle v s := mkSpot (spo_InnerConeAngle s) v.
Definition fields_Spot : list (field Spot) := [
  Fld "innerConeAngle" spo_InnerConeAngle set_spo_InnerConeAngle (c_f64 F) f64_empty;
  Fld "outerConeAngle" spo_OuterConeAngle set_spo_OuterConeAngle (c_ptr 0 (c_f64 F)) is_none
].
Definition zero_Spot : Spot := mkSpot 0 None.
(** lightspunctual.go:66-74 *)
Definition default_Spot : Spot := mkSpot 0 (Some f64_pi4).
Definition c_Spot : codec Spot := c_fresh default_Spot fields_Spot.
(** lightspunctual.go:58-63 *)
Definition spo_OuterConeAngleOrDefault (s : Spot) : Z :=
  match spo_OuterConeAngle s with None => f64_pi4 | Some v => v end.

(** lightspunctual.go:81-88 *)
Record Light : Type := mkLight {
  lig_Type : string;
  lig_Name : string;
  lig_Color : option (list Z);     (* *[3]float64 *)
  lig_Intensity : option Z;
  lig_Range : option Z;
  lig_Spot : option Spot
}.
Definition set_lig_Type v l := mkLight v (lig_Name l) (lig_Color l) (lig_Intensity l) (lig_Range l) (lig_Spot l).
Definition set_lig_Name v l := mkLight (lig_Type l) v (lig_Color l) (lig_Intensity l) (lig_Range l) (lig_Spot l).
Definition set_lig_Color v l := mkLight (lig_Type l) (lig_Name l) v (lig_Intensity l) (lig_Range l) (lig_Spot l).
Definition set_lig_Intensity v l := mkLight (lig_Type l) (lig_Name l) (lig_Color l) v (lig_Range l) (lig_Spot l).
Definition set_lig_Range v l := mkLight (lig_Type l) (lig_Name l) (lig_Color l) (lig_Intensity l) v (lig_Spot l).
Definition set_lig_Spot v l := mkLight (lig_Type l) (lig_Name l) (lig_Color l) (lig_Intensity l) (lig_Range l) v.
Definition fields_Light : list (field Light) := [
  Fld "type" lig_Type set_lig_Type c_str never;
  Fld "name" lig_Name set_lig_Name c_str str_empty;
  Fld "color" lig_Color set_lig_Color (c_ptr (repeat 0 3) (c_array 0 (c_f64 F))) is_none;
  Fld "intensity" lig_Intensity set_lig_Intensity (c_ptr 0 (c_f64 F)) is_none;
  Fld "range" lig_Range set_lig_Range (c_ptr 0 (c_f64 F)) is_none;
  Fld "spot" lig_Spot set_lig_Spot (c_ptr zero_Spot c_Spot) is_none
].
Definition zero_Light : Light := mkLight "" "" None None None None.
(** lightspunctual.go:107-115 *)
Definition default_Light : Light :=
  mkLight "" "" (Some (repeat f64_one 3)) (Some f64_one) (Some f64_inf) None.
Definition c_Light : codec Light := c_fresh default_Light fields_Light.
(** lightspunctual.go:91-104 *)
Definition lig_IntensityOrDefault (l : Light) : Z := match lig_Intensity l with None => f64_one | Some v => v end.
Definition lig_ColorOrDefault (l : Light) : list Z := match lig_Color l with None => repeat f64_one 3 | Some v => v end.

(** What Unmarshal returns: a LightIndex or a Lights. *)
Inductive lights : Type :=
| LightIndex (i : Z)
| LightList (l : option (list (option Light))).   (* []*Light, nil or not *)

(** lightspunctual.go:22-25 *)
Record envelop : Type := mkEnv { env_Lights : option (list (option Light)); env_Light : option Z }.
Definition c_Lights : codec (option (list (option Light))) := c_oslice None (c_ptr zero_Light c_Light).
Definition fields_envelop : list (field envelop) := [
  Fld "Lights" env_Lights (fun v e => mkEnv v (env_Light e)) c_Lights never;
  Fld "Light" env_Light (fun v e => mkEnv (env_Lights e) v) (c_ptr 0 c_int) never
].
(** lightspunctual.go:28-37 *)
Definition lights_Unmarshal (j : json) : res lights :=
  e <- dec_struct fields_envelop (mkEnv None None) j ;;
  Ok (match env_Light e with Some i => LightIndex i | None => LightList (env_Lights e) end).
(** json.Marshal of the value: neither type has a MarshalJSON method. *)
Definition lights_Marshal (v : lights) : res json :=
  match v with
  | LightIndex i => enc c_int i
  | LightList l => enc c_Lights l
  end.

(** ** ext/unlit *)

(** unlit.go:28; the values are json.RawMessages once decoded *)
Notation Unlit := (list (string * json)) (only parsing).
(** unlit.go:31-43 on a fresh map; unlit.go:15-19 *)
Definition unlit_UnmarshalJSON (j : json) : res Unlit :=
  match j with
  | JNull => Ok []
  | JObj m =>
      raw <- traverse (fun p => k <- key_of (fst p) ;; Ok (k, snd p)) m ;;
      Ok (map_sets [] (map_sets [] raw))
  | _ => Err ErrType
  end.
(** json.Marshal of a map[string]any with raw messages. *)
Definition unlit_Marshal (u : Unlit) : res json :=
  Ok (JObj (map (fun p => (quote_str (fst p), html_json (snd p))) u)).
End Ext.
