(** The extension registry as the packages under ext/ fill it.

    Each package registers its Unmarshal when it is imported (init:
    lightspunctual.go:18-20, specular.go:22-24, transform.go:29-31,
    unlit.go:21-23).  [imports] says which ones are.  The values of the Go
    types of these packages are represented as trees of type [any], by
    functions that have inverses, as [ext_lib] asks for one type of values.

    Simplifications: a texture inside a specular-glossiness value may have
    extensions again, among them specular-glossiness; [go_exts] unfolds this to
    a depth given in advance, below which the specular-glossiness is kept raw.
    Values that are of another Go type than the one the package's Unmarshal
    makes are not represented (their encoding is an error here). *)
From Verif Require Import Base Types Doc F64 JsonText Codec DocCodec Ext.

(** ** Values as trees *)
Fixpoint any_of_json (j : json) : any :=
  match j with
  | JNull => VNull
  | JBool b => VBool b
  | JNum s => VArr [VStr s]
  | JStr s => VStr s
  | JArr l => VArr (VNull :: map any_of_json l)
  | JObj m => VObj (map (fun p => (fst p, any_of_json (snd p))) m)
  end.
Fixpoint json_of_any (v : any) : json :=
  match v with
  | VNull => JNull
  | VBool b => JBool b
  | VNum _ => JNull
  | VStr s => JStr s
  | VArr l => match l with
              | VStr s :: _ => JNum s
              | _ :: l' => JArr (map json_of_any l')
              | [] => JNull
              end
  | VObj m => JObj (map (fun p => (fst p, json_of_any (snd p))) m)
  end.

Definition num_any (o : option Z) : any := match o with None => VNull | Some z => VNum z end.
Definition any_num (v : any) : option (option Z) :=
  match v with VNull => Some None | VNum z => Some (Some z) | _ => None end.
Fixpoint all {A B} (f : A -> option B) (l : list A) : option (list B) :=
  match l with
  | [] => Some []
  | a :: l' => match f a, all f l' with Some b, Some bs => Some (b :: bs) | _, _ => None end
  end.
Definition nums_any (l : list Z) : any := VArr (map VNum l).
Definition any_nums (v : any) : option (list Z) :=
  match v with VArr l => all (fun v => match v with VNum z => Some z | _ => None end) l | _ => None end.
(** nil or a value that is never represented as VNull *)
Definition opt_any {A} (f : A -> any) (o : option A) : any := match o with None => VNull | Some a => f a end.
Definition any_opt {A} (f : any -> option A) (v : any) : option (option A) :=
  match v with VNull => Some None | _ => option_map Some (f v) end.

(** *texturetransform.TextureTransform *)
Definition tt_any (t : TextureTransform) : any :=
  VArr [nums_any (tt_Offset t); VNum (tt_Rotation t); nums_any (tt_Scale t); num_any (tt_TexCoord t)].
Definition any_tt (v : any) : option TextureTransform :=
  match v with
  | VArr [o; VNum r; s; c] =>
      match any_nums o, any_nums s, any_num c with
      | Some o, Some s, Some c => Some (mkTT o r s c)
      | _, _, _ => None
      end
  | _ => None
  end.

(** *unlit.Unlit *)
Definition unlit_any (u : list (string * json)) : any := any_of_json (JObj u).
Definition any_unlit (v : any) : option (list (string * json)) :=
  match json_of_any v with JObj u => Some u | _ => None end.

(** lightspunctual.LightIndex and lightspunctual.Lights *)
Definition spot_any (s : Spot) : any := VArr [VNum (spo_InnerConeAngle s); num_any (spo_OuterConeAngle s)].
Definition any_spot (v : any) : option Spot :=
  match v with
  | VArr [VNum i; o] => match any_num o with Some o => Some (mkSpot i o) | None => None end
  | _ => None
  end.
Definition light_any (l : Light) : any :=
  VArr [VStr (lig_Type l); VStr (lig_Name l); opt_any nums_any (lig_Color l); num_any (lig_Intensity l); num_any (lig_Range l);
        opt_any spot_any (lig_Spot l)].
Definition any_light (v : any) : option Light :=
  match v with
  | VArr [VStr t; VStr n; c; i; r; s] =>
      match any_opt any_nums c, any_num i, any_num r, any_opt any_spot s with
      | Some c, Some i, Some r, Some s => Some (mkLight t n c i r s)
      | _, _, _, _ => None
      end
  | _ => None
  end.
Definition lights_any (v : lights) : any :=
  match v with
  | LightIndex i => VNum i
  | LightList l => opt_any (fun l => VArr (map (opt_any light_any) l)) l
  end.
Definition any_lights (v : any) : option lights :=
  match v with
  | VNum i => Some (LightIndex i)
  | VNull => Some (LightList None)
  | VArr l => option_map (fun l => LightList (Some l)) (all (any_opt any_light) l)
  | _ => None
  end.

(** *specular.PBRSpecularGlossiness *)
Definition extv_any (e : extv) : any := match e with ERaw j => VArr [any_of_json j] | EVal v => VArr [VNull; v] end.
Definition any_extv (v : any) : option extv :=
  match v with VArr [j] => Some (ERaw (json_of_any j)) | VArr [VNull; v] => Some (EVal v) | _ => None end.
Definition texture_any (t : TextureInfo) : any :=
  VArr [VObj (map (fun p => (fst p, extv_any (snd p))) (txi_Extensions t)); txi_Extras t; VNum (txi_Index t); VNum (txi_TexCoord t)].
Definition any_texture (v : any) : option TextureInfo :=
  match v with
  | VArr [VObj m; x; VNum i; VNum c] =>
      match all (fun p => option_map (fun e => (fst p, e)) (any_extv (snd p))) m with
      | Some e => Some (mkTextureInfo e x i c)
      | None => None
      end
  | _ => None
  end.
Definition sg_any (p : PBRSpecularGlossiness) : any :=
  VArr [opt_any nums_any (sg_DiffuseFactor p); opt_any texture_any (sg_DiffuseTexture p); opt_any nums_any (sg_SpecularFactor p);
        num_any (sg_GlossinessFactor p); opt_any texture_any (sg_SpecularGlossinessTexture p)].
Definition any_sg (v : any) : option PBRSpecularGlossiness :=
  match v with
  | VArr [d; dt; s; g; st] =>
      match any_opt any_nums d, any_opt any_texture dt, any_opt any_nums s, any_num g, any_opt any_texture st with
      | Some d, Some dt, Some s, Some g, Some st => Some (mkSG d dt s g st)
      | _, _, _, _, _ => None
      end
  | _ => None
  end.

(** ** The registry *)
Inductive package : Type := Lightspunctual | Specular | Texturetransform | Unlitpkg.
(** lightspunctual.go:15, specular.go:12, transform.go:19, unlit.go:11 *)
Definition ext_name (p : package) : string :=
  match p with
  | Lightspunctual => "KHR_lights_punctual"
  | Specular => "KHR_materials_pbrSpecularGlossiness"
  | Texturetransform => "KHR_texture_transform"
  | Unlitpkg => "KHR_materials_unlit"
  end.
Definition package_of (k : string) : option package :=
  if String.eqb k (ext_name Lightspunctual) then Some Lightspunctual
  else if String.eqb k (ext_name Specular) then Some Specular
  else if String.eqb k (ext_name Texturetransform) then Some Texturetransform
  else if String.eqb k (ext_name Unlitpkg) then Some Unlitpkg
  else None.

Section Registry.
Context (F : float_lib) (imports : package -> bool).

(** lightspunctual.go:28-37, specular.go:16-20, transform.go:23-27,
    unlit.go:15-19.  [inner] is the registry in use inside textures. *)
Definition Unmarshal (inner : option ext_lib) (p : package) : option (json -> res any) :=
  match p with
  | Lightspunctual => Some (fun j => v <- lights_Unmarshal F j ;; Ok (lights_any v))
  | Specular => match inner with
                | Some X => Some (fun j => v <- sg_UnmarshalJSON F X j ;; Ok (sg_any v))
                | None => None
                end
  | Texturetransform => Some (fun j => v <- tt_UnmarshalJSON F j ;; Ok (tt_any v))
  | Unlitpkg => Some (fun j => v <- unlit_UnmarshalJSON j ;; Ok (unlit_any v))
  end.
(** json.Marshal of a value of these types *)
Definition with_value {A} (o : option A) (f : A -> res json) : res json :=
  match o with Some a => f a | None => Err ErrValue end.
Definition Marshal (inner : option ext_lib) (p : package) (v : any) : res json :=
  match p with
  | Lightspunctual => with_value (any_lights v) (lights_Marshal F)
  | Specular => match inner with
                | Some X => with_value (any_sg v) (fun p => marshaler (sg_MarshalJSON F X p))
                | None => Err ErrValue
                end
  | Texturetransform => with_value (any_tt v) (fun t => marshaler (tt_MarshalJSON F t))
  | Unlitpkg => with_value (any_unlit v) unlit_Marshal
  end.
Fixpoint go_exts (depth : nat) : ext_lib :=
  let inner := match depth with O => None | S d => Some (go_exts d) end in
  mkExtLib
    (fun k => match package_of k with Some p => if imports p then Unmarshal inner p else None | None => None end)
    (fun k v => match package_of k with Some p => if imports p then Marshal inner p v else Err ErrValue | None => Err ErrValue end).
End Registry.
