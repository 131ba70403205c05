#!/usr/bin/env python3
"""Generates rocq/theories/DocCodec.v (JSON codecs of the document types),
SpecJsonDoc.v (encodable values, what JSON keeps of them) and
DocCodecProofs.v (round-trip proofs) from the table of gen_doc.py."""
import os
from gen_doc import STRUCTS, ty
DIR=os.path.join(os.path.dirname(os.path.abspath(__file__)),"../rocq/theories/")
ENUM={"tgt":65536,"mode":7,"alpha":3,"mag":3,"minf":7,"wrap":3,"interp":3,"trs":4}
CUSTOM={ # encode.go: MarshalJSON/UnmarshalJSON; fields written first, omit overrides, defaults
"Node":dict(cite="encode.go:263-302",first=["Matrix","Rotation","Scale","Translation"],
  omit={"Matrix":"arr_default DefaultMatrix (repeat 0 16)","Rotation":"arr_default DefaultRotation (repeat 0 4)","Scale":"arr_default DefaultScale (repeat 0 3)","Translation":"arr_default (repeat 0 3) (repeat 0 3)"},
  dflt={"Matrix":"DefaultMatrix","Rotation":"DefaultRotation","Scale":"DefaultScale"},
  norm={"Matrix":"or_default identity_matrix (repeat 0 16)","Rotation":"or_default identity_rotation (repeat 0 4)","Scale":"or_default identity_scale (repeat 0 3)","Translation":"or_default (repeat 0 3) (repeat 0 3)"}),
"Material":dict(cite="encode.go:328-355",first=["EmissiveFactor","AlphaCutoff"],
  omit={"EmissiveFactor":"arr_default (repeat 0 3) (repeat 0 3)","AlphaCutoff":"opt_default f64_half"},
  dflt={"AlphaCutoff":"(Some f64_half)"},
  norm={"EmissiveFactor":"or_default (repeat 0 3) (repeat 0 3)","AlphaCutoff":"or_some half"}),
"NormalTexture":dict(cite="encode.go:358-381",first=[],omit={"Scale":"opt_default f64_one"},dflt={"Scale":"(Some f64_one)"},norm={"Scale":"or_some one"}),
"OcclusionTexture":dict(cite="encode.go:384-407",first=[],omit={"Strength":"opt_default f64_one"},dflt={"Strength":"(Some f64_one)"},norm={"Strength":"or_some one"}),
"PBRMetallicRoughness":dict(cite="encode.go:410-438",first=[],
  omit={"BaseColorFactor":"oarr_default (repeat f64_one 4)","MetallicFactor":"opt_default f64_one","RoughnessFactor":"opt_default f64_one"},
  dflt={"BaseColorFactor":"(Some (repeat f64_one 4))","MetallicFactor":"(Some f64_one)","RoughnessFactor":"(Some f64_one)"},
  norm={"BaseColorFactor":"or_some (repeat one 4)","MetallicFactor":"or_some one","RoughnessFactor":"or_some one"}),
"Asset":dict(cite="encode.go:235-260",first=[],omit={},dflt={"Version":'"2.0"'},norm={"Version":'or_version'}),
}
CODEC={"ext":"(c_ext X)","any":"(c_any F)","str":"c_str","int":"c_int","oint":"(c_ptr 0 c_int)","ints":"(c_slice 0 c_int)","oints":"(c_oslice 0 c_int)",
"f64":"(c_f64 F)","of64":"(c_ptr 0 (c_f64 F))","f64s":"(c_slice 0 (c_f64 F))","oarr4":"(c_ptr (repeat 0 4) (c_array 0 (c_f64 F)))","bool":"c_bool",
"strs":"(c_slice \"\"%string c_str)","attrs":"c_attrs","lattrs":"(c_slice None c_attrs)","arr3":"(c_array 0 (c_f64 F))","arr4":"(c_array 0 (c_f64 F))","arr16":"(c_array 0 (c_f64 F))"}
OMIT={"ext":"is_nil","any":"any_nil","str":"str_empty","int":"z_zero","oint":"is_none","ints":"is_nil","of64":"is_none","f64s":"is_nil","bool":"negb","strs":"is_nil","lattrs":"is_nil","oarr4":"is_none"}
WF={"ext":"wf_ext X n","any":"wf_any n","str":"utf8_str","int":"in_i64","oint":"opt in_i64","ints":"Forall in_i64","oints":"opt (Forall in_i64)","f64":"float_ok","of64":"opt float_ok",
"f64s":"Forall float_ok","arr3":"farray 3","arr4":"farray 4","arr16":"farray 16","oarr4":"opt (farray 4)","strs":"Forall utf8_str","attrs":"opt wf_attrs","lattrs":"Forall (opt wf_attrs)",
"ct":"(fun v => ct_valid v = true)","at":"(fun v => at_valid v = true)"}
def ref(t):
    for p in ("S:","P:","L:","OL:"):
        if t.startswith(p): return p,t[len(p):]
    return None,None
def codec(t):
    if t in CODEC: return CODEC[t]
    p,r=ref(t)
    if p=="S:": return "c_"+r
    if p=="P:": return "(c_ptr zero_%s c_%s)"%(r,r)
    if p=="L:": return "(c_slice None (c_ptr zero_%s c_%s))"%(r,r)
    if p=="OL:": return "(c_oslice None (c_ptr zero_%s c_%s))"%(r,r)
    return "c_"+t
def omit(t,o):
    if not o: return "never"
    if t in OMIT: return OMIT[t]
    p,r=ref(t)
    if p=="P:": return "is_none"
    if p=="L:": return "is_nil"
    return "z_zero"
def wf(t):
    if t in WF: return WF[t]
    if t in ENUM: return "range %d"%ENUM[t]
    p,r=ref(t)
    if p=="S:": return "wf_"+r
    if p=="P:": return "opt wf_"+r
    if p=="L:": return "Forall (opt wf_%s)"%r
    if p=="OL:": return "opt (Forall (opt wf_%s))"%r
    return None
def norm(t):
    if t=="ext": return "norm_ext X"
    p,r=ref(t)
    if p=="S:": return "norm_"+r
    if p=="P:": return "option_map norm_"+r
    if p=="L:": return "map (option_map norm_%s)"%r
    if p=="OL:": return "option_map (map (option_map norm_%s))"%r
    return None
K={}
def depth(t):
    if t in("ext","ints","oints","f64s","strs","attrs","arr3","arr4","arr16","oarr4"): return 1
    if t=="lattrs": return 2
    p,r=ref(t)
    if p in("S:","P:"): return K[r]
    if p: return K[r]+1
    return 0

def gen_codec():
    o=['''(** JSON codecs of the document types.  GENERATED by tools/gen_codec.py from
    the struct declarations of gltf.go (JSON names and omitempty as in the
    tags) and from the MarshalJSON/UnmarshalJSON methods of encode.go; do not
    edit.

    [fields_T] are the fields encoding/json decodes; [out_T] those it writes,
    in order (fields of the wrapping struct of a MarshalJSON method come
    first). *)
From Verif Require Import Base Types Doc F64 JsonText Codec.

Definition f64_one : Z := 0x3FF0000000000000.
Definition f64_half : Z := 0x3FE0000000000000.
(** const.go:11-20 *)
Definition DefaultMatrix : list Z :=
  [f64_one;0;0;0;0;f64_one;0;0;0;0;f64_one;0;0;0;0;f64_one].
Definition DefaultRotation : list Z := [0;0;0;f64_one].
Definition DefaultScale : list Z := [f64_one;f64_one;f64_one].

(** encode.go:285-299: equal to the default or to the empty array *)
Definition arr_default (d z v : list Z) : bool := arr_eq v d || arr_eq v z.
(** encode.go:346-351,371,397,428-436: nil or equal to the default *)
Definition opt_default (d : Z) (o : option Z) : bool :=
  match o with None => true | Some v => f64_eq v d end.
Definition oarr_default (d : list Z) (o : option (list Z)) : bool :=
  match o with None => true | Some v => arr_eq v d end.

Section Params.
Context (F : float_lib) (X : ext_lib).
''']
    for name,pre,cite,fields in STRUCTS:
        cu=CUSTOM.get(name,dict(first=[],omit={},dflt={}))
        fs=[f for f in fields if f[1]!="-"]
        cite=cite.split(";")[0]
        def fld(f):
            g,j,t,om=f
            return '  Fld "%s" %s_%s set_%s_%s %s %s'%(j,pre,g,pre,g,codec(t),("(%s)"%cu["omit"][g]) if g in cu["omit"] else omit(t,om))
        o.append("\n(** %s%s *)\nDefinition fields_%s : list (field %s) := [\n%s\n].\n"%(cite,", "+cu["cite"] if "cite" in cu else "",name,name,";\n".join(fld(f) for f in fs)))
        first=cu["first"]
        if name=="Document": first=["Buffers"]
        out="fields_"+name
        if first:
            order=[f for g in first for f in fs if f[0]==g]+[f for f in fs if f[0] not in first]
            o.append("Definition out_%s : list (field %s) := [\n%s\n].\n"%(name,name,";\n".join(fld(f) for f in order)))
            out="out_"+name
        d="zero_"+name
        for g,v in cu["dflt"].items(): d="(set_%s_%s %s %s)"%(pre,g,v,d)
        if cu["dflt"]:
            o.append("Definition default_%s : %s := %s.\n"%(name,name,d)); d="default_"+name
        if name=="Asset":
            order=[f for f in fs if f[0]=="Version"]+[f for f in fs if f[0]!="Version"]
            o.append('''(** With an empty version the field of the wrapping struct is written first. *)
Definition out_Asset : list (field Asset) := [
%s
].
Definition enc_Asset (a : Asset) : res json :=
  if str_empty (ast_Version a) then enc_struct out_Asset (set_ast_Version "2.0" a)
  else enc_struct fields_Asset a.
Definition c_Asset : codec Asset :=
  mkCodec enc_Asset (fun _ j => dec_struct fields_Asset default_Asset j).
'''%";\n".join(fld(f) for f in order))
        elif name=="Camera":
            o.append('''(** encode.go:305-325: a type member first; no custom decoding *)
Definition enc_Camera (c : Camera) : res json :=
  match cam_Perspective c, cam_Orthographic c with
  | Some _, _ => m <- enc_fields fields_Camera c ;; Ok (JObj (("type", JStr "perspective") :: m))
  | None, Some _ => m <- enc_fields fields_Camera c ;; Ok (JObj (("type", JStr "orthographic") :: m))
  | None, None =>
      Err (ErrMsg "gltf: camera must defined either the perspective or orthographic property")
  end%string.
Definition c_Camera : codec Camera := mkCodec enc_Camera (dec_struct fields_Camera).
''')
        elif out!="fields_"+name or cu["dflt"]:
            o.append("Definition c_%s : codec %s :=\n  mkCodec (enc_struct %s) (fun %s j => dec_struct fields_%s %s j).\n"%(name,name,out,"_" if cu["dflt"] else "old",name,d if cu["dflt"] else "old"))
        else:
            o.append("Definition c_%s : codec %s := c_struct fields_%s.\n"%(name,name,name))
    o.append("End Params.\n")
    open(DIR+"DocCodec.v","w").write("".join(o))

def settled(t):
    if t=="ext": return "settled_ext X"
    p,r=ref(t)
    if p: return {"S:":"settled_%s","P:":"opt settled_%s","L:":"Forall (opt settled_%s)","OL:":"opt (Forall (opt settled_%s))"}[p]%r
    return None
def gen_spec():
    o=['''(** Encodable documents, and what JSON keeps of them.  GENERATED by
    tools/gen_codec.py; do not edit.

    [wf_T]: every value the JSON mapping can represent, with extensions and
    extras nested at most [n] deep.  [norm_T]: the same value with unset or
    zero optional properties replaced by the glTF defaults, raw extensions
    given to their factory, and without the bytes of buffers. *)
From Verif Require Import Base Types Doc F64 SpecText Codec SpecJson.

Definition or_version (s : string) : string := if String.eqb s "" then "2.0" else s.

Section Spec.
Context (X : ext_lib) (n : nat).
''']
    for name,pre,cite,fields in STRUCTS:
        cu=CUSTOM.get(name,{})
        cs=["%s (%s_%s x)"%(wf(t),pre,g) for g,j,t,om in fields if wf(t)]
        if name=="Camera": cs.append("(cam_Orthographic x <> None \\/ cam_Perspective x <> None)")
        o.append("\nDefinition wf_%s (x : %s) : Prop :=\n  %s.\n"%(name,name," /\\\n  ".join(cs)))
        vs=[]
        for g,j,t,om in fields:
            if j=="-": vs.append("[]"); continue
            nm=cu.get("norm",{}).get(g) or norm(t)
            vs.append("(%s (%s_%s x))"%(nm,pre,g) if nm else "(%s_%s x)"%(pre,g))
        o.append("Definition norm_%s (x : %s) : %s :=\n  mk%s %s.\n"%(name,name,name,name,"\n    ".join(vs)))
        # values whose encoding is already canonical
        cs=[]
        for g,j,t,om in fields:
            p,r=ref(t)
            if t=="ext": cs.append("canon_ext X (%s_%s x)"%(pre,g))
            elif p: cs.append({"S:":"canon_%s","P:":"opt canon_%s","L:":"Forall (opt canon_%s)","OL:":"opt (Forall (opt canon_%s))"}[p]%r+" (%s_%s x)"%(pre,g))
        if name=="Asset": cs.append('ast_Version x <> ""%string')
        o.append("Definition canon_%s (x : %s) : Prop :=\n  %s.\n"%(name,name," /\\\n  ".join(cs)))
        cs=[settled(f[2])+" (%s_%s x)"%(pre,f[0]) for f in fields if settled(f[2])]
        o.append("Definition settled_%s (x : %s) : Prop :=\n  %s.\n"%(name,name," /\\\n  ".join(cs)))
        if name in("Camera","Document"):
            cs=["%s (%s_%s x)"%(wf(t).replace("wf_Camera","decoded_Camera"),pre,g) for g,j,t,om in fields if wf(t)]
            o.append("(** As decoded: cameras may have no projection. *)\nDefinition decoded_%s (x : %s) : Prop :=\n  %s.\n"%(name,name," /\\\n  ".join(cs)))
    o.append("End Spec.\n")
    open(DIR+"SpecJsonDoc.v","w").write("".join(o))

RT={"any":"apply rt_any; exact HF","str":"apply rt_str","int":"apply rt_int","bool":"apply rt_bool","f64":"apply rt_f64; exact HF",
"ext":"apply rt_ext","attrs":"apply (rt_attrs n); reflexivity","ct":"apply rt_ct","at":"apply rt_at"}
def rtlem(t,pre=None,g=None):
    if t in RT: return RT[t]
    if t=="oint": return "apply rt_oint"
    if t=="of64": return "apply (rt_of64 F HF)"
    if t=="ints": return "apply (rt_slice 0 c_int n in_i64 (fun v => v)), rt_int"
    if t=="oints": return "apply (rt_oslice 0 c_int n in_i64 (fun v => v)), rt_int"
    if t=="f64s": return "apply (rt_slice 0 (c_f64 F) n float_ok (fun v => v)), rt_f64, HF"
    if t=="strs": return "apply (rt_slice _ c_str n utf8_str (fun v => v)), rt_str"
    if t=="lattrs": return "apply (rt_slice None c_attrs (S n) (opt wf_attrs) (fun v => v)), rt_attrs; reflexivity"
    if t in("arr3","arr4","arr16"): return "apply (rt_array 0 (c_f64 F) n %s); [intros; apply rt_f64, HF|reflexivity]"%t[3:]
    if t=="oarr4": return "apply (rt_oarr4 F HF); cbn; auto"
    p,r=ref(t)
    if not p: return "apply rt_"+t
    R="rt_"+r
    if p=="S:": return "apply %s"%R+("" if r in CUSTOM else "; reflexivity")
    P="(rt_ptr_%s)"%r
    if p=="P:": return "apply %s"%P+(""  if r in CUSTOM else "; reflexivity")
    if p=="L:": return "apply (rt_slice None _ _ (opt (wf_%s X n)) (option_map (norm_%s X))), %s; reflexivity"%(r,r,P)
    if p=="OL:": return "apply (rt_oslice None _ _ (opt (wf_%s X n)) (option_map (norm_%s X))), %s; reflexivity"%(r,r,P)
def lvl(t):
    p,r=ref(t)
    if p: return "(n + %d)"%K[r] if p in("S:","P:") else "(S (n + %d))"%K[r]
    return ["n","(S n)","(S (S n))"][depth(t)]
def nname(t):
    if t=="ext": return "(norm_ext X)"
    p,r=ref(t)
    if p=="S:": return "(norm_%s X)"%r
    if p=="P:": return "(option_map (norm_%s X))"%r
    if p=="L:": return "(map (option_map (norm_%s X)))"%r
    if p=="OL:": return "(option_map (map (option_map (norm_%s X))))"%r
    if t in("ints","f64s","strs","lattrs"): return "(map (fun v => v))"
    if t in("oints",): return "(option_map (map (fun v => v)))"
    if t in("oint","of64","oarr4"): return "(option_map (fun v => v))"
    return "(fun v => v)"
def wfx(t):
    if t=="mag": return "(fun x => range 3 x /\\ x <> 0)"
    if t=="minf": return "(fun x => range 7 x /\\ x <> 0)"
    if t=="bool": return "(fun _ => True)"
    if t in WF: return "(%s)"%WF[t]
    if t in ENUM: return "(range %d)"%ENUM[t]
    p,r=ref(t)
    return "("+{"S:":"wf_%s X n","P:":"opt (wf_%s X n)","L:":"Forall (opt (wf_%s X n))","OL:":"opt (Forall (opt (wf_%s X n)))"}[p]%r+")"
def gen_proofs():
    o=['''(** JSON round trips of the document types.  GENERATED by
    tools/gen_codec.py; do not edit. *)
From Verif Require Import Base BaseFacts Types Doc F64 SpecText JsonText Codec DocCodec SpecJson SpecJsonDoc CodecProofs DocCodecBase.

Section Params.
Context (F : float_lib) (X : ext_lib) (HF : float_contract F) (n : nat).
''']
    for name,pre,cite,fields in STRUCTS:
        cu=CUSTOM.get(name,dict(first=[],omit={},dflt={}))
        fs=[f for f in fields if f[1]!="-"]
        k=max(depth(f[2]) for f in fs); K[name]=k+1
        o.append("\nLemma ext_%s y z : %s -> y = z.\nProof. destruct y, z; cbn; intros; subst; reflexivity. Qed.\n"%(name," -> ".join("%s_%s y = %s_%s z"%(pre,g,pre,g) for g,j,t,om in fields)))
        first=cu["first"]
        if name=="Document": first=["Buffers"]
        lists=[("fields_"+name,fs)]
        if first: lists=[("out_"+name,[f for g in first for f in fs if f[0]==g]+[f for f in fs if f[0] not in first])]
        if name=="Asset": lists.append(("out_Asset",[f for f in fs if f[0]=="Version"]+[f for f in fs if f[0]!="Version"]))
        dflt="default_"+name if cu["dflt"] else "zero_"+name
        for ln,fl in lists:
            hyp="wf_%s X n x"%name
            if name=="Asset": hyp+=" -> ast_Version x <> \"\"%string"
            o.append('''Lemma fields_rt_%s x : %s -> forall pre, Forall (skipped (fields_%s F X) (n + %d)) pre ->
  exists m, enc_fields (%s F X) x = Ok m /\\ wf_json (n + %d) (JObj (pre ++ m)) /\\
    dec_struct (fields_%s F X) %s (JObj (pre ++ m)) = Ok (norm_%s X x).
Proof.
  intros W%s. unfold wf_%s in W. decompose [and] W.
  replace (n + %d)%%nat with (S (n + %d)) by lia.
  apply rt_fields.
  - plain_tac.
  - lens_tac.
  - indep_tac.
'''%(ln,hyp,name,k,ln,k+1,name,dflt,name," NV" if name=="Asset" else "",name,k+1,k))
            o.append("  - repeat apply Forall_cons; [..|apply Forall_nil].\n")
            for g,j,t,om in fl:
                o.append("    + apply (fspec_intro _ _ _ _ _ _ _ _ _ %s %s); [apply (rt_mono _ %s); [%s|lia]|field_tac|omit_tac].\n"%(wfx(t),nname(t),lvl(t),rtlem(t)))
            o.append("  - intros y A K. unfold %s in A, K. agree_tac A. apply ext_%s; try assumption.%s\nQed.\n"%(ln,name," rewrite K by keeps_tac. reflexivity." if name=="Buffer" else ""))
        # rt
        old="forall old, " if cu["dflt"] else "forall old, old = zero_%s -> "%name
        o.append("Lemma rt_%s : %srt (c_%s F X) (n + %d) old (wf_%s X n) (norm_%s X).\n"%(name,old,name,k+1,name,name))
        intro="intros old x W" if cu["dflt"] else "intros old -> x W"
        ln=lists[0][0]
        if name=="Asset":
            o.append('''Proof.
  intros old x W. cbn [c_Asset enc dec]. unfold enc_Asset. destruct (str_empty (ast_Version x)) eqn:E.
  - apply String.eqb_eq in E.
    destruct (fields_rt_out_Asset (set_ast_Version "2.0" x)) with (pre := @nil (string * json)) as (m & Em & Wm & Dm).
    + unfold wf_Asset in *. cbn. decompose [and] W. repeat (split; [first [assumption | apply ascii_utf8; reflexivity]|]); assumption.
    + discriminate.
    + apply Forall_nil.
    + exists (JObj m). unfold enc_struct. rewrite Em. split; [reflexivity|]. split; [exact Wm|].
      cbn [app] in Dm. rewrite Dm. f_equal. destruct x; cbn in *; subst; reflexivity.
  - apply String.eqb_neq in E.
    destruct (fields_rt_fields_Asset x W E [] (Forall_nil _)) as (m & Em & Wm & Dm).
    exists (JObj m). unfold enc_struct. rewrite Em. split; [reflexivity|]. split; [exact Wm|exact Dm].
Qed.
''')
        elif name=="Camera":
            o.append('''Proof.
  intros old -> x W. cbn [c_Camera enc dec]. unfold enc_Camera.
  assert (C : cam_Orthographic x <> None \\/ cam_Perspective x <> None) by (unfold wf_Camera in W; decompose [and] W; assumption).
  assert (S : forall s, s = "perspective"%%string \\/ s = "orthographic"%%string ->
    Forall (skipped (fields_Camera F X) (n + %d)) [("type"%%string, JStr s)]).
  { intros s Hs. constructor; [|constructor]. split; [vm_compute; reflexivity|]. split; [apply ascii_utf8; reflexivity|].
    split; [reflexivity|]. cbn [snd]. constructor. replace s with (quote_str s) by (destruct Hs as [-> | ->]; vm_compute; reflexivity).
    apply quote_str_body. }
  destruct (cam_Perspective x); [|destruct (cam_Orthographic x)].
  - destruct (fields_rt_fields_Camera x W _ (S _ (or_introl eq_refl))) as (m & Em & Wm & Dm).
    eexists. rewrite Em. split; [reflexivity|]. split; [exact Wm|exact Dm].
  - destruct (fields_rt_fields_Camera x W _ (S _ (or_intror eq_refl))) as (m & Em & Wm & Dm).
    eexists. rewrite Em. split; [reflexivity|]. split; [exact Wm|exact Dm].
  - destruct C as [C|C]; contradiction.
Qed.
'''%k)
        else:
            o.append('''Proof.
  %s. destruct (fields_rt_%s x W [] (Forall_nil _)) as (m & Em & Wm & Dm).
  exists (JObj m). cbn [c_%s c_struct enc dec]. unfold enc_struct. rewrite Em. split; [reflexivity|]. split; [exact Wm|exact Dm].
Qed.
'''%(intro,ln,name))
        # ptr
        o.append('''Lemma rt_ptr_%s : %srt (c_ptr zero_%s (c_%s F X)) (n + %d) old (opt (wf_%s X n)) (option_map (norm_%s X)).
Proof.
  %s. apply rt_ptr.
  - intros o Ho. apply rt_%s.%s
  - intros x j W E. %s
Qed.
'''%(name,"forall old, " if cu["dflt"] else "forall old, old = None -> ",name,name,k+1,name,name,"intros old" if cu["dflt"] else "intros old ->",name,"" if cu["dflt"] else " destruct Ho as [Ho|[_ Ho]]; [discriminate|exact Ho].",
  {"Asset":"cbn in E. unfold enc_Asset in E. destruct (str_empty (ast_Version x)); exact (enc_struct_nonnull _ _ _ E).",
   "Camera":"cbn in E. unfold enc_Camera in E. destruct (cam_Perspective x), (cam_Orthographic x), (enc_fields (fields_Camera F X) x); cbn in E; try discriminate E; injection E as <-; discriminate."}.get(name,"exact (enc_struct_nonnull _ _ _ E).")))
    o.append("End Params.\n")
    open(DIR+"DocCodecProofs.v","w").write("".join(o))
INV={"ext":"(inv_ext X n RT RO)","any":"(inv_any F PC n)","str":"(inv_str (wf_json n))","int":"(inv_int (wf_json n))","f64":"(inv_f64 F PC (wf_json n))","attrs":"(inv_attrs (wf_json n))",
"oint":"(inv_ptr 0 c_int _ in_i64 in_i64_0 (inv_int (wf_json n)))","of64":"(inv_ptr 0 (c_f64 F) _ float_ok float_ok_0 (inv_f64 F PC (wf_json n)))",
"ints":"(inv_slice 0 c_int _ in_i64 (closed_wf n) in_i64_0 (inv_int (wf_json n)))","oints":"(inv_oslice 0 c_int _ in_i64 (closed_wf n) in_i64_0 (inv_int (wf_json n)))",
"f64s":"(inv_slice 0 (c_f64 F) _ float_ok (closed_wf n) float_ok_0 (inv_f64 F PC (wf_json n)))","strs":"(inv_slice _ c_str _ utf8_str (closed_wf n) utf8_nil (inv_str (wf_json n)))",
"lattrs":"(inv_slice None c_attrs _ (opt wf_attrs) (closed_wf n) I (inv_attrs (wf_json n)))",
"oarr4":"(inv_ptr (repeat 0 4) _ _ (farray 4) (farray_0 4) (inv_array 0 (c_f64 F) _ float_ok 4 (closed_wf n) float_ok_0 (inv_f64 F PC (wf_json n))))"}
def dec_name(r): return ("decoded_" if r in("Camera","Document") else "wf_")+r
def inv(t):
    if t in INV: return INV[t]
    if t in("arr3","arr4","arr16"): return "(inv_array 0 (c_f64 F) _ float_ok %s (closed_wf n) float_ok_0 (inv_f64 F PC (wf_json n)))"%t[3:]
    p,r=ref(t)
    if not p: return "(inv_%s (wf_json n))"%t
    if p=="S:": return "inv_%s"%r
    P="(inv_ptr zero_%s _ _ (%s X n) wf_zero_%s inv_%s)"%(r,dec_name(r),r,r)
    if p=="P:": return P
    return "(%s None _ _ (opt (%s X n)) (closed_wf n) I %s)"%("inv_slice" if p=="L:" else "inv_oslice",dec_name(r),P)
NP={"ext":"(np_ext X RT)","any":"(np_any F)","str":"np_str","int":"np_int","bool":"np_bool","f64":"(np_f64 F)","attrs":"np_attrs","oint":"(np_ptr _ _ np_int)","of64":"(np_ptr _ _ (np_f64 F))",
"ints":"(np_slice _ _ np_int)","oints":"(np_oslice _ _ np_int)","f64s":"(np_slice _ _ (np_f64 F))","strs":"(np_slice _ _ np_str)","lattrs":"(np_slice _ _ np_attrs)",
"arr3":"(np_array _ _ (np_f64 F))","arr4":"(np_array _ _ (np_f64 F))","arr16":"(np_array _ _ (np_f64 F))","oarr4":"(np_ptr _ _ (np_array _ _ (np_f64 F)))",
"ct":"(np_enum_num _ _ _ _)","at":"(np_enum_str _ _ _ _)","tgt":"np_tgt","mode":"(np_enum_num _ _ _ _)","alpha":"(np_enum_str _ _ _ _)","mag":"(np_enum_num _ _ _ _)","minf":"(np_enum_num _ _ _ _)","wrap":"(np_enum_num _ _ _ _)","interp":"(np_enum_str _ _ _ _)","trs":"(np_enum_str _ _ _ _)"}
def np(t):
    if t in NP: return NP[t]
    p,r=ref(t)
    if p=="S:": return "np_"+r
    if p=="P:": return "(np_ptr _ _ np_%s)"%r
    return "(%s _ _ (np_ptr _ _ np_%s))"%("np_slice" if p=="L:" else "np_oslice",r)
def fest(t):
    p,r=ref(t)
    if t=="ext": return "(est_ext X)"
    if p=="S:": return "est_"+r
    P="(est_ptr zero_%s _ _ _ est_%s)"%(r,r)
    if p=="P:": return P
    return "(%s None _ _ _ %s)"%("est_slice" if p=="L:" else "est_oslice",P)
def gen_inv():
    o=["""(** Decoded documents: invariants, no panics; canonical forms.  GENERATED by
    tools/gen_codec.py; do not edit. *)
From Verif Require Import Base BaseFacts Types Doc F64 SpecText JsonText Codec DocCodec SpecJson SpecJsonDoc CodecProofs CodecInv DocCodecBase DocCodecProofs DocInvBase.

Section Params.
Context (F : float_lib) (X : ext_lib) (n : nat).

Section Inv.
Context (PC : parse_contract F) (RT : registry_total X) (RO : registry_encodes X n).
"""]
    for name,pre,cite,fields in STRUCTS:
        cu=CUSTOM.get(name,dict(first=[],omit={},dflt={}))
        fs=[f for f in fields if f[1]!="-"]
        P=dec_name(name)
        zt=["exact wf_zero_"+ref(f[2])[1] if ref(f[2])[0]=="S:" else "zero_tac" for f in fields if wf(f[2])]
        zt=" ".join("split; [%s|]."%t for t in zt[:-1])+" "+zt[-1]+"."
        o.append("\nLemma wf_zero_%s : %s X n zero_%s.\nProof. unfold %s. %s Qed.\n"%(name,P,name,P,zt))
        if cu["dflt"]: o.append("Lemma wf_default_%s : %s X n default_%s.\nProof. unfold %s. %s Qed.\n"%(name,P,name,P,zt))
        o.append("Lemma inv_%s : inv (c_%s F X) (wf_json n) (%s X n).\nProof.\n"%(name,name,P))
        o.append("  intros old j y Ho Hj H. refine (inv_struct _ _ (fields_%s F X) %s j y (closed_wf n) _ %s Hj H).\n  repeat apply Forall_cons; [..|apply Forall_nil].\n"%(name,"default_"+name if cu["dflt"] else "old","wf_default_"+name if cu["dflt"] else "Ho"))
        for g,j,t,om in fs:
            if t=="bool": o.append("  - finv_tac (inv_true c_bool (wf_json n)) %s.\n"%P)
            else: o.append("  - finv_tac %s %s.\n"%(inv(t),P))
        o.append("Qed.\n")
        o.append("Lemma np_%s : nopanic (c_%s F X).\nProof.\n  intros old j. refine (np_struct (fields_%s F X) _ j _). repeat apply Forall_cons; [..|apply Forall_nil].\n"%(name,name,name))
        for g,j,t,om in fs: o.append("  - exact %s.\n"%np(t))
        o.append("Qed.\n")
        o.append("Lemma wf_norm_%s x : wf_%s X n x -> wf_%s X n (norm_%s X x).\nProof.\n  intros W. unfold wf_%s in *. decompose [and] W. cbn [%s norm_%s].\n"%(name,name,name,name,name," ".join("%s_%s"%(pre,f[0]) for f in fields),name))
        tacs=[]
        for g,j,t,om in fields:
            if not wf(t): continue
            nm=cu.get("norm",{}).get(g)
            p,r=ref(t)
            if nm: tacs.append("wf_default_tac")
            elif t=="ext": tacs.append("apply (wf_norm_ext X n RO); assumption")
            elif p=="S:": tacs.append("apply wf_norm_%s; assumption"%r)
            elif p=="P:": tacs.append("apply (opt_map_wf _ _ _ (wf_norm_%s)); assumption"%r)
            elif p=="L:": tacs.append("apply (list_map_wf _ _ _ (opt_map_wf _ _ _ wf_norm_%s)); assumption"%r)
            elif p=="OL:": tacs.append("apply (opt_map_wf _ _ _ (list_map_wf _ _ _ (opt_map_wf _ _ _ wf_norm_%s))); assumption"%r)
            else: tacs.append("assumption")
        if name=="Camera": tacs.append("match goal with H : _ \\/ _ |- _ => destruct H; [left|right]; destruct (cam_Orthographic x), (cam_Perspective x); cbn; congruence end")
        for t in tacs[:-1]: o.append("  split; [%s|].\n"%t)
        o.append("  %s.\nQed.\n"%tacs[-1])
    o.append("End Inv.\n\n(** Payloads of decoded documents are settled. *)\nSection Settled.\nContext (RO : registry_ok X n).\n")
    def sinv(t):
        if t=="ext": return "(inv_settled X n RO)"
        p,r=ref(t)
        if not p: return None
        if p=="S:": return "inv_settled_%s"%r
        P="(inv_ptr zero_%s _ _ (settled_%s X) settled_zero_%s inv_settled_%s)"%(r,r,r,r)
        if p=="P:": return P
        return "(%s None _ _ (opt (settled_%s X)) (closed_wf n) I %s)"%("inv_slice" if p=="L:" else "inv_oslice",r,P)
    for name,pre,cite,fields in STRUCTS:
        cu=CUSTOM.get(name,dict(first=[],omit={},dflt={}))
        fs=[f for f in fields if f[1]!="-"]
        P="settled_"+name
        zt=["exact settled_zero_"+ref(f[2])[1] if ref(f[2])[0]=="S:" else "settled_tac" for f in fields if settled(f[2])]
        zt=" ".join("split; [%s|]."%t for t in zt[:-1])+" "+zt[-1]+"."
        o.append("\nLemma settled_zero_%s : %s X zero_%s.\nProof. unfold %s. %s Qed.\n"%(name,P,name,P,zt.replace("settled_tac|]","settled_tac|]")))
        if cu["dflt"]: o.append("Lemma settled_default_%s : %s X default_%s.\nProof. unfold %s. %s Qed.\n"%(name,P,name,P,zt))
        o.append("Lemma inv_settled_%s : inv (c_%s F X) (wf_json n) (%s X).\nProof.\n"%(name,name,P))
        o.append("  intros old j y Ho Hj H. refine (inv_struct _ _ (fields_%s F X) %s j y (closed_wf n) _ %s Hj H).\n  repeat apply Forall_cons; [..|apply Forall_nil].\n"%(name,"default_"+name if cu["dflt"] else "old","settled_default_"+name if cu["dflt"] else "Ho"))
        for g,j,t,om in fs:
            if sinv(t): o.append("  - finv_tac %s %s.\n"%(sinv(t),P))
            else: o.append("  - finv_other.\n")
        o.append("Qed.\n")
    o.append("End Settled.\n")
    for name,pre,cite,fields in STRUCTS:
        cu=CUSTOM.get(name,dict(first=[],omit={},dflt={}))
        o.append("\nLemma norm_idem_%s x : settled_%s X x -> norm_%s X (norm_%s X x) = norm_%s X x.\nProof.\n  intros W. unfold settled_%s in W. decompose [and] W. apply ext_%s; cbn [norm_%s %s].\n"%(name,name,name,name,name,name,name,name," ".join("%s_%s"%(pre,f[0]) for f in fields)))
        for g,j,t,om in fields:
            nm=cu.get("norm",{}).get(g)
            p,r=ref(t)
            if nm: o.append("  - apply %s.\n"%("or_default_idem; [reflexivity|..]; reflexivity" if nm.startswith("or_default") else "or_some_idem" if nm.startswith("or_some") else "or_version_idem"))
            elif t=="ext": o.append("  - apply norm_ext_idem; assumption.\n")
            elif p=="S:": o.append("  - apply norm_idem_%s; assumption.\n"%r)
            elif p=="P:": o.append("  - refine (opt_idem _ _ _ norm_idem_%s _); assumption.\n"%r)
            elif p=="L:": o.append("  - refine (map_idem _ _ _ (fun o => opt_idem _ _ o norm_idem_%s) _); assumption.\n"%r)
            elif p=="OL:": o.append("  - refine (opt_idem _ _ _ (fun l => map_idem _ _ l (fun o => opt_idem _ _ o norm_idem_%s)) _); assumption.\n"%r)
            else: o.append("  - reflexivity.\n")
        o.append("Qed.\n")
        first=cu["first"]
        if name=="Document": first=["Buffers"]
        fs=[f for f in fields if f[1]!="-"]
        ln="fields_"+name
        if first: ln="out_"+name; fs=[f for g in first for f in fs if f[0]==g]+[f for f in fs if f[0] not in first]
        o.append("Lemma est_%s : est (c_%s F X) (norm_%s X) (canon_%s X).\nProof.\n  intros x C. unfold canon_%s in C. decompose [and] C.\n"%(name,name,name,name,name))
        o.append("  assert (G : enc_fields (%s F X) (norm_%s X x) = enc_fields (%s F X) x).\n  { apply est_fields. repeat apply Forall_cons; [..|apply Forall_nil].\n"%(ln,name,ln))
        for g,j,t,om in fs:
            nm=cu.get("norm",{}).get(g)
            p,r=ref(t)
            if nm: o.append("    - fest_default_tac.\n")
            elif p or t=="ext": o.append("    - split; [omit_same|intros _; apply %s; assumption].\n"%fest(t))
            else: o.append("    - split; reflexivity.\n")
        o.append("  }\n")
        if name=="Asset": o.append("  cbn [c_Asset enc]. unfold enc_Asset. cbn [norm_Asset ast_Version]. unfold or_version.\n  match goal with H : ast_Version x <> _ |- _ => apply String.eqb_neq in H; rewrite H; unfold str_empty; rewrite H end.\n  unfold enc_struct. rewrite G. reflexivity.\nQed.\n")
        elif name=="Camera": o.append("  cbn [c_Camera enc]. unfold enc_Camera. rewrite G. cbn [norm_Camera cam_Perspective cam_Orthographic].\n  destruct (cam_Perspective x), (cam_Orthographic x); reflexivity.\nQed.\n")
        else: o.append("  cbn [c_%s c_struct enc]. unfold enc_struct. rewrite G. reflexivity.\nQed.\n"%name)
    o.append("End Params.\n")
    open(DIR+"DocCodecInv.v","w").write("".join(o))
if __name__=="__main__":
    gen_codec(); gen_spec(); gen_proofs(); gen_inv()
