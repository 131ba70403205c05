#!/usr/bin/env python3
"""Generates rocq/theories/SpecKeepDoc.v (what JSON keeps of any document) and
DocKeepProofs.v from the tables of gen_doc.py and gen_codec.py."""
from gen_doc import STRUCTS
from gen_codec import CUSTOM,DIR,K,ref,depth,lvl
FIT={"ext":"fit_ext X rep n","any":"fit_any n","int":"in_i64","oint":"opt in_i64","ints":"Forall in_i64","oints":"opt (Forall in_i64)","f64":"float_ok","of64":"opt float_ok",
"f64s":"Forall float_ok","arr3":"farray 3","arr4":"farray 4","arr16":"farray 16","oarr4":"opt (farray 4)","attrs":"opt fit_attrs","lattrs":"Forall (opt fit_attrs)",
"at":"(fun v => at_valid v = true)","tgt":"range 65536"}
KEPT={"ext":"kept_ext X rep","any":"kept_any rep","str":"rep","strs":"map rep","attrs":"option_map (kept_attrs rep)","lattrs":"map (option_map (kept_attrs rep))",
"ct":"kept_ct","mode":"kept_mode","alpha":"kept_enum 3","mag":"kept_enum 3","minf":"kept_enum 7","wrap":"kept_enum 3","interp":"kept_enum 3","trs":"kept_enum 4"}
FORM={"S:":"%s","P:":"opt %s","L:":"Forall (opt %s)","OL:":"opt (Forall (opt %s))"}
MAP={"S:":"%s","P:":"option_map %s","L:":"map (option_map %s)","OL:":"option_map (map (option_map %s))"}
def fit(t,args=""):
    if t in FIT: return FIT[t]
    p,r=ref(t)
    if p: return FORM[p]%(("(fit_%s%s)"%(r,args)) if args else "fit_"+r)
    return None
def kept(t,args=""):
    if t in KEPT: return KEPT[t]
    p,r=ref(t)
    if p: return MAP[p]%(("(kept_%s%s)"%(r,args)) if args else "kept_"+r)
    return None
def knorm(cu,name,g):
    if name=="Asset" and g=="Version": return "kept_version rep"
    return cu.get("norm",{}).get(g)
def gen_spec():
    o=['''(** What JSON keeps of any document.  GENERATED by tools/gen_keep.py; do not
    edit.

    [kept_T]: the value with strings repaired, colliding keys merged, unknown
    values of enumerations replaced, unset or zero optional properties replaced
    by the glTF defaults, extensions read by their decoder, and without the
    bytes of buffers. *)
From Verif Require Import Base Types Doc F64 SpecText Codec SpecJson SpecKeep.

Section Spec.
Context (X : ext_lib) (rep : string -> string).
''']
    for name,pre,cite,fields in STRUCTS:
        cu=CUSTOM.get(name,{})
        vs=[]
        for g,j,t,om in fields:
            if j=="-": vs.append("[]"); continue
            nm=knorm(cu,name,g) or kept(t)
            vs.append("(%s (%s_%s x))"%(nm,pre,g) if nm else "(%s_%s x)"%(pre,g))
        o.append("Definition kept_%s (x : %s) : %s :=\n  mk%s %s.\n"%(name,name,name,name,"\n    ".join(vs)))
    o.append("End Spec.\n")
    open(DIR+"SpecKeepDoc.v","w").write("".join(o))

RK={"any":"apply (rk_any rep R F HF)","str":"apply (rk_str rep R)","int":"apply rt_int","bool":"apply rt_bool","f64":"apply rt_f64; exact HF",
"ext":"apply (rk_ext rep R X)","attrs":"apply (rk_attrs rep R n); reflexivity","at":"apply rt_at","tgt":"apply rt_tgt",
"oint":"apply rt_oint","of64":"apply (rt_of64 F HF)","ints":"apply (rt_slice 0 c_int n in_i64 (fun v => v)), rt_int",
"oints":"apply (rt_oslice 0 c_int n in_i64 (fun v => v)), rt_int","f64s":"apply (rt_slice 0 (c_f64 F) n float_ok (fun v => v)), rt_f64, HF",
"strs":"apply (rk_strs rep R n)","lattrs":"apply (rt_slice None c_attrs (S n) (opt fit_attrs) (option_map (kept_attrs rep))), (rk_attrs rep R); reflexivity",
"oarr4":"apply (rt_oarr4 F HF); cbn; auto"}
ARGS=" X rep n"; KARGS=" X rep"
def lem(t):
    if t in RK: return RK[t]
    if t in("arr3","arr4","arr16"): return "apply (rt_array 0 (c_f64 F) n %s); [intros; apply rt_f64, HF|reflexivity]"%t[3:]
    p,r=ref(t)
    if not p: return "apply rk_"+t
    if p=="S:": return "apply rk_%s"%r+("" if r in CUSTOM else "; reflexivity")
    if p=="P:": return "apply rk_ptr_%s"%r+("" if r in CUSTOM else "; reflexivity")
    return "apply (%s None _ _ (opt (fit_%s X rep n)) (option_map (kept_%s X rep))), rk_ptr_%s; reflexivity"%("rt_slice" if p=="L:" else "rt_oslice",r,r,r)
def fitx(t):
    return "(%s)"%fit(t,ARGS) if fit(t) else "(fun _ => True)"
def keptx(t):
    k=kept(t,KARGS)
    if k: return "(%s)"%k
    if t in("ints","f64s"): return "(map (fun v => v))"
    if t=="oints": return "(option_map (map (fun v => v)))"
    if t in("oint","of64","oarr4"): return "(option_map (fun v => v))"
    return "(fun v => v)"
def evlem(t):
    if t=="ext": return "apply ev_ext; assumption"
    if t=="any": return "apply ev_any; assumption"
    p,r=ref(t)
    if p=="S:": return "apply ev_%s; assumption"%r
    if p: return "apply (%s _ _ _ _ ev_%s); assumption"%({"P:":"ev_ptr","L:":"ev_list","OL:":"ev_olist"}[p],r)
    return "apply ev_const; "+{"f64":"apply fit_float; assumption","of64":"apply fit_ofloat; assumption","f64s":"apply fit_floats; assumption","arr3":"apply fit_farray; assumption","arr4":"apply fit_farray; assumption","arr16":"apply fit_farray; assumption","oarr4":"apply fit_ofarray; assumption"}.get(t,"assumption")
ACCS='''Lemma ev_Accessors d : typed d = true -> Forall (opt (go_Accessor X)) (doc_Accessors d) -> Forall (opt (savable_Accessor X)) (doc_Accessors d) ->
  ev (fun n => Forall (opt (fit_Accessor X rep n)) (doc_Accessors d)).
Proof.
  intros TY G W. apply (ev_all (fun n => opt (fit_Accessor X rep n))). unfold typed in TY. rewrite forallb_forall in TY. rewrite Forall_forall in *.
  intros o Ho. apply ev_opt. specialize (TY o Ho). specialize (G o Ho). specialize (W o Ho). destruct o as [x|]; [|exact I]. exact (ev_Accessor x G W TY).
Qed.
'''
def gen_proofs():
    o=['''(** What is read back of any document.  GENERATED by tools/gen_keep.py; do
    not edit. *)
From Verif Require Import Base BaseFacts Types Doc F64 SpecText JsonText Codec DocCodec SpecJson SpecJsonDoc CodecProofs DocCodecBase DocCodecProofs
  CodecInv SpecGo SpecGoDoc SpecKeep SpecKeepDoc KeepProofs.

(** The values that encode and whose encoding is read without error, with
    extensions and extras nested at most [n] deep. *)
Section Fit.
Context (X : ext_lib) (rep : string -> string).
''']
    for name,pre,cite,fields in STRUCTS:
        cs=["%s (%s_%s x)"%(fit(t," n"),pre,g) for g,j,t,om in fields if fit(t)]
        if name=="Camera": cs.append("(cam_Orthographic x <> None \\/ cam_Perspective x <> None)")
        o.append("\nDefinition fit_%s (n : nat) (x : %s) : Prop :=\n  %s.\n"%(name,name," /\\\n  ".join(cs)))
    o.append("End Fit.\n")
    o.append('''
Section Fits.
Context (X : ext_lib) (rep : string -> string) (T : registry_total X).
''')
    for name,pre,cite,fields in STRUCTS:
        hyp="at_valid (acr_Type x) = true -> " if name=="Accessor" else "typed x = true -> " if name=="Document" else ""
        o.append("Lemma ev_%s x : go_%s X x -> savable_%s X x -> %sev (fun n => fit_%s X rep n x).\nProof.\n  intros G W%s. unfold go_%s in G. unfold savable_%s in W. decompose [and] G. decompose [and] W. unfold fit_%s.\n"%(name,name,name,hyp,name," TY" if hyp else "",name,name,name))
        ts=[evlem(t) for g,j,t,om in fields if fit(t)]
        if name=="Camera": ts.append("apply ev_const; assumption")
        if name=="Document": ts=[t.replace("apply (ev_list _ _ _ _ ev_Accessor); assumption","apply ev_Accessors; assumption") for t in ts]
        o.append("".join("  apply ev_and; [%s|].\n"%t for t in ts[:-1])+"  %s.\nQed.\n"%ts[-1])
        if name=="Accessor": o.append(ACCS)
    o.append('''End Fits.

Section Params.
Context (F : float_lib) (X : ext_lib) (rep : string -> string) (HF : float_contract F) (R : repairs rep) (n : nat).
''')
    for name,pre,cite,fields in STRUCTS:
        cu=CUSTOM.get(name,dict(first=[],omit={},dflt={}))
        fs=[f for f in fields if f[1]!="-"]
        k=max(depth(f[2]) for f in fs); K[name]=k+1
        first=["Buffers"] if name=="Document" else cu["first"]
        lists=[("fields_"+name,fs)]
        if first: lists=[("out_"+name,[f for g in first for f in fs if f[0]==g]+[f for f in fs if f[0] not in first])]
        if name=="Asset": lists.append(("out_Asset",[f for f in fs if f[0]=="Version"]+[f for f in fs if f[0]!="Version"]))
        dflt="default_"+name if cu["dflt"] else "zero_"+name
        for ln,fl in lists:
            hyp="fit_%s X rep n x"%name
            if name=="Asset": hyp+=" -> ast_Version x <> \"\"%string"
            o.append('''Lemma fields_rk_%s x : %s -> forall pre, Forall (skipped (fields_%s F X) (n + %d)) pre ->
  exists m, enc_fields (%s F X) x = Ok m /\\ wf_json (n + %d) (JObj (pre ++ m)) /\\
    dec_struct (fields_%s F X) %s (JObj (pre ++ m)) = Ok (kept_%s X rep x).
Proof.
  intros W%s. unfold fit_%s in W. decompose [and] W.
  replace (n + %d)%%nat with (S (n + %d)) by lia.
  apply rt_fields.
  - plain_tac.
  - lens_tac.
  - indep_tac.
'''%(ln,hyp,name,k,ln,k+1,name,dflt,name," NV" if name=="Asset" else "",name,k+1,k))
            o.append("  - repeat apply Forall_cons; [..|apply Forall_nil].\n")
            for g,j,t,om in fl:
                o.append("    + apply (fspec_intro _ _ _ _ _ _ _ _ _ %s %s); [apply (rt_mono _ %s); [%s|lia]|kfield_tac|komit_tac rep R].\n"%(fitx(t),keptx(t),lvl(t),lem(t)))
            o.append("  - intros y A K. unfold %s in A, K. agree_tac A. apply ext_%s; try assumption.%s\nQed.\n"%(ln,name," rewrite K by keeps_tac. reflexivity." if name=="Buffer" else ""))
        old="forall old, " if cu["dflt"] else "forall old, old = zero_%s -> "%name
        o.append("Lemma rk_%s : %srt (c_%s F X) (n + %d) old (fit_%s X rep n) (kept_%s X rep).\n"%(name,old,name,k+1,name,name))
        intro="intros old x W" if cu["dflt"] else "intros old -> x W"
        ln=lists[0][0]
        if name=="Asset":
            o.append('''Proof.
  intros old x W. cbn [c_Asset enc dec]. unfold enc_Asset. destruct (str_empty (ast_Version x)) eqn:E.
  - apply String.eqb_eq in E.
    destruct (fields_rk_out_Asset (set_ast_Version "2.0" x)) with (pre := @nil (string * json)) as (m & Em & Wm & Dm).
    + exact W.
    + discriminate.
    + apply Forall_nil.
    + exists (JObj m). unfold enc_struct. rewrite Em. split; [reflexivity|]. split; [exact Wm|].
      cbn [app] in Dm. rewrite Dm. f_equal.
      assert (V : rep "2.0"%string = "2.0"%string) by (apply (repairs_utf8 rep R), ascii_utf8; reflexivity).
      clear - E V. destruct x; cbn in E; subst. unfold kept_Asset, kept_version; cbn. rewrite V. reflexivity.
  - apply String.eqb_neq in E.
    destruct (fields_rk_fields_Asset x W E [] (Forall_nil _)) as (m & Em & Wm & Dm).
    exists (JObj m). unfold enc_struct. rewrite Em. split; [reflexivity|]. split; [exact Wm|exact Dm].
Qed.
''')
        elif name=="Camera":
            o.append('''Proof.
  intros old -> x W. cbn [c_Camera enc dec]. unfold enc_Camera.
  assert (C : cam_Orthographic x <> None \\/ cam_Perspective x <> None) by (unfold fit_Camera in W; decompose [and] W; assumption).
  assert (S : forall s, s = "perspective"%%string \\/ s = "orthographic"%%string ->
    Forall (skipped (fields_Camera F X) (n + %d)) [("type"%%string, JStr s)]).
  { intros s Hs. constructor; [|constructor]. split; [vm_compute; reflexivity|]. split; [apply ascii_utf8; reflexivity|].
    split; [reflexivity|]. cbn [snd]. constructor. replace s with (quote_str s) by (destruct Hs as [-> | ->]; vm_compute; reflexivity).
    apply quote_str_body. }
  destruct (cam_Perspective x); [|destruct (cam_Orthographic x)].
  - destruct (fields_rk_fields_Camera x W _ (S _ (or_introl eq_refl))) as (m & Em & Wm & Dm).
    eexists. rewrite Em. split; [reflexivity|]. split; [exact Wm|exact Dm].
  - destruct (fields_rk_fields_Camera x W _ (S _ (or_intror eq_refl))) as (m & Em & Wm & Dm).
    eexists. rewrite Em. split; [reflexivity|]. split; [exact Wm|exact Dm].
  - destruct C as [C|C]; contradiction.
Qed.
'''%k)
        else:
            o.append('''Proof.
  %s. destruct (fields_rk_%s x W [] (Forall_nil _)) as (m & Em & Wm & Dm).
  exists (JObj m). cbn [c_%s c_struct enc dec]. unfold enc_struct. rewrite Em. split; [reflexivity|]. split; [exact Wm|exact Dm].
Qed.
'''%(intro,ln,name))
        o.append('''Lemma rk_ptr_%s : %srt (c_ptr zero_%s (c_%s F X)) (n + %d) old (opt (fit_%s X rep n)) (option_map (kept_%s X rep)).
Proof.
  %s. apply rt_ptr.
  - intros o Ho. apply rk_%s.%s
  - intros x j W E. %s
Qed.
'''%(name,"forall old, " if cu["dflt"] else "forall old, old = None -> ",name,name,k+1,name,name,"intros old" if cu["dflt"] else "intros old ->",name,"" if cu["dflt"] else " destruct Ho as [Ho|[_ Ho]]; [discriminate|exact Ho].",
  {"Asset":"cbn in E. unfold enc_Asset in E. destruct (str_empty (ast_Version x)); exact (enc_struct_nonnull _ _ _ E).",
   "Camera":"cbn in E. unfold enc_Camera in E. destruct (cam_Perspective x), (cam_Orthographic x), (enc_fields (fields_Camera F X) x); cbn in E; try discriminate E; injection E as <-; discriminate."}.get(name,"exact (enc_struct_nonnull _ _ _ E).")))
    o.append("End Params.\n")
    open(DIR+"DocKeepProofs.v","w").write("".join(o))
if __name__=="__main__":
    gen_spec(); gen_proofs()
