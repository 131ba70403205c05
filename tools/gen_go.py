#!/usr/bin/env python3
"""Generates rocq/theories/SpecGoDoc.v (the documents of a Go program, which of
them JSON can carry) and DocExact.v (the encoder succeeds exactly on those and
then writes well-formed JSON) from the tables of gen_doc.py and gen_codec.py."""
from gen_doc import STRUCTS
from gen_codec import DIR, CUSTOM, codec, omit, ref
ARR={"arr3":3,"arr4":4,"arr16":16}
GO={"ext":"go_ext X","any":"go_any","int":"in_i64","oint":"opt in_i64","ints":"Forall in_i64","oints":"opt (Forall in_i64)",
"f64":"go_float","of64":"opt go_float","f64s":"Forall go_float","arr3":"go_array 3","arr4":"go_array 4","arr16":"go_array 16","oarr4":"opt (go_array 4)",
"attrs":"opt go_attrs","lattrs":"Forall (opt go_attrs)","tgt":"range 65536"}
SAV={"ext":"savable_ext X","any":"savable_any","f64":"finite","of64":"opt finite","f64s":"Forall finite","arr3":"Forall finite","arr4":"Forall finite",
"arr16":"Forall finite","oarr4":"opt (Forall finite)"}
def pred(t,table,pre,app=""):
    if t in table: return table[t]
    p,r=ref(t)
    if p: return {"S:":"%s","P:":"opt %s","L:":"Forall (opt %s)","OL:":"opt (Forall (opt %s))"}[p]%(("(%s_%s%s)" if app and p!="S:" else "%s_%s%s")%(pre,r,app))
    return None
def gen_spec():
    o=['''(** The documents of a Go program, and which of them JSON can carry.
    GENERATED by tools/gen_go.py from the struct declarations of gltf.go; do
    not edit.

    [go_T x]: the numbers of [x] are numbers of their Go types.
    [savable_T x]: no float of [x] is NaN or infinite, each camera has a
    projection and the encoder of each registered extension succeeds. *)
From Verif Require Import Base Types Doc F64 SpecText Codec SpecJson SpecGo.

Section Spec.
Context (X : ext_lib).
''']
    for name,pre,cite,fields in STRUCTS:
        fs=[f for f in fields if f[1]!="-"]
        for kind,table in(("go",GO),("savable",SAV)):
            cs=["%s (%s_%s x)"%(pred(t,table,kind),pre,g) for g,j,t,om in fs if pred(t,table,kind)]
            if name=="Camera" and kind=="savable": cs.append("(cam_Orthographic x <> None \\/ cam_Perspective x <> None)")
            c="(** %s *)\n"%cite.split(";")[0] if kind=="go" else ""
            o.append("\n%sDefinition %s_%s (x : %s) : Prop :=\n  %s."%(c,kind,name,name," /\\\n  ".join(cs)))
        o.append("\n")
    o.append("End Spec.\n")
    open(DIR+"SpecGoDoc.v","w").write("".join(o))
LEM={"ext":"apply ex_ext","any":"apply ex_any, HF","str":"apply ex_str","int":"apply ex_int","bool":"apply ex_bool","f64":"apply ex_f64, HF","attrs":"apply ex_attrs",
"oint":"apply ex_ptr, ex_int","of64":"apply ex_ptr, ex_f64, HF","ints":"apply ex_slice, ex_int","oints":"apply ex_oslice, ex_int","f64s":"apply ex_slice, ex_f64, HF",
"strs":"apply ex_slice, ex_str","lattrs":"apply ex_slice, ex_attrs","oarr4":"apply ex_ptr, ex_array, HF","ct":"apply ex_ct","at":"apply ex_at","tgt":"apply ex_tgt"}
def lem(t):
    if t in LEM: return LEM[t]
    if t in ARR: return "apply ex_array, HF"
    p,r=ref(t)
    if not p: return "apply ex_"+t
    return {"S:":"apply ex_%s","P:":"apply ex_ptr, ex_%s","L:":"apply ex_slice, ex_ptr, ex_%s","OL:":"apply ex_oslice, ex_ptr, ex_%s"}[p]%r
def tot(t,table,kind):
    """The predicate in full: containers of unconstrained values included."""
    q=pred(t,table,kind," X")
    if q: return "(%s)"%q
    return {"strs":"(Forall (fun _ => True))","oint":"(opt (fun _ => True))","ints":"(Forall (fun _ => True))","oints":"(opt (Forall (fun _ => True)))",
            "lattrs":"(Forall (fun _ => True))"}.get(t,"(fun _ => True)")
def gen_proofs():
    o=['''(** When the encoder of each document type succeeds, and that it writes
    well-formed JSON.  GENERATED by tools/gen_go.py; do not edit. *)
From Verif Require Import Base BaseFacts Types Doc F64 SpecText JsonText Codec DocCodec SpecJson CodecProofs SpecGo SpecGoDoc EncodeExact.

Section Params.
Context (F : float_lib) (X : ext_lib) (HF : float_contract F).
''']
    for name,pre,cite,fields in STRUCTS:
        cu=CUSTOM.get(name,dict(first=[],omit={},dflt={}))
        fs=[f for f in fields if f[1]!="-"]
        first=cu["first"]
        if name=="Document": first=["Buffers"]
        lists=[("fields_"+name,fs)]
        if first: lists=[("out_"+name,[f for g in first for f in fs if f[0]==g]+[f for f in fs if f[0] not in first])]
        if name=="Asset": lists.append(("out_Asset",[f for f in fs if f[0]=="Version"]+[f for f in fs if f[0]!="Version"]))
        sav="savable_%s X"%name if name!="Camera" else "(fun x => savable_ext X (cam_Extensions x) /\\ savable_any (cam_Extras x) /\\ opt (savable_Orthographic X) (cam_Orthographic x) /\\ opt (savable_Perspective X) (cam_Perspective x))"
        for ln,fl in lists:
            o.append('''
Lemma exf_%s : exact_fields (go_%s X) (%s) (%s F X).
Proof.
  apply (exact_fields_intro _ _ _ [%s]).
'''%(ln,name,sav,ln,";\n    ".join("(fun x => %s (%s_%s x))"%(tot(t,SAV,"savable"),pre,g) for g,j,t,om in fl)))
            o.append("  - repeat apply Forall2_cons; [..|apply Forall2_nil].\n")
            for g,j,t,om in fl:
                o.append("    + apply (fexact_intro _ %s %s); [name_tac|%s|go_tac go_%s|omit_exact_tac].\n"%(tot(t,GO,"go"),tot(t,SAV,"savable"),lem(t),name))
            o.append("  - intros x. unfold savable_%s. sav_tac.\nQed.\n"%name)
        o.append("Lemma ex_%s : exact (go_%s X) (savable_%s X) (c_%s F X).\n"%(name,name,name,name))
        if name=="Asset":
            o.append('''Proof.
  intros x G. cbn [c_Asset enc]. unfold enc_Asset. destruct (str_empty (ast_Version x)) eqn:E.
  - apply (exact_struct _ _ _ exf_out_Asset (set_ast_Version "2.0" x)). exact G.
  - apply (exact_struct _ _ _ exf_fields_Asset x G).
Qed.
''')
        elif name=="Camera":
            o.append('''Proof.
  intros x G. cbn [c_Camera enc]. unfold enc_Camera, savable_Camera. pose proof (exf_fields_Camera x G) as E. cbv beta in E. revert E.
  destruct (cam_Perspective x) as [p|] eqn:Ep; [|destruct (cam_Orthographic x) as [q|] eqn:Eq]; intros E.
  - destruct (enc_fields (fields_Camera F X) x) as [m|e|]; cbn [bind]; [|tauto|exact E].
    split; [apply lexical_type; [name_tac|apply E]|]. split; [apply E|]. split; [apply E|]. split; [apply E|]. split; [apply E|right; discriminate].
  - destruct (enc_fields (fields_Camera F X) x) as [m|e|]; cbn [bind]; [|tauto|exact E].
    split; [apply lexical_type; [name_tac|apply E]|]. split; [apply E|]. split; [apply E|]. split; [apply E|]. split; [apply E|left; discriminate].
  - intros (_ & _ & _ & _ & [C|C]); contradiction.
Qed.
''')
        else:
            o.append("Proof. exact (exact_struct _ _ _ exf_%s). Qed.\n"%lists[0][0])
    o.append("End Params.\n")
    open(DIR+"DocExact.v","w").write("".join(o))
if __name__=="__main__":
    gen_spec(); gen_proofs()
