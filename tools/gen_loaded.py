#!/usr/bin/env python3
"""Generates rocq/theories/SpecLoadedDoc.v (what is known of a document that was
read from JSON) and DocLoaded.v (its proofs) from the tables of gen_doc.py and
gen_codec.py."""
from gen_doc import STRUCTS
from gen_codec import DIR, CUSTOM, WF, ENUM, ref
BASE=dict(WF); BASE["ext"]="loaded_ext Q"; BASE["any"]="loaded_any"
FORM={"S:":"%s","P:":"opt %s","L:":"Forall (opt %s)","OL:":"opt (Forall (opt %s))"}
def pred(t,app=""):
    if t in BASE: return BASE[t]
    if t in ENUM: return "range %d"%ENUM[t]
    p,r=ref(t)
    if p: return FORM[p]%(("(loaded_%s%s)" if app and p!="S:" else "loaded_%s%s")%(r,app))
    return None
def ext(t):
    if t=="ext": return "%s"
    p,r=ref(t)
    if not p: return None
    return {"S:":"exts_%s (%%s)","P:":"of_opt exts_%s (%%s)","L:":"flat_map (of_opt exts_%s) (%%s)","OL:":"of_opt (flat_map (of_opt exts_%s)) (%%s)"}[p]%r
def gen_spec():
    o=['''(** What is known of a document that was read from JSON.  GENERATED by
    tools/gen_loaded.py from the struct declarations of gltf.go; do not edit.

    [loaded_T Q x]: the numbers of [x] are numbers of their Go types, none of
    them NaN or infinite, its strings are valid UTF-8, its enumerations have
    declared values, the keys of its maps are sorted, and its extensions are as
    [Q] says. *)
From Verif Require Import Base Types Doc F64 SpecText Codec SpecJson SpecGo SpecLoaded.

Section Spec.
Context (Q : string -> extv -> Prop).
''']
    for name,pre,cite,fields in STRUCTS:
        fs=[f for f in fields if f[1]!="-"]
        cs=["%s (%s_%s x)"%(pred(t),pre,g) for g,j,t,om in fs if pred(t)]
        o.append("\n(** %s *)\nDefinition loaded_%s (x : %s) : Prop :=\n  %s.\n"%(cite.split(";")[0],name,name," /\\\n  ".join(cs)))
    o.append("End Spec.\n\n(** All extensions of a value and of what it is made of. *)\n")
    for name,pre,cite,fields in STRUCTS:
        es=[ext(t)%("%s_%s x"%(pre,g)) for g,j,t,om in fields if j!="-" and ext(t)]
        o.append("Definition exts_%s (x : %s) : Extensions :=\n  %s.\n"%(name,name," ++ ".join(es) or "[]"))
    open(DIR+"SpecLoadedDoc.v","w").write("".join(o))
J="lexical"
FL="(inv_f64 F PC lexical)"
INV={"ext":"(inv_loaded_ext X Q HQ)","any":"(inv_loaded_any F PC)","str":"(inv_str lexical)","int":"(inv_int lexical)","f64":FL,"attrs":"(inv_attrs lexical)","bool":"(inv_true c_bool lexical)",
"oint":"(inv_ptr 0 c_int _ in_i64 in_i64_0 (inv_int lexical))","of64":"(inv_ptr 0 (c_f64 F) _ float_ok float_ok_0 %s)"%FL,
"ints":"(inv_slice 0 c_int _ in_i64 closed_lexical in_i64_0 (inv_int lexical))","oints":"(inv_oslice 0 c_int _ in_i64 closed_lexical in_i64_0 (inv_int lexical))",
"f64s":"(inv_slice 0 (c_f64 F) _ float_ok closed_lexical float_ok_0 %s)"%FL,"strs":"(inv_slice _ c_str _ utf8_str closed_lexical utf8_nil (inv_str lexical))",
"lattrs":"(inv_slice None c_attrs _ (opt wf_attrs) closed_lexical I (inv_attrs lexical))",
"oarr4":"(inv_ptr (repeat 0 4) _ _ (farray 4) (farray_0 4) (inv_array 0 (c_f64 F) _ float_ok 4 closed_lexical float_ok_0 %s))"%FL}
def inv(t):
    if t in INV: return INV[t]
    if t in("arr3","arr4","arr16"): return "(inv_array 0 (c_f64 F) _ float_ok %s closed_lexical float_ok_0 %s)"%(t[3:],FL)
    p,r=ref(t)
    if not p: return "(inv_%s lexical)"%t
    if p=="S:": return "il_%s"%r
    P="(inv_ptr zero_%s _ _ (loaded_%s Q) zero_loaded_%s il_%s)"%(r,r,r,r)
    if p=="P:": return P
    return "(%s None _ _ (opt (loaded_%s Q)) closed_lexical I %s)"%("inv_slice" if p=="L:" else "inv_oslice",r,P)
GOT={"ext":"apply (loaded_go_ext X Q _ HG); assumption","any":"apply loaded_go_any; assumption","f64":"apply float_go; assumption","of64":"eapply impl_opt; [exact float_go|assumption]",
"f64s":"eapply impl_all; [exact float_go|assumption]","arr3":"apply array_go; assumption","arr4":"apply array_go; assumption","arr16":"apply array_go; assumption",
"oarr4":"eapply impl_opt; [exact (array_go 4)|assumption]","attrs":"eapply impl_opt; [exact within_attrs|assumption]","lattrs":"eapply impl_all; [exact (fun o => impl_opt _ _ o within_attrs)|assumption]"}
SAT={"ext":"apply (loaded_sav_ext X Q _ HS); assumption","any":"apply loaded_sav_any; assumption","f64":"apply float_fin; assumption","of64":"eapply impl_opt; [exact float_fin|assumption]",
"f64s":"eapply impl_all; [exact float_fin|assumption]","arr3":"apply (array_fin 3); assumption","arr4":"apply (array_fin 4); assumption","arr16":"apply (array_fin 16); assumption",
"oarr4":"eapply impl_opt; [exact (array_fin 4)|assumption]"}
def step(t,tab,pre):
    if t in tab: return tab[t]
    p,r=ref(t)
    if not p: return "assumption"
    L="%s_%s"%(pre,r)
    return {"S:":"apply %s; assumption"%L,"P:":"eapply impl_opt; [exact %s|assumption]"%L,"L:":"eapply impl_all; [exact (fun o => impl_opt _ _ o %s)|assumption]"%L,
      "OL:":"eapply impl_opt; [exact (fun l => impl_all _ _ l (fun o => impl_opt _ _ o %s))|assumption]"%L}[p]
import gen_go
def gen_proofs():
    o=['''(** Decoding makes loaded documents; loaded documents are documents of a Go
    program, and which of them JSON can carry.  GENERATED by
    tools/gen_loaded.py; do not edit. *)
From Verif Require Import Base BaseFacts Types Doc F64 SpecText JsonText Codec DocCodec SpecJson CodecProofs CodecInv DocCodecBase DocInvBase
  SpecGo SpecGoDoc DocWithin SpecLoaded SpecLoadedDoc LoadedProofs.

Section Inv.
Context (F : float_lib) (X : ext_lib) (Q : string -> extv -> Prop) (PC : parse_contract F) (HQ : registry_gives X Q).
''']
    for name,pre,cite,fields in STRUCTS:
        cu=CUSTOM.get(name,dict(first=[],omit={},dflt={}))
        fs=[f for f in fields if f[1]!="-"]
        P="loaded_"+name
        zt=["exact zero_loaded_"+ref(f[2])[1] if ref(f[2])[0]=="S:" else "lzero_tac" for f in fs if pred(f[2])]
        zt=" ".join("split; [%s|]."%t for t in zt[:-1])+" "+zt[-1]+"."
        o.append("\nLemma zero_%s : %s Q zero_%s.\nProof. unfold %s. %s Qed.\n"%(P,P,name,P,zt))
        if cu["dflt"]: o.append("Lemma default_%s : %s Q default_%s.\nProof. unfold %s. %s Qed.\n"%(P,P,name,P,zt))
        o.append("Lemma il_%s : inv (c_%s F X) lexical (%s Q).\nProof.\n"%(name,name,P))
        o.append("  intros old j y Ho Hj H. refine (inv_struct _ _ (fields_%s F X) %s j y closed_lexical _ %s Hj H).\n  repeat apply Forall_cons; [..|apply Forall_nil].\n"%(name,"default_"+name if cu["dflt"] else "old","default_loaded_"+name if cu["dflt"] else "Ho"))
        for g,j,t,om in fs: o.append("  - finv_tac %s %s.\n"%(inv(t),P))
        o.append("Qed.\n")
    o.append("End Inv.\n\nSection Go.\nContext (X : ext_lib) (Q : string -> extv -> Prop) (HG : forall k e, Q k e -> go_extv X k e).\n")
    def conv(sec,kind,table,tab,pre):
        for name,pf,cite,fields in STRUCTS:
            fs=[f for f in fields if f[1]!="-"]
            ts=[step(t,tab,pre) for g,j,t,om in fs if gen_go.pred(t,table,kind)]
            if kind=="savable" and name=="Camera": ts.append("assumption")
            if kind=="savable" and name=="Document":
                ts=[("apply loaded_cameras; assumption" if g=="Cameras" else step(t,tab,pre)) for g,j,t,om in fs if gen_go.pred(t,table,kind)]
            hyp={"Camera":"has_projection x -> ","Document":"Forall (opt has_projection) (doc_Cameras x) -> "}.get(name,"") if kind=="savable" else ""
            o.append("Lemma %s_%s x : loaded_%s Q x -> %s%s_%s X x.\nProof.\n  intros W%s. unfold loaded_%s in W. decompose [and] W. clear W. unfold %s_%s.\n"%(pre,name,name,hyp,kind,name," C" if hyp else "",name,kind,name))
            for t in ts[:-1]: o.append("  split; [%s|].\n"%t)
            o.append("  %s.\nQed.\n"%ts[-1])
            if kind=="savable" and name=="Camera":
                o.append("Lemma loaded_cameras l : Forall (opt (loaded_Camera Q)) l -> Forall (opt has_projection) l -> Forall (opt (savable_Camera X)) l.\nProof. apply Forall_opt2. exact sav_Camera. Qed.\n")
    conv("Go","go",gen_go.GO,GOT,"lgo")
    o.append("End Go.\n\nSection Sav.\nContext (X : ext_lib) (Q : string -> extv -> Prop) (HS : forall k e, Q k e -> savable_extv X k e).\n")
    conv("Sav","savable",gen_go.SAV,SAT,"sav")
    o.append("End Sav.\n\nSection All.\nContext (Q Q' : string -> extv -> Prop).\n")
    for name,pf,cite,fields in STRUCTS:
        fs=[f for f in fields if f[1]!="-"]
        es=[t for g,j,t,om in fs if ext(t)]
        o.append("Lemma lall_%s x : loaded_%s Q x -> all_ext Q (exts_%s x).\nProof.\n  intros W. unfold loaded_%s in W. decompose [and] W. clear W. unfold exts_%s.\n"%(name,name,name,name,name))
        ts=[]
        for t in es:
            p,r=ref(t)
            ts.append("eapply loaded_all_ext; eassumption" if t=="ext" else {"S:":"apply lall_%s; assumption","P:":"eapply all_of_opt; [exact lall_%s|assumption]","L:":"eapply all_of_list; [exact lall_%s|assumption]",
              "OL:":"eapply all_of_opt; [exact (fun l => all_of_list _ _ _ l lall_%s)|assumption]"}[p]%r)
        for t in ts[:-1]: o.append("  apply all_ext_app; [%s|].\n"%t)
        o.append("  %s.\nQed.\n"%(ts[-1] if ts else "constructor"))
        ts=[]
        for g,j,t,om in fs:
            if not pred(t): continue
            p,r=ref(t)
            if t=="ext": ts.append("eapply loaded_ext_with; eassumption")
            elif p: ts.append({"S:":"apply lwith_%s; assumption","P:":"eapply opt_with; [exact lwith_%s|assumption|assumption]","L:":"eapply list_with; [exact lwith_%s|assumption|assumption]",
                "OL:":"eapply opt_with; [exact (fun l => list_with _ _ _ _ l lwith_%s)|assumption|assumption]"}[p]%r)
            else: ts.append("assumption")
        o.append("Lemma lwith_%s x : loaded_%s Q x -> all_ext Q' (exts_%s x) -> loaded_%s Q' x.\nProof.\n  intros W A. unfold loaded_%s in W. decompose [and] W. clear W. unfold exts_%s in A. repeat (apply all_ext_app_inv in A; let H := fresh in destruct A as [H A]). unfold loaded_%s.\n"%((name,)*7))
        for t in ts[:-1]: o.append("  split; [%s|].\n"%t)
        o.append("  %s.\nQed.\n"%ts[-1])
    o.append("End All.\n")
    # the extensions of a savable loaded document are savable
    o.append("\nSection Back.\nContext (X : ext_lib) (Q : string -> extv -> Prop).\nNotation QS := (fun k e => Q k e /\\ savable_extv X k e).\n")
    for name,pf,cite,fields in STRUCTS:
        fs=[f for f in fields if f[1]!="-"]
        ts=[]
        for g,j,t,om in fs:
            if not pred(t): continue
            p,r=ref(t)
            if t=="ext": ts.append("apply loaded_ext_back; assumption")
            elif p: ts.append({"S:":"apply lback_%s; assumption","P:":"eapply opt2; [exact lback_%s|assumption|assumption]","L:":"eapply Forall_opt2; [exact lback_%s|assumption|assumption]",
                "OL:":"eapply opt2; [exact (fun l => Forall_opt2 _ _ _ l lback_%s)|assumption|assumption]"}[p]%r)
            else: ts.append("assumption")
        o.append("Lemma lback_%s x : loaded_%s Q x -> savable_%s X x -> loaded_%s QS x.\nProof.\n  intros W V. unfold loaded_%s in W. unfold savable_%s in V. decompose [and] W. decompose [and] V. clear W V. unfold loaded_%s.\n"%(name,name,name,name,name,name,name))
        for t in ts[:-1]: o.append("  split; [%s|].\n"%t)
        o.append("  %s.\nQed.\n"%ts[-1])
    o.append("End Back.\n")
    open(DIR+"DocLoaded.v","w").write("".join(o))
if __name__=="__main__":
    gen_spec(); gen_proofs()
