#!/usr/bin/env python3
"""Generates rocq/theories/DocWithin.v: the well-formed documents of
SpecJsonDoc are documents of a Go program that JSON can carry."""
from gen_doc import STRUCTS
from gen_codec import DIR
o=[r'''(** Well-formed documents (SpecJsonDoc) are documents of a Go program that JSON
    can carry (SpecGoDoc).  GENERATED by tools/gen_within.py; do not edit. *)
From Verif Require Import Base BaseFacts Types Doc F64 SpecText JsonText Codec SpecJson SpecJsonDoc CodecProofs SpecGo SpecGoDoc.

Lemma impl_opt {A} (P Q : A -> Prop) o : (forall x, P x -> Q x) -> opt P o -> opt Q o.
Proof. intros H. destruct o; cbn [opt]; auto. Qed.
Lemma impl_all {A} (P Q : A -> Prop) l : (forall x, P x -> Q x) -> Forall P l -> Forall Q l.
Proof. intros H. apply Forall_impl. exact H. Qed.
Lemma within_any v : forall n, wf_any n v -> go_any v /\ savable_any v.
Proof.
  induction v as [| | | |l IH|m IH] using any_ind'; intros n W; inversion W; subst.
  - split; constructor.
  - split; constructor.
  - match goal with H : float_ok _ |- _ => destruct H end. split; constructor; assumption.
  - split; constructor.
  - match goal with H : Forall _ l |- _ => rename H into Q end. rewrite Forall_forall in IH, Q.
    split; constructor; rewrite Forall_forall; intros x I; apply (IH x I _ (Q x I)).
  - match goal with H : Forall _ m |- _ => rename H into Q end. rewrite Forall_forall in IH, Q.
    split; constructor; rewrite Forall_forall; intros x I; apply (IH x I _ (proj2 (Q x I))).
Qed.
Lemma within_float f : float_ok f -> go_float f /\ finite f.
Proof. intros [H1 H2]. split; assumption. Qed.
Lemma within_array k l : farray k l -> go_array k l /\ Forall finite l.
Proof. intros [H1 H2]. split; [split; [exact H1|]|]; (eapply Forall_impl; [|exact H2]); intros f Hf; apply (within_float f Hf). Qed.
Lemma within_attrs m : wf_attrs m -> go_attrs m.
Proof. intros [_ H]. eapply Forall_impl; [|exact H]. intros p [_ Hp]. exact Hp. Qed.
Lemma both {A B C : Prop} : (A -> B /\ C) -> (A -> B) /\ (A -> C).
Proof. tauto. Qed.

Section Within.
Context (X : ext_lib) (n : nat).
Lemma within_ext m : wf_ext X n m -> go_ext X m /\ savable_ext X m.
Proof.
  intros [_ H]. split; (eapply Forall_impl; [|exact H]); intros [k e] [_ He]; cbn [fst snd] in *; destruct e as [j|v].
  - exists n. exact (proj1 He).
  - destruct He as (j & E & W). cbn [go_extv]. rewrite E. exists n. exact (proj1 W).
  - exact I.
  - destruct He as (j & E & W). exists j. exact E.
Qed.
Ltac leaf := first [ assumption | tauto
  | match goal with H : wf_ext X n ?m |- _ ?m => apply (within_ext m H) end
  | match goal with H : wf_any n ?v |- _ ?v => apply (within_any v n H) end
  | match goal with H : float_ok ?v |- _ ?v => apply (within_float v H) end
  | match goal with H : farray _ ?v |- _ ?v => apply (within_array _ v H) end
  | match goal with H : wf_attrs ?v |- _ ?v => apply (within_attrs v H) end ].
Ltac part := first [ leaf
  | match goal with H : Forall _ ?l |- Forall _ ?l => refine (impl_all _ _ l _ H); clear; intros ? ?; part end
  | match goal with H : opt _ ?o |- opt _ ?o => refine (impl_opt _ _ o _ H); clear; intros ? ?; part end ].
''']
known=[]
def leaf():
    base='''first [ assumption | tauto
  | match goal with H : wf_ext X n ?m |- _ ?m => apply (within_ext m H) end
  | match goal with H : wf_any n ?v |- _ ?v => apply (within_any v n H) end
  | match goal with H : float_ok ?v |- _ ?v => apply (within_float v H) end
  | match goal with H : farray _ ?v |- _ ?v => apply (within_array _ v H) end
  | match goal with H : wf_attrs ?v |- _ ?v => apply (within_attrs v H) end'''
    return base+"".join("\n  | match goal with H : wf_%s X n ?v |- _ ?v => apply (within_%s v H) end"%(k,k) for k in known)+" ]"
for name,pre,cite,fields in STRUCTS:
    used=[k for k in known if any(k in (f[2].split(":")[-1],) for f in fields)]
    full=known; known=used
    if used: o.append("Ltac leaf ::= %s.\n"%leaf())
    known=full
    o.append('''Lemma within_%s x : wf_%s X n x -> go_%s X x /\\ savable_%s X x.
Proof. intros W. unfold wf_%s in W. decompose [and] W. clear W. unfold go_%s, savable_%s. split; repeat match goal with |- _ /\\ _ => split end; part. Qed.
'''%((name,)*7))
    known.append(name)
o.append("End Within.\n")
open(DIR+"DocWithin.v","w").write("".join(o))
