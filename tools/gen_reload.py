#!/usr/bin/env python3
"""Generates rocq/theories/DocReload.v: the codecs of the document types are
stable (Reload.v)."""
import re
from gen_doc import STRUCTS
from gen_codec import DIR
src=open(DIR+'DocCodec.v').read()
o=[r'''(** What decoding does to used values, for the document types.  GENERATED by
    tools/gen_reload.py; do not edit. *)
From Verif Require Import Base BaseFacts Types Doc F64 SpecText JsonText Codec DocCodec SpecJson CodecProofs DocCodecBase DocCodecProofs Reload.

Section Params.
Context (F : float_lib) (X : ext_lib).
Ltac enum := first [apply st_uint | match goal with
  | |- stable ?c => exact (st_ignores c (fun j => dec c 0 j) (fun _ _ => eq_refl))
  | |- stable ?c => exact (st_ignores c (fun j => dec c CFloat j) (fun _ _ => eq_refl))
  | |- stable ?c => exact (st_ignores c (fun j => dec c AScalar j) (fun _ _ => eq_refl))
  end].
''']
names=re.findall(r'^Definition c_(\w+) : codec \w+',src,re.M)
done=[]
for n in names:
    body=re.search(r'Definition c_%s : codec \w+ :=\s*(.*?)\.\n\n|Definition c_%s : codec \w+ :=\s*(.*?)\.\nEnd'%(n,n),src,re.S)
    b=body.group(1) or body.group(2)
    if 'fun _ j' in b:
        o.append(f'''Lemma st_{n} : stable (c_{n} F X).
Proof. apply (st_ignores _ (fun j => dec_struct (fields_{n} F X) default_{n} j)). reflexivity. Qed.''')
    else:
        rest='buf_Data' if n=='Buffer' else '(fun _ => tt)'
        own=' | '.join(['apply st_'+d for d in done])
        own=(' | '+own) if own else ''
        o.append(f'''Lemma st_{n} : stable (c_{n} F X).
Proof.
  apply (st_struct (fields_{n} F X) {rest}).
  - unfold fields_{n}. repeat apply Forall_cons; try apply Forall_nil; cbn [st_field];
      repeat first [apply st_str | apply st_bool | apply st_int | apply st_f64 | apply st_any | apply st_ext | apply st_attrs{own} | apply st_ptr | apply st_slice | apply st_oslice | enum].
  - lens_tac.
  - indep_tac.
  - keeps_tac.
  - intros x y A R. unfold fields_{n} in A. agree_tac A. apply ext_{n}; first [assumption | reflexivity].
  - reflexivity.
Qed.''')
    done.append(n)
o.append('End Params.')
open(DIR+'DocReload.v','w').write('\n'.join(o)+'\n')
