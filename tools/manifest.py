import re,glob,json,os
notes=json.load(open('/verif/tools/notes.json'))  # id -> [status,note]
thms={}
for f in sorted(glob.glob('/verif/rocq/theories/Props*.v')):
    for m in re.finditer(r'^Theorem\s+((C\d+)_[\w\']+)',open(f).read(),re.M):
        thms.setdefault(m.group(2),[]).append(m.group(1))
claims=[]
for cid in sorted(thms,key=lambda c:int(c[1:])):
    st,nt=notes.get(cid,[None,''])
    if st is None:
        st='partial' if any(t.endswith(('_partial','_refuted')) for t in thms[cid]) else 'proved'
    claims.append(dict(property=cid,status=st,theorems=thms[cid],note=nt))
json.dump(dict(claims=claims),open('/verif/MANIFEST.json','w'),indent=1)
print(len(claims),'claims',sum(len(c['theorems']) for c in claims),'theorems')
for c in claims:
    if not c['note']: print('no note',c['property'])
