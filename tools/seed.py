#!/usr/bin/env python3
"""Try wrong programs against the theorems.

usage: seed.py MUTATIONS.json [NAME ...]

Each mutation edits one definition in a scratch copy of the theories.  The
files depending on it are rebuilt; a lemma whose proof breaks is admitted in
the scratch copy so that the rest can be checked, and at the end the theorems
of Props*.v that failed, or that rest on a failed lemma, are collected from
their Print Assumptions output.  One line per attempt goes to
/verif/seeded/LOG.jsonl.  With SEEDFAST=1 only the files with the claims named
in "breaks" are checked."""
import sys, os, re, json, subprocess, shutil
SRC = os.environ.get('SEEDSRC', '/verif/rocq'); TMP = os.environ.get('SEEDTMP', '/tmp/seed')
START = re.compile(r'^\s*(?:#\[[^\]]*\]\s*)?(?:Local\s+|Global\s+)?(Lemma|Theorem|Corollary|Example|Fact|Remark|Definition|Fixpoint|Instance)\s+([\w\']+)', re.M)

def deps():
    out = subprocess.run(['coqdep', '-Q', 'theories', 'Verif'] + files, cwd=TMP, capture_output=True, text=True).stdout
    d = {}
    for line in out.splitlines():
        m = re.match(r'(theories/\w+)\.vo .*?: (.*)', line)
        if m:
            d[m[1] + '.v'] = [x[:-3] + '.v' for x in m[2].split() if x.startswith('theories/') and x.endswith('.vo')]
    return d

def compile_one(f):
    failed = []
    path = f'{TMP}/{f}'
    for _ in range(80):
        r = subprocess.run(['timeout', '900', 'coqc', '-Q', 'theories', 'Verif', f], cwd=TMP, capture_output=True, text=True)
        if r.returncode == 0:
            return failed, r.stdout
        m = re.search(r'line (\d+), characters (\d+)-(\d+):\nError', r.stderr)
        if not m:
            return failed + ['?' + f + ' ' + r.stderr[-200:]], ''
        src = open(path).read()
        lines = src.split('\n')
        pos = sum(len(l.encode()) + 1 for l in lines[:int(m[1]) - 1]) + int(m[2])
        pos = len(src.encode()[:pos + 1].decode(errors='ignore'))
        prev = None
        for mm in START.finditer(src):
            if mm.start() > pos: break
            # the keyword must start a sentence outside a proof: accept the last one
            prev = mm
        if prev is None or prev[1] in ('Fixpoint',):
            return failed + ['?' + f + ':' + m[1]], ''
        p = re.compile(r'^\s*Proof\b|\bProof\.', re.M).search(src, prev.start())
        q = re.compile(r'\b(Qed|Defined|Admitted)\.').search(src, prev.start())
        if not p or not q or p.start() > q.start():
            return failed + ['?' + f + ':' + prev[2]], ''
        if q[1] == 'Admitted': return failed + ['?' + f + ':' + prev[2]], ''
        failed.append(prev[2])
        open(path, 'w').write(src[:p.start()] + '\nAdmitted.' + src[q.end():])
    return failed + ['?' + f], ''

def claims(mut):
    b = mut['breaks']
    return b if isinstance(b, list) else re.findall(r'C\d+', b)

def run(mut):
    global files
    shutil.rmtree(TMP, ignore_errors=True)
    shutil.copytree(SRC, TMP)
    files = [l.strip() for l in open(f'{TMP}/_CoqProject') if l.strip().endswith('.v')]
    f = 'theories/' + mut['file']
    s = open(f'{TMP}/{f}').read()
    edits = mut['edits'] if 'edits' in mut else [[mut['old'], mut['new']]]
    for o, n in edits:
        assert s.count(o) >= 1, (mut['name'], 'not found', o)
        assert s.count(o) == 1 or mut.get('all'), (mut['name'], 'ambiguous', o, s.count(o))
        s = s.replace(o, n)
    open(f'{TMP}/{f}', 'w').write(s)
    d = deps()
    aff = {f}
    for x in files:
        if any(y in aff for y in d.get(x, [])): aff.add(x)
    for x in aff:
        try: os.remove(f'{TMP}/{x}o')
        except FileNotFoundError: pass
    # SEEDFAST: only the files with the claims that should break, and what they need
    only = set()
    if os.environ.get('SEEDFAST'):
        todo = [x for x in files if x.startswith('theories/Props') and any(re.search(r'^Theorem ' + c, open(f'{TMP}/{x}').read(), re.M) for c in claims(mut))]
        while todo:
            x = todo.pop()
            if x in only: continue
            only.add(x); todo += d.get(x, [])
    lemmas, broken, unknown = [], [], []
    for x in files:
        if x not in aff or (only and x not in only): continue
        fl, out = compile_one(x)
        unknown += [y for y in fl if y.startswith('?')]
        fl = [y for y in fl if not y.startswith('?')]
        lemmas += fl
        if os.path.basename(x).startswith('Props'):
            src = open(f'{TMP}/{x}').read()
            names = re.findall(r'^Print Assumptions (\w+)\.', src, re.M)
            blocks = re.split(r'^(?=Closed under the global context|Axioms:)', out, flags=re.M)[1:]
            for nm, b in zip(names, blocks):
                if nm in fl or any(re.search(r'^' + re.escape(l) + r'\b', b, re.M) for l in lemmas):
                    broken.append(nm)
    rec = dict(name=mut['name'], definition=mut['file'] + ': ' + mut['definition'], edit=mut['edit'], breaks=mut['breaks'],
               theorems_failed=broken, lemmas_failed=[l for l in lemmas if l not in broken], theorems_tightened=mut.get('tightened', []))
    if unknown: rec['not_rebuilt'] = unknown
    if 'note' in mut: rec['note'] = mut['note']
    ids = claims(mut)
    ok = any(any(b.startswith(c) for b in broken) for c in ids)
    if only: rec['checked'] = sorted(x[9:-2] for x in only if x.startswith('theories/Props'))
    rec['outcome'] = 'caught' if ok else ('MISSED' if not unknown else 'does not build')
    if not mut['breaks']: rec['outcome'] = 'no claim broken'
    return rec

muts = json.load(open(sys.argv[1]))
want = set(sys.argv[2:])
for m in muts:
    if want and m['name'] not in want: continue
    try: rec = run(m)
    except AssertionError as e:
        print('SKIP', e, flush=True); continue
    print(rec['outcome'], rec['name'], rec['breaks'], '->', rec['theorems_failed'], rec.get('not_rebuilt', ''), flush=True)
    with open('/verif/seeded/LOG.jsonl', 'a') as fh: fh.write(json.dumps(rec) + '\n')
