"""Ask Coq for the assumptions of every property theorem; write tools/assumptions.json.
Needs a finished build of /verif/rocq.  With module names as arguments, only these are asked again."""
import glob, json, os, re, subprocess, sys, tempfile
here = os.path.dirname(os.path.abspath(__file__))
th = os.path.join(here, '..', 'rocq', 'theories')
out_file = os.path.join(here, 'assumptions.json')
res = json.load(open(out_file)) if sys.argv[1:] else {}
for f in sorted(glob.glob(os.path.join(th, 'Props_*.v'))):
    mod = os.path.basename(f)[:-2]
    if sys.argv[1:] and mod not in sys.argv[1:]: continue
    names = re.findall(r'^Theorem (C\d\d\d?\w*)', open(f).read(), re.M)
    with tempfile.TemporaryDirectory() as d:
        q = os.path.join(d, 'q.v')
        with open(q, 'w') as o:
            o.write('From Verif Require Import %s.\n' % mod)
            for n in names:
                o.write('Check 0. Print Assumptions %s.\n' % n)
        out = subprocess.run(['coqc', '-Q', th, 'Verif', q], capture_output=True, text=True)
        if out.returncode:
            raise SystemExit(out.stderr)
    parts = re.split(r'^0\n?\s*: nat\n', out.stdout, flags=re.M)[1:]
    assert len(parts) == len(names), (mod, len(parts), len(names))
    for n, p in zip(names, parts):
        res[n] = [] if 'Closed under the global context' in p else \
            sorted(re.findall(r'^(\w+(?:\.\w+)+)\s*:?', p, re.M) +
                   [m for m in re.findall(r'^([a-z]\w*) :', p, re.M)])
json.dump(res, open(out_file, 'w'), indent=0, sort_keys=True)
sets = {}
for n, a in res.items():
    sets.setdefault(tuple(a), []).append(n)
for a, ns in sets.items():
    print(len(ns), a)
