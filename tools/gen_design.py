"""Write section 6 of DESIGN.md from MANIFEST.json, properties.jsonl and assumptions.json."""
import json, os
root = os.path.join(os.path.dirname(os.path.abspath(__file__)), '..')
mark = '<!-- generated below by tools/gen_design.py -->'
head = open(os.path.join(root, 'DESIGN.md')).read().split(mark)[0]
props = {}
for l in open(os.path.join(root, 'properties.jsonl')):
    d = json.loads(l)
    props[d['id']] = d
ass = json.load(open(os.path.join(root, 'tools', 'assumptions.json')))
reals = {'ClassicalDedekindReals.sig_forall_dec', 'ClassicalDedekindReals.sig_not_dec',
         'FunctionalExtensionality.functional_extensionality_dep'}
def code(n):
    a = set(ass[n])
    if not a: return 'none'
    if a == reals: return 'R'
    if a == reals - {'ClassicalDedekindReals.sig_not_dec'}: return 'R-'
    if a == reals | {'Classical_Prop.classic'}: return 'R+c'
    raise SystemExit('unexpected assumptions of %s: %s' % (n, a))
out = [head + mark, '', '## 6. Properties, theorems and their assumptions', '']
claims = json.load(open(os.path.join(root, 'MANIFEST.json')))['claims']
for c in claims:
    out.append('**%s. %s** (%s)' % (c['property'], props[c['property']]['title'], c['status']))
    out.append('')
    for t in c['theorems']:
        out.append('* `%s`: %s' % (t, code(t)))
    if c.get('note'):
        out.append('')
        out.append(c['note'])
    out.append('')
n = sum(len(c['theorems']) for c in claims)
st = {}
for c in claims: st[c['status']] = st.get(c['status'], 0) + 1
out.append('Total: %d properties (%s), %d theorems.' % (len(claims), ', '.join('%d %s' % (v, k) for k, v in sorted(st.items(), reverse=True)), n))
open(os.path.join(root, 'DESIGN.md'), 'w').write('\n'.join(out) + '\n')
