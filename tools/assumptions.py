#!/usr/bin/env python3
"""Write the Print Assumptions table and the list of findings of DESIGN.md (between the markers).

Needs an up-to-date build in rocq/.
"""
import glob, hashlib, json, multiprocessing.pool, os, re, shutil, subprocess
ROOT = os.path.dirname(os.path.dirname(os.path.abspath(__file__)))
TH = ROOT + '/rocq/theories'
W = '/tmp/assumptions'
SHORT = {'sig_forall_dec': 'D', 'sig_not_dec': 'N', 'functional_extensionality_dep': 'F', 'classic': 'C'}
CACHE = '/tmp/assumptions.json'


def listed(f):
    """The axioms below each theorem of f, from its compiled file."""
    mod = os.path.basename(f)[:-2]
    key = mod + ' ' + hashlib.sha256(open(f + 'o', 'rb').read()).hexdigest()
    if key in cache:
        return key, cache[key]
    names = re.findall(r'^Print Assumptions ([A-Za-z0-9_\']+)\.', open(f).read(), re.M)
    src = '%s/Show_%s.v' % (W, mod)
    open(src, 'w').write('From Verif Require %s.\n' % mod + ''.join('Print Assumptions %s.%s.\n' % (mod, n) for n in names))
    out = subprocess.run(['coqc', '-Q', TH, 'Verif', src], cwd=W, capture_output=True, text=True, check=True).stdout
    blocks = []
    for l in out.split('\n'):
        if l.startswith('Axioms:'):
            blocks.append([])
        elif l.startswith('Closed under'):
            blocks.append([])
        else:
            m = re.match(r'^([A-Za-z][A-Za-z0-9_\'.]*)(\s*:.*)?$', l)
            if m:
                blocks[-1].append(m.group(1))
    assert len(names) == len(blocks), (f, len(names), len(blocks))
    return key, [(n, ''.join(sorted(SHORT[x.split('.')[-1]] for x in b)) or 'none') for n, b in zip(names, blocks)]


shutil.rmtree(W, ignore_errors=True)
os.makedirs(W)
cache = json.load(open(CACHE)) if os.path.exists(CACHE) else {}
with multiprocessing.pool.ThreadPool(3) as pool:
    found = pool.map(listed, sorted(glob.glob(TH + '/Properties*.v')), 1)
json.dump(dict(found), open(CACHE, 'w'))
rows = [tuple(r) for _, l in found for r in l]
rows.sort()
groups = {}
for n, a in rows:
    groups.setdefault(a, []).append(n)
txt = ['%d theorems.' % len(rows), '']
for a in sorted(groups, key=lambda a: (a != 'none', len(a), a)):
    txt.append('**%s** (%d): %s' % (a, len(groups[a]), ', '.join('`%s`' % n for n in groups[a])))
    txt.append('')


def fill(name, lines):
    p = ROOT + '/DESIGN.md'
    s = open(p).read()
    a, b = '<!-- %s: begin -->' % name, '<!-- %s: end -->' % name
    i, j = s.index(a) + len(a), s.index(b)
    open(p, 'w').write(s[:i] + '\n' + '\n'.join(lines) + '\n' + s[j:])


fill('assumptions', txt)
title = {d['id']: d['title'] for d in map(json.loads, open(ROOT + '/properties.jsonl'))}
fill('findings', ['* **%s** %s.  %s' % (c['property'], title[c['property']], c['note'])
                  for c in json.load(open(ROOT + '/MANIFEST.json'))['claims'] if c['status'] == 'partial'])
print(len(rows), {k: len(v) for k, v in groups.items()})
