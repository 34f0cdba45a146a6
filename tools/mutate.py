#!/usr/bin/env python3
"""Edit the model in a scratch copy and find out which theorems no longer prove.

usage: mutate.py MUTANTS.json OUT.jsonl    (a list of {id, file, old, new, claim, [nth]})

Mutants already in OUT.jsonl are skipped.  KEEP=1 keeps the snapshot of an earlier run.

In the copy every lemma whose proof breaks is closed with Admitted so that the files above it
still compile; a theorem counts as failed if Print Assumptions then lists such a lemma.
Results are appended to OUT.jsonl, one JSON line per mutant.  Nothing under /verif is changed.
"""
import json, os, re, shutil, subprocess, sys, threading
from concurrent.futures import ThreadPoolExecutor, FIRST_COMPLETED, wait

SRC = '/verif/rocq'
BASE = '/tmp/mut/base'
WORK = '/tmp/mut/work'
STD = {'sig_forall_dec', 'sig_not_dec', 'functional_extensionality_dep', 'classic'}
LIMIT = int(os.environ.get('LIMIT', '240'))


def files():
    return [l.strip().split('/')[1][:-2] for l in open(BASE + '/_CoqProject') if l.startswith('theories/')]


def deps():
    d = {}
    for f in files():
        t = open('%s/%s.v' % (BASE, f)).read()
        d[f] = set()
        for m in re.finditer(r'From Verif Require Import ([^.]*)\.', t):
            d[f] |= set(m.group(1).split())
    return d


def above(f, d):
    s = {f}
    ch = True
    while ch:
        ch = False
        for g in d:
            if g not in s and d[g] & s:
                s.add(g)
                ch = True
    return s


def coqc(f):
    try:
        p = subprocess.run(['coqc', '-time', '-Q', '.', 'Verif', f + '.v'], cwd=WORK, capture_output=True, text=True, timeout=LIMIT)
        return p.returncode, p.stdout, p.stderr
    except subprocess.TimeoutExpired as e:
        return 124, (e.stdout or b'').decode(), ''


def strip_comments(s):
    out, depth, i = [], 0, 0
    while i < len(s):
        if s.startswith('(*', i):
            depth += 1; i += 2; out.append('  ')
        elif s.startswith('*)', i) and depth:
            depth -= 1; i += 2; out.append('  ')
        else:
            out.append(s[i] if depth == 0 or s[i] == '\n' else ' '); i += 1
    return ''.join(out)


def admit(f, pos):
    """Admit the proof around byte position pos; return the lemma's name or None."""
    path = '%s/%s.v' % (WORK, f)
    raw = open(path, 'rb').read()
    s = strip_comments(raw.decode('latin1'))
    best = None
    for m in re.finditer(r'\bProof\b[^.]*\.(?=\s)', s):
        q = re.compile(r'\b(Qed|Defined|Admitted)\.').search(s, m.end())
        if q and m.start() <= pos <= q.end():
            best = (m.start(), q.start(), q.end())
    if not best:
        return None
    a, b, c = best
    names = [m for m in re.finditer(r'\b(?:Lemma|Theorem|Example|Corollary|Fact|Remark|Definition|Instance)\s+([A-Za-z0-9_\']+)', s[:a])]
    if not names:
        return None
    if raw[b:c] == b'Admitted.':
        return None
    new = raw[:a] + b'Admitted.' + b'\n' * raw[a:c].count(b'\n') + raw[c:]
    open(path, 'wb').write(new)
    return names[-1].group(1)


def compile_file(f):
    """-> (ok, list of admitted names, stdout)"""
    bad = []
    for _ in range(60):
        rc, out, err = coqc(f)
        if rc == 0:
            return True, bad, out
        if rc == 124:
            ms = re.findall(r'^Chars (\d+) - (\d+)', out, re.M)
            if not ms:
                return False, bad, 'timeout at start'
            pos = int(ms[-1][1]) + 2
        else:
            m = re.search(r'line (\d+), characters (\d+)-(\d+):\s*\n(?:Error|.*\n)*', err)
            ms = re.findall(r'File "[^"]*", line (\d+), characters (\d+)-(\d+):\s*\nError', err)
            if not ms:
                return False, bad, err[-400:]
            ln, ch = int(ms[-1][0]), int(ms[-1][1])
            raw = open('%s/%s.v' % (WORK, f), 'rb').read()
            pos = sum(len(x) + 1 for x in raw.split(b'\n')[:ln - 1]) + ch
        n = admit(f, pos)
        if n is None:
            return False, bad, err[-400:]
        bad.append(n)
    return False, bad, 'too many'


def assumptions(f, out):
    """theorem -> set of non-standard assumptions, from the outputs in order"""
    src = open('%s/%s.v' % (WORK, f)).read()
    names = re.findall(r'^Print Assumptions ([A-Za-z0-9_\']+)\.', src, re.M)
    blocks, cur = [], None
    for l in out.split('\n'):
        if l.startswith('Axioms:'):
            cur = set(); blocks.append(cur)
        elif l.startswith('Closed under the global context'):
            blocks.append(set()); cur = None
        elif l.startswith('Chars '):
            cur = None
        elif cur is not None:
            m = re.match(r'^([A-Za-z0-9_\'.]+)(\s*:.*)?$', l)
            if m:
                cur.add(m.group(1))
    return {n: {x for x in b if x.split('.')[-1] not in STD} for n, b in zip(names, blocks)}, len(names) == len(blocks)


def run(mut, d):
    if os.path.exists(WORK):
        shutil.rmtree(WORK)
    shutil.copytree(BASE, WORK, copy_function=os.link)
    f = mut['file']
    path = '%s/%s.v' % (WORK, f)
    s = open(path).read()
    k = s.count(mut['old'])
    nth = mut.get('nth')
    if k == 0 or (k > 1 and nth is None):
        return dict(mut, error='pattern occurs %d times' % k)
    if nth is None:
        s = s.replace(mut['old'], mut['new'])
    else:
        parts = s.split(mut['old'])
        s = mut['old'].join(parts[:nth + 1]) + mut['new'] + mut['old'].join(parts[nth + 1:])
    todo = above(f, d)
    for g in todo:
        for suf in ('.v', '.vo', '.vos', '.vok', '.glob', '.aux'):
            p = '%s/%s%s' % (WORK, g, suf)
            if suf == '.v':
                t = open(p).read(); os.remove(p); open(p, 'w').write(t)
            elif os.path.exists(p):
                os.remove(p)
    os.remove(path); open(path, 'w').write(s)
    done, res, failedfiles = set(), {}, {}
    pend = set(todo)
    lock = {}
    with ThreadPoolExecutor(int(os.environ.get('JOBS', '3'))) as ex:
        running = {}
        while pend or running:
            for g in sorted(pend):
                if (d[g] & set(failedfiles)):
                    failedfiles[g] = 'needs ' + ','.join(sorted(d[g] & set(failedfiles))); pend.discard(g); continue
                if not ((d[g] & todo) - done):
                    running[ex.submit(compile_file, g)] = g; pend.discard(g)
            if not running:
                if not pend: break
                continue
            fin, _ = wait(list(running), return_when=FIRST_COMPLETED)
            for x in fin:
                g = running.pop(x)
                ok, bad, out = x.result()
                res[g] = (ok, bad, out)
                if ok: done.add(g)
                else: failedfiles[g] = out
    broken, theorems, survived, examples = [], [], [], []
    for g in sorted(res):
        ok, bad, out = res[g]
        broken += ['%s.%s' % (g, n) for n in bad]
        if g.startswith('Properties'):
            if ok:
                a, fine = assumptions(g, out)
                for n, b in a.items():
                    (theorems if b else survived).append(n)
                if not fine: broken.append(g + ' (assumption list incomplete)')
    for g in failedfiles:
        src = open('%s/%s.v' % (WORK, g)).read()
        theorems += [n + '(file)' for n in re.findall(r'^Print Assumptions ([A-Za-z0-9_\']+)\.', src, re.M)]
    return dict(mut, failed=sorted(theorems), survived=sorted(survived), broken=broken, files={g: failedfiles[g][:300] for g in failedfiles})


def main():
    os.makedirs('/tmp/mut', exist_ok=True)
    if not (os.environ.get('KEEP') and os.path.exists(BASE)):
        shutil.rmtree(BASE, ignore_errors=True)
        shutil.copytree(SRC + '/theories', BASE)
        shutil.copy(SRC + '/_CoqProject', BASE)
    d = deps()
    out = sys.argv[2]
    done = {json.loads(l)['id'] for l in open(out)} if os.path.exists(out) else set()
    for m in json.load(open(sys.argv[1])):
        if m['id'] not in done:
            r = json.dumps(run(m, d))
            open(out, 'a').write(r + '\n')


if __name__ == '__main__':
    main()
