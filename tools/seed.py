#!/usr/bin/env python3
"""seed.py [ids...]: apply each mutation of seeded/mutations.py to a scratch copy of the
model and recheck every proof of every file that depends on the edited definition.  In the
scratch copy only, a proof that no longer goes through is given up, so that the rest of its
file is still checked.  A property theorem counts as failed if its proof, or one it rests
on, was given up.  Appends one line per mutation to seeded/LOG.jsonl; mutations that are in
the log already are skipped.  -n: do not write the log."""
import bisect, concurrent.futures, json, os, re, shutil, subprocess, sys
V = '/verif'; W0 = '/root/scratch/seed0'; W = '/root/scratch/seed1'
sys.path.insert(0, V + '/seeded')
from mutations import M
LOG = V + '/seeded/LOG.jsonl'

def sh(cmd, cwd):
    r = subprocess.run(cmd, shell=True, cwd=cwd, stdout=subprocess.PIPE, stderr=subprocess.STDOUT, text=True)
    return r.returncode, r.stdout

def prepare():
    """W0: the sources without Print Assumptions, with .vos files."""
    for d, _, fs in os.walk(V + '/rocq/theories'):
        e = W0 + d[len(V + '/rocq'):]
        os.makedirs(e, exist_ok=True)
        for f in fs:
            if not f.endswith('.v'): continue
            t = re.sub(r'^Print Assumptions .*$', '', open(d + '/' + f).read(), flags=re.M)
            b = e + '/' + f
            if not os.path.exists(b) or open(b).read() != t: open(b, 'w').write(t)
        for f in os.listdir(e):
            if f.endswith('.v') and not os.path.exists(d + '/' + f): os.remove(e + '/' + f)
    shutil.copy2(V + '/rocq/_CoqProject', W0 + '/_CoqProject')
    sh('coq_makefile -f _CoqProject -o Makefile', W0)
    rc, out = sh('make -j4 vos', W0)
    assert rc == 0, out[-2000:]

def graph():
    """From the .glob files: (file, item) -> set of (file, name) used in it."""
    g = {}
    for d, _, fs in os.walk(V + '/rocq/theories'):
        for f in fs:
            if not f.endswith('.glob'): continue
            rel = os.path.relpath(d + '/' + f[:-5], V + '/rocq/theories')
            defs, refs = [], []
            for l in open(d + '/' + f):
                m = re.match(r'^(prf|thm|def|ex|defax|ind|rec) (\d+):\d+ (\S+) (\S+)', l)
                if m: defs.append((int(m.group(2)), m.group(4)))
                m = re.match(r'^R(\d+):\d+ Verif\.(\S+) \S+ (\S+) \S+', l)
                if m: refs.append((int(m.group(1)), m.group(2).replace('.', '/'), m.group(3)))
            src = open(d + '/' + f[:-5] + '.v', 'rb').read()
            skip = [(m.start(), m.end()) for m in re.finditer(rb'^Print Assumptions .*$', src, flags=re.M)]
            refs = [r for r in refs if not any(a <= r[0] < b for a, b in skip)]
            defs.sort()
            starts = [x for x, _ in defs]
            for _, n in defs: g.setdefault((rel, n), set())
            for pos, mod, n in refs:
                i = bisect.bisect_right(starts, pos) - 1
                if i >= 0: g[(rel, defs[i][1])].add((mod, n))
    return g
def closure(seed):
    bad, todo = set(seed), list(seed)
    while todo:
        x = todo.pop()
        for k in USERS.get(x, ()):
            if k not in bad: bad.add(k); todo.append(k)
    return bad

START = re.compile(r'^\s*(?:Local |Global )?(Lemma|Theorem|Example|Corollary|Fact|Remark|Definition|Fixpoint|Instance|Inductive|Record)\s+(\S+)')
def admit(path, line):
    s = open(path).read().split('\n')
    i = line - 1
    while i >= 0 and not START.match(s[i]): i -= 1
    if i < 0: return None
    m = START.match(s[i])
    if m.group(1) in ('Definition', 'Fixpoint', 'Inductive', 'Record'): return None
    j = i
    while not re.search(r'\bProof\b', s[j]): j += 1
    k = j
    while k < len(s) and not re.search(r'(Qed|Defined)\.\s*$', s[k]): k += 1
    if k == len(s): return None
    if not (i <= line - 1 <= k): return None
    s[j:k+1] = [s[j][:s[j].index('Proof')] + 'Proof. Admitted.'] + [''] * (k - j)
    open(path, 'w').write('\n'.join(s))
    return m.group(2)

ERR = re.compile(r'File "\./(theories/[^"]+)", line (\d+), characters [0-9-]+:\s*\nError')
class Broken(Exception): pass

def check(f):
    lost = []
    while True:
        rc, out = sh('ulimit -v 7000000; timeout 1500 coqc -vok -set \'Default Timeout=150\' -R theories Verif theories/%s.v' % f, W)
        if rc == 0: return f, lost
        e = ERR.findall(out.replace('File "theories', 'File "./theories'))
        if not e: raise Broken(out[-1500:])
        n = admit(W + '/' + e[0][0], int(e[0][1]))
        if n is None: raise Broken('broken definition ' + out[-1500:])
        lost.append(n)

def run(m):
    shutil.rmtree(W, ignore_errors=True)
    shutil.copytree(W0, W, copy_function=shutil.copy2)
    for file, old, new in [(m['file'], m['old'], m['new'])] + m.get('also', []):
        p = W + '/theories/' + file; t = open(p).read()
        assert t.count(old) == 1, (m['id'], t.count(old))
        open(p, 'w').write(t.replace(old, new))
    lost = []
    while True:
        rc, out = sh('make -k -j4 vos COQEXTRAFLAGS="-set \'Default Timeout=150\'"', W)
        if rc == 0: break
        es = dict.fromkeys(ERR.findall(out))
        if not es: raise Broken(out[-1500:])
        for f, l in es:
            n = admit(W + '/' + f, int(l))
            if n is None: raise Broken('broken definition %s:%s\n%s' % (f, l, out[-1500:]))
            lost.append((f[9:-2], n))
    seed = [(m['file'][:-2], m['def'])] + [(m['file'][:-2], d) for d in m.get('defs', [])]
    for x in seed: assert x in G, x
    files = sorted(set(f for f, _ in closure(seed) if f.startswith('Pro')))
    with concurrent.futures.ThreadPoolExecutor(4) as ex:
        for f, ns in ex.map(check, files): lost += [(f, n) for n in ns]
    failed = set(n for f, n in closure(lost) if f.startswith('Properties/'))
    names = [t for c in json.load(open(V + '/MANIFEST.json'))['claims'] for t in c['theorems']]
    return [t for t in names if t in failed], [n for _, n in lost]

def main():
    global G, USERS
    dry = '-n' in sys.argv
    want = [a for a in sys.argv[1:] if a != '-n']
    done = set(json.loads(l)['id'] for l in open(LOG)) if os.path.exists(LOG) else set()
    os.makedirs(W0, exist_ok=True)
    prepare()
    G = graph(); USERS = {}
    for k, used in G.items():
        for u in used: USERS.setdefault(u, set()).add(k)
    for m in M:
        if (want and m['id'] not in want) or (not want and m['id'] in done): continue
        try: failed, lost = run(m)
        except (Broken, AssertionError) as e:
            print(m['id'], 'INVALID', e, flush=True); continue
        expect = m['breaks']
        hit = [c for c in expect if any(f.startswith(c + '_') for f in failed)]
        print(m['id'], 'breaks', expect, 'MISSED ' + str(sorted(set(expect) - set(hit))) if hit != expect else 'ok', 'failed', failed, 'lemmas', lost, flush=True)
        rec = {'id': m['id'], 'definition': m['def'], 'file': 'rocq/theories/' + m['file'], 'edit': m['edit'],
               'claim': m['claim'], 'claims_expected': expect, 'theorems_failed': failed, 'proofs_failed': lost,
               'theorems_tightened': m.get('tightened', [])}
        if not dry:
            with open(LOG, 'a') as f: f.write(json.dumps(rec) + '\n')
if __name__ == '__main__': main()
