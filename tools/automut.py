#!/usr/bin/env python3
"""automut.py out.jsonl [-s seed] [-n per-definition] [File.v ...]: one-token edits of the
definitions of the model, chosen at random, each checked as in seed.py but only until the
first property theorem has failed.  An edit with no failed theorem is a survivor: it is
either equivalent or shows a weak theorem, and is looked at by hand."""
import concurrent.futures, glob, hashlib, json, os, random, re, shutil, sys
import seed as S
W0 = '/root/scratch/auto0'; W = '/root/scratch/auto1'
S.W = W; S.W0 = W0
OPS = [
 (r'\bqlt\b', ['qle']), (r'\bqle\b', ['qlt']), (r'<\?', ['<=?']), (r'<=\?', ['<?']), (r'\bNat\.ltb\b', ['Nat.leb']), (r'\bNat\.leb\b', ['Nat.ltb']),
 (r'\bRlt_dec\b', ['Rle_dec']), (r'\bRle_dec\b', ['Rlt_dec']), (r'\bqeq\b', ['qlt']), (r'=\?', ['<=?']),
 (r'(?<=[\w)]) \+ (?=[\w(])', [' - ']), (r'(?<=[\w)]) - (?=[\w(])', [' + ']), (r'(?<=[\w)]) \* (?=[\w(])', [' + ']), (r'(?<=[\w)]) / (?=[\w(])', [' * ']),
 (r'&&', ['||']), (r'\|\|', ['&&']), (r'\bnegb ', ['']), (r'\btrue\b', ['false']), (r'\bfalse\b', ['true']),
 (r'\b0\b', ['1']), (r'\b1\b', ['0', '2']), (r'\b2\b', ['1', '3']), (r'\(S i\)', ['i']), (r'\(S n\)', ['n']),
 (r'\bfst\b', ['snd']), (r'\bsnd\b', ['fst']), (r'\bEValueError\b', ['ETypeError']), (r'\bEIndexError\b', ['EKeyError']), (r'\bETypeError\b', ['EValueError']),
 (r'\bEKeyError\b', ['EIndexError']), (r'\bEAttributeError\b', ['EKeyError']), (r'\bEZeroDivisionError\b', ['EValueError']), (r'\bEException\b', ['EValueError']),
 (r'\bECompatibilityError\b', ['EException']), (r'\bELimitError\b', ['EValueError']), (r'\bEIOError\b', ['EKeyError']),
 (r'\bdo _ <- [^;\n]*;', ['']), (r'\bqfloor\b', ['qceil']), (r'\bqceil\b', ['qfloor']), (r'\bqround\b', ['qfloor']), (r'\bforallb\b', ['existsb']), (r'\bexistsb\b', ['forallb']),
 (r'\bSome \w+(?=\s*(\)|\.|$|else|;))', ['None']), (r'"(\w+)"', [None]), (r'\bhd\b', ['last']), (r'\brev\b ', ['']), (r'\bremove_at\b', ['insert_at 0']),
 (r'\bif (?!negb)([^\n]*?) then', ['NEG']), (r'\bOk (\w+)\b(?=\s*(\)|\.|$|else|;))', []),
]
def strip_comments(t):
    """Same length, comments blanked."""
    out = list(t); d = 0; i = 0; q = False
    while i < len(t):
        if d == 0 and t[i] == '"': q = not q
        if not q and t[i:i+2] == '(*': d += 1; out[i] = out[i+1] = ' '; i += 2; continue
        if not q and d and t[i:i+2] == '*)': d -= 1; out[i] = out[i+1] = ' '; i += 2; continue
        if d and t[i] != '\n': out[i] = ' '
        i += 1
    return ''.join(out)
def mutants(path):
    t = open(path).read(); c = strip_comments(t)
    ds = [(m.start(), m.group(2)) for m in re.finditer(r'^(Definition|Fixpoint|Record|Inductive|Section|End|Notation|Variable|Context|Lemma|From|Local|Ltac|Arguments)\s+([\w\']+)', c, flags=re.M)]
    for k, (a, n) in enumerate(ds):
        if not re.match(r'Definition|Fixpoint', c[a:a+10]): continue
        b = ds[k+1][0] if k + 1 < len(ds) else len(c)
        i = c.find(':=', a, b)
        if i < 0: continue
        for pat, news in OPS:
            for m in re.finditer(pat, c[i+2:b]):
                p, q = i + 2 + m.start(), i + 2 + m.end(); old = t[p:q]
                for new in news:
                    if new == 'NEG': new = 'if negb (%s) then' % m.group(1)
                    if new is None: new = '"%s_"' % m.group(1)
                    line = t.count('\n', 0, p) + 1
                    yield n, p, q, old, new, line
def files_in_order(seed):
    fs = set(f for f, _ in S.closure(seed) if f.startswith('Pro'))
    dep = {}
    for (f, _), used in S.G.items(): dep.setdefault(f, set()).update(g for g, _ in used if g != f)
    depth = {}
    def dp(f):
        if f not in depth: depth[f] = 0; depth[f] = 1 + max([dp(g) for g in dep.get(f, ())] or [0])
        return depth[f]
    return sorted(fs, key=lambda f: (dp(f), f))
def refresh():
    """W like W0, changing only what differs (build products of unchanged files are kept)."""
    shutil.rmtree(W, ignore_errors=True); shutil.copytree(W0, W, copy_function=shutil.copy2)
def attempt(file, n, p, q, new):
    refresh()
    path = W + '/theories/Model/' + file
    t = open(path).read(); open(path, 'w').write(t[:p] + new + t[q:])
    rc, out = S.sh('make -j4 theories/Model/%s' % (file + 'os'), W)
    if rc: return 'invalid', [], []
    lost = []
    names = set(t for c in json.load(open(S.V + '/MANIFEST.json'))['claims'] for t in c['theorems'])
    def failed(): return sorted(x for f, x in S.closure(lost) if f.startswith('Properties/') and x in names)
    for f in files_in_order([('Model/' + file[:-2], n)]):
        while True:
            rc, out = S.sh('make -k -j4 theories/%s.vos COQEXTRAFLAGS="-set \'Default Timeout=100\'"' % f, W)
            if rc == 0: break
            es = dict.fromkeys(S.ERR.findall(out))
            if not es: return 'broken', failed(), [out[-500:]]
            for g, l in es:
                x = S.admit(W + '/' + g, int(l))
                if x is None:
                    return ('invalid' if not lost else 'broken'), failed(), [g + ':' + l]
                lost.append((g[9:-2], x))
            if failed(): return 'killed', failed(), [x for _, x in lost]
        while True:
            rc, out = S.sh('ulimit -v 7000000; timeout 1500 coqc -vok -set \'Default Timeout=100\' -R theories Verif theories/%s.v' % f, W)
            if rc == 0: break
            e = S.ERR.findall(out.replace('File "theories', 'File "./theories'))
            x = e and S.admit(W + '/' + e[0][0], int(e[0][1]))
            if not x: return 'broken', failed(), [out[-500:]]
            lost.append((f, x))
            if failed(): return 'killed', failed(), [x for _, x in lost]
    return 'SURVIVED', [], [x for _, x in lost]
def main():
    a = sys.argv[1:]; out = a.pop(0); sd = 1; per = 1
    if '-s' in a: i = a.index('-s'); sd = int(a[i+1]); del a[i:i+2]
    if '-n' in a: i = a.index('-n'); per = int(a[i+1]); del a[i:i+2]
    os.makedirs(W0, exist_ok=True); S.prepare(); S.G = S.graph(); S.USERS = {}
    for k, used in S.G.items():
        for u in used: S.USERS.setdefault(u, set()).add(k)
    fs = a or sorted(os.path.basename(f) for f in glob.glob(S.V + '/rocq/theories/Model/*.v'))
    done = set()
    if os.path.exists(out):
        for l in open(out): d = json.loads(l); done.add((d['file'], d['definition'], d['line'], d['old'], d['new'])); done.add((d['file'], d['definition']))
    for file in fs:
        ms = {}
        for m in mutants(W0 + '/theories/Model/' + file): ms.setdefault(m[0], []).append(m)
        for n, l in ms.items():
            if (file, n) in done and '-more' not in a: continue
            rnd = random.Random(int(hashlib.md5(('%d%s%s' % (sd, file, n)).encode()).hexdigest(), 16)); rnd.shuffle(l)
            k = 0
            for n, p, q, old, new, line in l[:per + 4]:
                if k == per: break
                if (file, n, line, old, new) in done: continue
                st, fl, lost = attempt(file, n, p, q, new)
                src = open(W0 + '/theories/Model/' + file).read().split('\n')[line-1]
                with open(out, 'a') as o: o.write(json.dumps({'file': file, 'definition': n, 'line': line, 'old': old, 'new': new, 'text': src.strip()[:200], 'status': st, 'failed': fl[:12], 'lost': lost[:6]}) + '\n')
                if st != 'invalid': k += 1
if __name__ == '__main__': main()
