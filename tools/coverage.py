#!/usr/bin/env python3
"""coverage.py: the functions of /repo/echidna whose lines no comment of the model cites."""
import ast, glob, os, re, sys
cites = {}
for f in glob.glob('/verif/rocq/theories/Model/*.v'):
    t = open(f).read()
    for m in re.finditer(r'(\w+\.py)(?::|,? lines? )((?:\d+(?:\s*-\s*\d+)?(?:,\s+|\s+and\s+)?)+)', t):
        for r in re.finditer(r'(\d+)(?:\s*-\s*(\d+))?', m.group(2)):
            cites.setdefault(m.group(1), []).append((int(r.group(1)), int(r.group(2) or r.group(1))))
def funcs(src):
    """(class, name, first line, last line), by indentation: the code is Python 2."""
    lines = src.split('\n'); cls = ''; out = []
    for i, l in enumerate(lines):
        m = re.match(r'class (\w+)', l)
        if m: cls = m.group(1)
        m = re.match(r'( *)def (\w+)', l)
        if m and len(m.group(1)) <= 4:
            if not m.group(1): cls = ''
            n = len(m.group(1)); j = i + 1
            while j < len(lines) and (not lines[j].strip() or len(lines[j]) - len(lines[j].lstrip()) > n or lines[j].strip().startswith(')')): j += 1
            while not lines[j-1].strip(): j -= 1
            out.append((cls, m.group(2), i + 1, j))
    return out
for p in sorted(glob.glob('/repo/echidna/**/*.py', recursive=True)):
    b = os.path.basename(p)
    if '/test/' in p or b == '__init__.py': continue
    fs = funcs(open(p).read())
    c = cites.get(b, [])
    miss = [f for f in fs if not any(a <= f[3] and e >= f[2] for a, e in c)]
    print('%s: %d functions, %d not cited' % (p[len('/repo/'):], len(fs), len(miss)))
    for k, n, a, e in miss: print('    %s%s %d-%d' % (k + '.' if k else '', n, a, e))
