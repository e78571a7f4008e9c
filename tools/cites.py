#!/usr/bin/env python3
"""cites.py: the definitions of the model whose comment names no file and lines of /repo."""
import glob, re
n = bad = 0
for f in sorted(glob.glob('/verif/rocq/theories/Model/*.v')):
    lines = open(f).read().split('\n'); text = '\n'.join(lines)
    for i, l in enumerate(lines):
        m = re.match(r'\s*(?:Local |#\[.*\] )?(Definition|Fixpoint|Record|Inductive|CoFixpoint|Function|with)\s+(\w+)', l)
        if not m or (m.group(1) == 'with' and l.startswith(' ')): continue
        n += 1
        # the comment that ends on a line before, with only definitions without blank lines between
        j = i - 1; buf = []
        while j >= 0 and not lines[j].strip().endswith('*)'): j -= 1
        k = j
        while k >= 0 and '(*' not in lines[k]: k -= 1
        c = ' '.join(lines[k:j+1])
        between = lines[j+1:i]
        own = not any(re.match(r'\s*(Definition|Fixpoint|Record|Inductive)', x) for x in between)
        body = []
        for x in lines[i:]:
            body.append(x)
            if x.rstrip().endswith('.') or x.rstrip().endswith('*)') and '. ' in x: break
        if not own or not re.search(r'\w\.py\b.*\d', c):
            bad += 1; print('%s:%d %s %s| %s' % (f.split('/')[-1], i+1, m.group(2), '' if own else '(no comment) ', c.strip()[:90]))
print(n, 'definitions', bad, 'without')
