#!/usr/bin/env python3
"""Print Assumptions of every theorem of MANIFEST.json, grouped, written into DESIGN.md."""
import json,re,subprocess,collections,glob,os
man=json.load(open('/verif/MANIFEST.json'))
where={}
for f in glob.glob('/verif/rocq/theories/Properties/*.v'):
    for n in re.findall(r'^\s*(?:Theorem|Lemma|Corollary)\s+(\w+)',open(f).read(),re.M):
        where.setdefault(n,os.path.basename(f)[:-2])
names=[]
for c in man['claims']:
    for t in c['theorems']:
        if t not in names: names.append(t)
files=sorted({where[n] for n in names})
src=''.join(f'From Verif Require Properties.{f}.\n' for f in files)
for n in names: src+=f'Goal True. idtac "@@ {n}". Abort.\nPrint Assumptions Verif.Properties.{where[n]}.{n}.\n'
os.makedirs('/tmp/asm',exist_ok=True)
open('/tmp/asm/A.v','w').write(src)
out=subprocess.run('coqc -Q /verif/rocq/theories Verif /tmp/asm/A.v',shell=True,capture_output=True,text=True)
if out.returncode: print(out.stderr[-2000:]); raise SystemExit(1)
d=collections.OrderedDict()
for block in out.stdout.split('@@ ')[1:]:
    n,rest=block.split('\n',1)
    ax=tuple(sorted(set(re.findall(r'^(\S+)\s*:',rest,re.M))-{'Axioms'}))
    d.setdefault(ax,[]).append(n.strip())
text=''
for ax,ns in d.items():
    text+='* **'+('no axioms' if not ax else ', '.join('`%s`'%a for a in ax))+f'** ({len(ns)} theorems): '+', '.join(ns)+'\n\n'
p='/verif/DESIGN.md'; t=open(p).read()
t=re.sub(r'(<!-- assumptions -->\n).*?(<!-- end -->)',lambda m:m.group(1)+text.strip()+'\n'+m.group(2),t,flags=re.S)
open(p,'w').write(t)
