#!/usr/bin/env python3
"""Print Assumptions of every theorem in MANIFEST.json (needs a built rocq/); writes ASSUMPTIONS.txt."""
import json,re,subprocess,glob,os,sys
os.chdir('/verif/rocq')
man=json.load(open('/verif/MANIFEST.json'))
names=[t for c in man['claims'] for t in c['theorems']]
where={}
for f in glob.glob('theories/*.v'):
    for m in re.finditer(r'^(?:Theorem|Corollary) (C\d\d_\w+)',open(f).read(),re.M):
        where[m.group(1)]=os.path.basename(f)[:-2]
mods=sorted(set(where[n.split('.')[-1]] for n in names))
src=''.join('Require Verif.%s.\n'%m for m in mods)
for n in names:
    b=n.split('.')[-1]
    src+='Print Assumptions Verif.%s.%s.\n'%(where[b],b)
open('/tmp/Assum.v','w').write(src)
r=subprocess.run(['coqc','-Q','theories','Verif','/tmp/Assum.v'],capture_output=True,text=True)
out=r.stdout.strip().split('\n')
print(r.stderr[:500])
bad=[l for l in out if l!='Closed under the global context']
with open('/verif/ASSUMPTIONS.txt','w') as o:
    o.write('%d theorems of MANIFEST.json; lines of Print Assumptions other than "Closed under the global context": %d\n'%(len(names),len(bad)))
    for l in bad: o.write(l+'\n')
    if not bad and len(out)==len(names):
        for n in names: o.write('%s: Closed under the global context\n'%n)
print(len(names),len(out),len(bad))
