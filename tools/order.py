# puts the files of _CoqProject in an order in which each comes after those it requires
import subprocess,re
p='/verif/rocq/_CoqProject'; L=open(p).read().rstrip('\n').split('\n')
head=[l for l in L if not l.endswith('.v')]; files=[l for l in L if l.endswith('.v')]
deps={}
for f in files:
    s=open('/verif/rocq/'+f).read(); d=set()
    for m in re.finditer(r'From Verif Require (?:Import|Export)([^.]*)\.',s): d|=set(m.group(1).split())
    deps[f]=['theories/%s.v'%x for x in d]
out=[];seen=set()
def go(f):
    if f in seen: return
    seen.add(f)
    for d in files:
        if d in deps[f]: go(d)
    out.append(f)
for f in files: go(f)
open(p,'w').write('\n'.join(head+out)+'\n')
