import json,sys
# usage: reg.py files... ; status from stdin json
files=sys.argv[1:]
p='/verif/rocq/_CoqProject'; s=open(p).read().rstrip('\n')
for f in files:
    l="theories/%s.v"%f
    if l not in s.split('\n'): s+="\n"+l
open(p,'w').write(s+"\n")
st=sys.stdin.read().strip()
if st:
    p='/verif/tools/status.json'; d=json.load(open(p)); d.update(json.loads(st)); d={k:d[k] for k in sorted(d)}
    json.dump(d,open(p,'w'),indent=0)
