"""Register a property: reg.py id file.json (fields: prop, claim=[status, theorems, note], row, file, after)."""
import json, sys
o=json.load(open(sys.argv[1]))
p=o["prop"]
open('/verif/properties.jsonl','a').write(json.dumps(p,ensure_ascii=False)+"\n")
st,th,note=o["claim"]
open('/verif/tools/claims.py','a').write('c(%s)\n'%", ".join(json.dumps(x,ensure_ascii=False) for x in (p["id"],st,th,note)))
q='/verif/rocq/_CoqProject'; s=open(q).read()
if o["file"] not in s:
    s=s.replace(o["after"]+"\n",o["after"]+"\n"+o["file"]+"\n"); open(q,'w').write(s)
q='/verif/DESIGN.md'; L=open(q).read().split("\n")
i=max(k for k,l in enumerate(L) if l.startswith("| C7") or l.startswith("| C8") or l.startswith("| C9") or l.startswith("| C1"))
if o["row"]: L.insert(i+1,o["row"])
open(q,"w").write("\n".join(L))
