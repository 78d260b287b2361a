import json,re,glob,os
# claims collected from theorem names Cxx_... in Prop files + notes
notes=json.load(open('/tmp/w/notes.json'))
status=json.load(open('/tmp/w/status.json'))
thms={}
for f in sorted(glob.glob('/verif/rocq/theories/Prop*.v')):
    for m in re.finditer(r'^\s*Theorem\s+(C\d\d)(\w*)',open(f).read(),re.M):
        thms.setdefault(m.group(1),[]).append(m.group(1)+m.group(2))
claims=[]
for pid in sorted(thms):
    ts=thms[pid]
    st=status.get(pid) or ('partial' if any(t.endswith('_partial') or t.endswith('_refuted') for t in ts) else 'proved')
    claims.append({"property":pid,"status":st,"theorems":ts,"note":notes.get(pid,"")})
json.dump({"claims":claims},open('/verif/MANIFEST.json','w'),indent=1)
print([(c['property'],c['status'],len(c['theorems'])) for c in claims])
