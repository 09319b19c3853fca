# writes MANIFEST.json; theorem names of property Cnn are those named Cnn_* in Prop*.v (cases excluded)
import json,re,glob
notes={}
exec(open('/verif/tools/notes.py').read())
thms={}
for f in sorted(glob.glob('/verif/rocq/theories/*.v')):
    for m in re.finditer(r'^(?:Theorem|Corollary)\s+(C\d\d)_(\w+)',open(f).read(),re.M):
        thms.setdefault(m.group(1),[]).append(m.group(1)+'_'+m.group(2))
claims=[]
for l in open('/verif/properties.jsonl'):
    i=json.loads(l)['id']
    t=thms.get(i,[])
    if not t: print('no theorem yet for',i); continue
    claims.append({"property":i,"status":status.get(i,"proved"),"theorems":t,"note":notes.get(i,"")})
    if i not in notes: print('no note',i)
json.dump({"claims":claims},open('/verif/MANIFEST.json','w'),indent=1)
print(len(claims))
