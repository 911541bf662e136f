import re,json,glob,os
# property -> status, note ; theorems collected by prefix
os.chdir('/verif')
names={}
for f in open('rocq/_CoqProject'):
    f=f.strip()
    if not f.endswith('.v'): continue
    s=open('rocq/'+f).read()
    for m in re.finditer(r'^\s*(?:Theorem|Lemma|Corollary)\s+(C\d\d_\w+)',s,re.M):
        names.setdefault(m.group(1)[:3],[]).append(m.group(1))
meta=json.load(open('/verif/tools/manifest_meta.json')) if os.path.exists('/verif/tools/manifest_meta.json') else {}
claims=[]
for l in open('properties.jsonl'):
    p=json.loads(l); i=p['id']
    th=names.get(i,[])
    m=meta.get(i,{})
    if th:
        claims.append({"property":i,"status":m.get('status','proved'),"theorems":th,"note":m.get('note','')})
    elif m: claims.append({"property":i,"status":m['status'],"theorems":[],"note":m['note']})
json.dump({"claims":claims},open('MANIFEST.json','w'),indent=1)
print(len(claims), [c['property'] for c in claims])
