"""Regenerate MANIFEST.json: every theorem Cnn_* (not *_example(s)) in rocq/theories belongs to property Cnn."""
import json,re,glob,os
root=os.path.dirname(os.path.dirname(os.path.abspath(__file__)))
props=[json.loads(l) for l in open(root+'/properties.jsonl')]
thms={}
proj=[l.strip() for l in open(root+'/rocq/_CoqProject') if l.strip().endswith('.v')]
for f in sorted(glob.glob(root+'/rocq/theories/*.v')):
    assert 'theories/'+os.path.basename(f) in proj, f
    for m in re.finditer(r'^Theorem\s+(C\d\d+)_(\w+)',open(f).read(),re.M):
        thms.setdefault(m.group(1),[]).append(m.group(1)+'_'+m.group(2))
NOTES=json.load(open(root+'/tools/notes.json'))
claims=[]
for p in props:
    i=p['id']; t=thms.get(i,[])
    part=[x for x in t if x.endswith('_partial')]
    st='partial' if (part or not t) else 'proved'
    claims.append(dict(property=i,status=st,theorems=t,note=NOTES.get(i,p['title'])))
json.dump({'claims':claims},open(root+'/MANIFEST.json','w'),indent=1)
print(len(claims),sum(len(c['theorems']) for c in claims),[c['property'] for c in claims if c['status']!='proved'])
