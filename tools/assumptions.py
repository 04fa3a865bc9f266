"""Print Assumptions of every theorem in MANIFEST.json (needs a finished build in rocq/)."""
import json,glob,os,subprocess,tempfile
root=os.path.dirname(os.path.dirname(os.path.abspath(__file__)))
ths=[t for c in json.load(open(root+'/MANIFEST.json'))['claims'] for t in c['theorems']]
files=sorted(os.path.basename(f)[:-2] for f in glob.glob(root+'/rocq/theories/Prop*.v'))
o="From Verif Require Import "+" ".join(files)+".\n"
for t in ths: o+='Goal True. idtac "@@ %s". exact I. Qed.\nPrint Assumptions %s.\n'%(t,t)
with tempfile.TemporaryDirectory() as d:
    open(d+'/pa.v','w').write(o)
    subprocess.run(['coqc','-Q',root+'/rocq/theories','Verif','pa.v'],cwd=d)
