#!/usr/bin/env python3
"""Writes rocq/theories/Properties/*.v (the property theorems and nothing else, each closed by
`exact`), MANIFEST.json, and lists the generated files in _CoqProject.  The statements are copied
from the proof files, with the local witnesses replaced by their literal values; the proof files
are only Required, not Imported, so that a statement can use the specification and the model only."""
import re,os,json,sys
ROOT=os.path.join(os.path.dirname(os.path.abspath(__file__)),'..')
TH=os.path.join(ROOT,'rocq','theories')
from claims import CLAIMS, IMPORTS
src={}
def load(f):
    if f in src: return src[f]
    s=open(f'{TH}/Proofs/{f}.v').read()
    thms={m.group(2):m.group(3) for m in re.finditer(r'^(Theorem|Lemma|Example|Corollary) (\w+)\s*(:.*?\.)\n\s*Proof',s,re.S|re.M)}
    src[f]=(s,thms); return src[f]
WIT={}
for f in os.listdir(f'{TH}/Proofs'):
    if f.endswith('.v'):
        for m in re.finditer(r'^Definition (\w+) : list Z := (\[.*?\])\.$',open(f'{TH}/Proofs/{f}').read(),re.S|re.M):
            WIT[m.group(1)]=m.group(2)
def subst(t):
    return re.sub(r'\b(\w+)\b',lambda m: WIT.get(m.group(1),m.group(1)),t)
files={}
manifest=[]
for cid,status,thms,note in CLAIMS:
    names=[]
    for group,f,t in thms:
        s,th=load(f)
        if t not in th: sys.exit(f'{cid}: no theorem {t} in {f}')
        name=f'{cid}_{t}'
        if status=='partial' and not re.search(r'_(partial|refuted|example|ok)$',t): name+='_partial'
        kind='Theorem'
        m=re.search(r'^(Theorem|Lemma|Example|Corollary) '+t+r'\b',s,re.M)
        if m.group(1)=='Example': kind='Example'
        names.append(name) if kind=='Theorem' else None
        files.setdefault(group,[]).append((kind,name,f,t,subst(th[t])))
    manifest.append(dict(property=cid,status=status,theorems=names,note=note))
os.makedirs(f'{TH}/Properties',exist_ok=True)
for f in os.listdir(f'{TH}/Properties'):
    if f.endswith('.v') and f[:-2] not in files: os.remove(f'{TH}/Properties/{f}')
for g,l in files.items():
    out=[f'(* Property theorems: {g}. Generated by tools/mkprops.py; proofs are in theories/Proofs. *)']
    out+=IMPORTS[g].strip().split('\n')
    out.append('From Verif.Proofs Require '+' '.join(sorted({x[2] for x in l}))+'.')
    out.append('Local Open Scope R_scope.' if g in ('Geodesy','GeoAccurate','Squitter','ZoneTable','Equator','Everywhere','Flight','Receiver','Ground') else 'Local Open Scope Z_scope.')
    for kind,name,f,t,st in l:
        out.append(f'\n{kind} {name} {st}\nProof. exact {f}.{t}. Qed.')
        out.append(f'Print Assumptions {name}.')
    new='\n'.join(out)+'\n'
    p=f'{TH}/Properties/{g}.v'
    if not os.path.exists(p) or open(p).read()!=new: open(p,'w').write(new)
cp=os.path.join(ROOT,'rocq','_CoqProject')
lines=[x for x in open(cp).read().split('\n') if x and 'theories/Properties/' not in x]
lines=[lines[0],'']+lines[1:] if lines[1] else lines
lines+=[f'theories/Properties/{g}.v' for g in files]
open(cp,'w').write('\n'.join(lines)+'\n')
props=[json.loads(x)['id'] for x in open(os.path.join(ROOT,'properties.jsonl'))]
done={m['property'] for m in manifest}
print('missing claims:',[p for p in props if p not in done])
json.dump({'claims':manifest},open(os.path.join(ROOT,'MANIFEST.json'),'w'),indent=1)
