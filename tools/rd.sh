#!/bin/bash
python3 - "$@" <<'PY'
import sys,re
for f in sys.argv[1:]:
    s=open('/verif/rocq/theories/Gen/'+f+'.v').read()
    parts=re.split(r'\n\n',s)
    consts=[]
    for p in parts:
        h=p.split(':=')[0]
        m=re.match(r'Definition (\w+) : \w+ := (-?\w+)\.',p)
        if m: consts.append(m.group(1)+'='+m.group(2)); continue
        if re.search(r'_ToString|_GetRegister|_GetBDS|_GetSubtype |Definition \w+ := Z',p): continue
        if p.startswith('From') or p.startswith('(* GEN'): continue
        p=re.sub(r'\(\* .*?\*\)\n?','',p)
        if p.startswith('Definition Read') or 'Definition' in p: print(p)
    print(' '.join(consts))
PY
