import json,re,glob,os
P='/verif/rocq/theories/'
props={}
for l in open('/verif/properties.jsonl'):
    d=json.loads(l); props[d['id']]=d['title']
where={}
for f in sorted(glob.glob(P+'Prop*.v')):
    for m in re.finditer(r'Theorem (C\d\d+)_',open(f).read()):
        where.setdefault(m.group(1),[]); 
        b=os.path.basename(f)
        if b not in where[m.group(1)]: where[m.group(1)].append(b)
how=json.load(open('/verif/tools/how.json'))
rows=[]
for k in sorted(props):
    rows.append(f"| {k} | {props[k]} | {how.get(k,'')} | {', '.join(where.get(k,['-']))} |")
t=open('/verif/tools/DESIGN.in.md').read()
MORE=', C83 (no session without mutual authentication in that build), C84 (FINISH panics if the chains differ in length), C87 (chains of a second connection with another hash), C88 (certificate portions larger than announced), C90 (SHA-512 with ECDSA cannot be verified), C95 (vendor requests on a connection), C98 (replayed PSK sessions), C99 and C100 (messages that crash the receiver)'
t=t.replace('@@MORE@@',MORE)
t=t.replace('@@TABLE@@','| Id | Property | Modelled and proved how | File |\n|---|---|---|---|\n'+'\n'.join(rows))
open('/verif/DESIGN.md','w').write(t)
print([k for k in props if k not in how])
