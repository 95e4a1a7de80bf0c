#!/usr/bin/env python3
"""Fill the generated tables of DESIGN.md."""
import json,re,os,subprocess,glob
V='/verif'; T=V+'/rocq/theories'
s=open(V+'/DESIGN.md').read()
def put(s,k,body): return re.sub(r'(<!-- %s -->\n).*?(<!-- end -->)'%k, lambda m:m.group(1)+body+m.group(2), s, flags=re.S)
rows=['| file | content |','|------|---------|']
for l in open(V+'/rocq/_CoqProject'):
    m=re.match(r'theories/(\w+)\.v',l)
    if not m: continue
    t=open(f'{T}/{m.group(1)}.v').read()
    h=re.match(r'\(\*\*(.*?)\*\)',t,re.S)
    h=' '.join(h.group(1).split()) if h else ''
    h=re.split(r'(?<=[a-z\])0-9])\. ',h+' ')[0].rstrip('. ')
    rows.append(f"| `{m.group(1)}.v` | {h.replace('|','/')} |")
s=put(s,'files','\n'.join(rows)+'\n')
cl=json.load(open(V+'/MANIFEST.json'))['claims']
ti={json.loads(l)['id']:json.loads(l)['title'] for l in open(V+'/properties.jsonl') if l.strip()}
rows=['| id | property | status | result |','|----|----------|--------|--------|']
for c in cl: rows.append(f"| {c['property']} | {ti[c['property']]} | {c['status']} | {c['note']} |")
s=put(s,'properties','\n'.join(rows)+'\n')
loc={}
for f in glob.glob(T+'/Props*.v'):
    for n in re.findall(r'^\s*(?:Theorem|Lemma|Corollary)\s+([A-Za-z0-9_\']+)',open(f).read(),re.M): loc[n]=os.path.basename(f)[:-2]
th=[(loc[t],t) for c in cl for t in c['theorems']]
with open('/tmp/PA.v','w') as g:
    g.write('From Verif Require '+' '.join(sorted({m for m,_ in th}))+'.\n')
    for m,t in th: g.write(f'Goal True. idtac "@@ {t}". exact I. Qed.\nPrint Assumptions {m}.{t}.\n')
o=subprocess.run(['coqc','-Q',T,'Verif','/tmp/PA.v'],capture_output=True,text=True,cwd='/tmp').stdout
res={}; cur=None
for l in o.split('\n'):
    if l.startswith('@@ '): cur=l[3:].strip(); res[cur]=[]
    elif cur and l.strip(): res[cur].append(l.strip())
closed=[t for _,t in th if res.get(t)==['Closed under the global context']]
other=[t for _,t in th if t not in closed]
body='Closed under the global context (%d theorems): '%len(closed)+', '.join(f'`{t}`' for t in closed)+'.\n'
ax=lambda t: re.findall(r'^([\w.\']+)(?: :|$)','\n'.join(res[t]),re.M) if t in res else ['NOT CHECKED']
for t in other: body+=f'\n* `{t}`: '+', '.join(f'`{a}`' for a in ax(t) if a!='Axioms')+'\n'
s=put(s,'assumptions',body)
open(V+'/DESIGN.md','w').write(s)
print(len(closed),'closed;',other)
