"""Regenerates the theorem table of DESIGN.md (between the markers) from MANIFEST.json and the sources."""
import json,re,glob,os
T='/verif/rocq/theories/'
where={}
for f in glob.glob(T+'*.v'):
    for n in re.findall(r'^\s*(?:Theorem|Lemma|Example)\s+(\w+)',open(f).read(),re.M): where.setdefault(n,os.path.basename(f))
props={json.loads(l)['id']:json.loads(l) for l in open('/verif/properties.jsonl')}
rows=['| id | property | theorems (file) | concrete cases |','|---|---|---|---|']
for c in json.load(open('/verif/MANIFEST.json'))['claims']:
    ths=', '.join('`%s` (%s)'%(t,where[t]) for t in c['theorems'])
    ex=', '.join('`%s`'%n for n in sorted(where) if re.search(c["property"]+r"_",n) and re.search(r'Example\s+'+n+r'\b',open(T+where[n]).read()))
    rows.append('| %s | %s | %s | %s |'%(c['property'],props[c['property']]['title'],ths,ex or '(in the theorem file)'))
s=open('/verif/DESIGN.md').read()
a,b='<!-- table -->','<!-- /table -->'
s=s[:s.index(a)+len(a)]+'\n'+'\n'.join(rows)+'\n'+s[s.index(b):]
open('/verif/DESIGN.md','w').write(s)
