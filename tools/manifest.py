#!/usr/bin/env python3
# usage: manifest.py C13 proved thm1,thm2 [note]
import json,sys
m=json.load(open('/verif/MANIFEST.json'))
p,status,th=sys.argv[1:4]; note=sys.argv[4] if len(sys.argv)>4 else ''
m['claims']=[c for c in m['claims'] if c['property']!=p]+[dict(property=p,status=status,theorems=[x for x in th.split(',') if x],note=note)]
m['claims'].sort(key=lambda c:c['property'])
open('/verif/MANIFEST.json','w').write('{"claims": [\n'+',\n'.join(' '+json.dumps(c) for c in m['claims'])+'\n]}\n')
