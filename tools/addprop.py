"""usage: addprop.py < file with one p(...) call; inserts it into gen_properties.py and regenerates"""
import sys,subprocess
new=sys.stdin.read()
s=open('/verif/tools/gen_properties.py').read()
s=s.replace('with open("/verif/properties.jsonl","w")',new+'with open("/verif/properties.jsonl","w")')
open('/verif/tools/gen_properties.py','w').write(s)
subprocess.run(['python3','/verif/tools/gen_properties.py'])
