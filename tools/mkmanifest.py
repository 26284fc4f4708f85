#!/usr/bin/env python3
# Generates /verif/MANIFEST.json from the table below.
import json
C={}
def c(pid,status,theorems,note): C[pid]=dict(property=pid,status=status,theorems=theorems,note=note)
exec(open("/verif/tools/claims.py").read())
json.dump({"claims":[C[k] for k in sorted(C)]},open("/verif/MANIFEST.json","w"),indent=1)
print(len(C),"claims")
