#!/usr/bin/env python3
import json
claims=[]
def c(p,status,ths,note=""):
    claims.append({"property":p,"status":status,"theorems":ths,"note":note})
exec(open('/verif/tools/claims.py').read())
json.dump({"claims":claims},open('/verif/MANIFEST.json','w'),indent=1)
