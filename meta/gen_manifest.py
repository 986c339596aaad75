#!/usr/bin/env python3
"""Generates MANIFEST.json; edit CLAIMS."""
import json,os
C=[]
def claim(pid,status,theorems,note=""):
    C.append({"property":pid,"status":status,"theorems":theorems.split(),"note":note})
exec(open(os.path.join(os.path.dirname(__file__),"claims.py")).read())
json.dump({"claims":C},open(os.path.join(os.path.dirname(__file__),"..","MANIFEST.json"),"w"),indent=1)
