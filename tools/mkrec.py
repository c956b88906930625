#!/usr/bin/env python3
"""Print a Coq record and one setter per field.  Usage: mkrec.py name ctor 'f:type' 'f:type' ...
Used once to write the record blocks of the model files; its output is committed there."""
import sys
def rec(name, ctor, fields):
    fs=[f.split(':',1) for f in fields]
    o="Record %s := %s {\n  %s\n}.\n"%(name,ctor,";\n  ".join("%s : %s"%(a.strip(),b.strip()) for a,b in fs))
    for i,(a,b) in enumerate(fs):
        a=a.strip()
        args=" ".join("v" if j==i else "(%s r)"%c.strip() for j,(c,_) in enumerate(fs))
        o+="Definition set_%s (v : %s) (r : %s) : %s := %s %s.\n"%(a,b.strip(),name,name,ctor,args)
    return o
if __name__=="__main__":
    print(rec(sys.argv[1],sys.argv[2],sys.argv[3:]))
