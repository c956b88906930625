# usage: helper to edit mkprops.py; new(title,stmt,quant,why,anchors) / reword(title_prefix, old, new)
import sys
P='/verif/tools/mkprops.py'
def load(): return open(P).read()
def save(s): open(P,'w').write(s)
def new(*a):
    s=load(); i=s.index("\nimport sys,os"); assert repr(a[0])[1:-1] not in s, 'dup'
    import json
    t="p("+",".join(json.dumps(x) for x in a)+")\n"
    save(s[:i]+t+s[i:])
def reword(old,newt):
    s=load(); assert s.count(old)==1,(s.count(old),old); save(s.replace(old,newt))
