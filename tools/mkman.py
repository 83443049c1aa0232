import json
C=[]
def c(p,s,t,n=""): C.append({"property":p,"status":s,"theorems":t.split(),"note":n})
exec(open('/verif/tools/claims.py').read())
json.dump({"claims":C},open('/verif/MANIFEST.json','w'),indent=1)
