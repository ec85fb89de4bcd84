#!/usr/bin/env python3
"""usage: mklog.py RESULTS.jsonl... : results of mutate.py -> seeded/LOG.jsonl.
seeded/tightened.json says which theorems were added or sharpened because of a mutant."""
import json,sys,os,re
root=os.path.dirname(os.path.dirname(os.path.abspath(__file__)))
tp=root+'/seeded/tightened.json'
T=json.load(open(tp)) if os.path.exists(tp) else {}
seen={}
for f in sys.argv[1:]:
    for l in open(f):
        r=json.loads(l)
        if 'error' in r: continue
        m=re.search(r'r(\d+)\.jsonl$',f); n=int(m.group(1)) if m else 0
        seen[('R%d-'%n if n>=9 else '')+r['name']]=r   # names are used again from round 9 on
with open(root+'/seeded/LOG.jsonl','w') as o:
    for n,r in seen.items():
        t=T.get(n,{})
        o.write(json.dumps({"id":n,"file":"rocq/theories/"+r['file'],"definition":r['definition'],"edit":r['edit'],"diff":{"old":r['old'],"new":r['new']},"claim":r['claim'],"theorems_failed":r['failed'],"theorems_tightened":t.get('theorems',[]),**({"note":t['note']} if 'note' in t else {})},ensure_ascii=False)+'\n')
