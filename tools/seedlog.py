#!/usr/bin/env python3
"""Append the results of a mutation batch to seeded/LOG.jsonl.
Usage: seedlog.py mutants.json out.jsonl [tightened.json]   (tightened: id -> [theorems])"""
import json,sys,os
L='/verif/seeded/LOG.jsonl'
ms={m['id']:m for m in json.load(open(sys.argv[1]))}
T=json.load(open(sys.argv[3])) if len(sys.argv)>3 else {}
with open(L,'a') as o:
    for l in open(sys.argv[2]):
        r=json.loads(l); m=ms.get(r['id'])
        if m is None or r.get('error'): continue
        d=dict(definition=m['definition'],edit=m['edit'],
               change=[dict(file=e[0],old=e[1],new=e[2]) for e in m['edits']],
               claim=m['claim'],survived=r['survived'],failed=r['failed'],tightened=T.get(r['id'],m.get('tightened',[])))
        if 'note' in m: d['note']=m['note']
        o.write(json.dumps(d)+'\n')
