#!/usr/bin/env python3
"""mklog.py res.json... : append one line per seeded bug to seeded/LOG.jsonl"""
import json,sys,os
tight=json.load(open('/tmp/mut/tight.json')) if os.path.exists('/tmp/mut/tight.json') else {}
skip={'v16','p06'}
with open('/verif/seeded/LOG.jsonl','a') as f:
    for p in sys.argv[1:]:
        r=json.load(open(p))
        if r['id'] in skip: continue
        if 'edits' in r: ed=' ; '.join(f'{o} ==> {n}' for o,n in [e[-2:] for e in r["edits"]])
        else: ed=f"{r['old']} ==> {r['new']}"
        f.write(json.dumps({"id":os.environ.get("PREFIX","")+r["id"],"definition":f"{r['file']}.{r['def']}","edit":ed,"claim_broken":r['claim'],
          "first_failing_proof":[f"{a}.{b}" for a,b,_ in r['fails']],
          "theorems_failed":r['lost'],"theorems_still_proved":r['kept'],
          "killed":bool(r['lost']),
          "tightened":tight.get(r['id'],[])})+"\n")
