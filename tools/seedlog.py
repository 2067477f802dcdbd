"""seedlog.py out...: turn mutation results (JSON lines) into seeded/LOG.jsonl."""
import json,sys
T=json.load(open('seeded/tightened.json')) if False else {}
seen=set()
with open('seeded/LOG.jsonl','w') as f:
    for p in sys.argv[1:]:
        for l in open(p):
            j=json.loads(l)
            if 'old ambiguous' in str(j.get('fatal')): continue  # never applied
            failed=j.get('failed') or []
            # an edit tried twice (again after a theorem was tightened) has a line per outcome
            if (j['id'],bool(failed)) in seen: continue
            seen.add((j['id'],bool(failed)))
            r={'definition':f"{j['file'][:-2]}.{j.get('definition') or j.get('def')}",'edit':f"{j['old']}  ==>  {j['new']}",'claim':j['claim'],'theorems_failed':failed,'proofs_failed':j.get('broken') or [],'theorems_tightened':j.get('tightened',[])}
            if not failed:
                r['note']=(f"inconclusive: a proof stopped before the theorems were reached ({j['fatal']})" if j.get('fatal') else 'no theorem about the claim failed')+(f"; {j['desc']}" if j.get('desc') else '')
            f.write(json.dumps(r)+'\n')
print(len(seen))
