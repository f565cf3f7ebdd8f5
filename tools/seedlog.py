#!/usr/bin/env python3
"""Turns the raw results of the mutation runs into seeded/LOG.jsonl."""
import json,sys,os
TIGHT={ # mutant id -> theorems added or strengthened because it survived
 'R07':['C13_reader_can_always_continue','C67_not_stranded_partial','C67_comes_out_with_the_next_packet_partial'],
 'F08':['C14_reset_starts_afresh'],
 'E06':['C19_success_clears_failures'],'E07':['C19_new_session_enables_events'],
 'E16':['C18_no_event_forgotten','C18_queue_drains'],
 'W21':['C02_explicit_length'],'W22':['(WireSpec.spec_flag made independent of the model)'],
 'W23':['C04_up_to_nul'],'X01':['C41_never_the_wildcard'],
}
NOTE={
 'W08':'only the refutation of the over-long parameter list fails: the edit concerns what happens beyond the five parameters the protocol allows, which the code leaves undefined and the claim documents as refuted',
 'X21':'equivalent for every observable: the mark belongs to a removed folder whose handle is never reused',
}
p=os.path.join(os.path.dirname(__file__),'..','seeded')
extra=os.path.join(os.path.dirname(__file__),'seednotes.json')
if os.path.exists(extra):
    d=json.load(open(extra)); TIGHT.update(d.get('tightened',{})); NOTE.update(d.get('notes',{}))
out=[];seen=set()
for l in open('/tmp/mut/results.jsonl'):
    r=json.loads(l)
    if r['id'] in seen: continue
    seen.add(r['id'])
    kill=bool(r['failed'] or r['hard'])
    e={'id':r['id'],'definition':'%s: %s'%(r['file'],r.get('definition','')),
       'edit':{'from':r['old'],'to':r['new']},'claim_broken':r.get('claim',''),
       'theorems_failed':r['theorems'],'lemmas_failed_first':r['failed'][:4],
       'outcome':'killed' if kill else 'survived','theorems_tightened':TIGHT.get(r['id'],[])}
    if r['hard']: e['build_stopped_at']=r['hard'][:3]
    if r['id'] in NOTE: e['note']=NOTE[r['id']]
    out.append(e)
open(os.path.join(p,'LOG.jsonl'),'w').write(''.join(json.dumps(e)+'\n' for e in out)); print(len(out))
