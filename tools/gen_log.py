#!/usr/bin/env python3
"""Write seeded/LOG.jsonl from seeded/muts*.py (the edits) and mutate.py's results file."""
import json, runpy, re, glob, sys
RES = sys.argv[1] if len(sys.argv) > 1 else '/tmp/mut/results.jsonl'
# survivors of a first run and the theorem that was added or tightened because of them
TIGHT = {
 'cs_service_ignores_lock': ['C59_api_waits'],
 'soap_action': ['C66_envelope'],
 'xml_ctl': ['C67_request_text', 'C67_reply_text', 'C67_strings'],
 'xml_float_g': ['C69_sent'],
 'time_leap': ['C70_calendar'],
 'ty_omit': ['C69_present'],
 'rnd_xmlname_3_cpreq_DataTransfer': ['C69_sent', 'C69_transfer_refuted'],
}
NOTE = {
 'fr_tcall': 'stops in FrameProofs.eprint_2, on which every theorem about call frames rests',
 'fr_error_details': 'the reflective check in Leaves.v no longer succeeds (the prover runs out of memory unfolding it), so nothing after it is proved',
 'rnd_reqdrop_4_csreq_SetChargingProfile': 'the edited declaration is not well formed (Types.v does not compile): not a wrong program',
 'rnd_xmlname_4_csreq_SetChargingProfile': 'survives: no claim is broken, this 1.6-only message is never sent or accepted over SOAP',
 'rnd_xmlomit_5_cpresp_Authorize': 'survives: an equivalent program, encoding/xml writes nothing for a nil pointer with or without omitempty',
 'rnd_nocomma_2_csreq_LocalAuthorizationListItems': 'survives: an equivalent program, the assignment removed is the last one',
}
OVER = {'fr_tcall': ['C01_call', 'C01_any_call']}
try:
    exec(open(__file__.replace('gen_log.py', 'log_notes.py')).read())
except FileNotFoundError: pass
def main():
    res = {}
    for l in open(RES):
        x = json.loads(l); res[x['name']] = x
    out = []
    for f in sorted(glob.glob('/verif/seeded/muts*.py'), key=lambda s: int(re.search(r'muts(\d+)', s).group(1))):
        for m in runpy.run_path(f)['M']:
            x = res.get(m['name'])
            if x is None: print('no result', m['name']); continue
            fl = x['failed']
            if x.get('illtyped'): continue
            e = dict(mutant=m['name'], definition=m['file'] + ': ' + m['edit'].split(':')[0], edit=m['edit'],
                     claim_broken=m['breaks'],
                     first_failure=(None if fl is None else fl[0] if fl[0] == '?' else '%s %s %s' % (fl[0], fl[1], fl[2])),
                     theorems_failed=x.get('theorems') or OVER.get(m['name'], []),
                     examples_failed=x.get('removed') or [],
                     theorems_tightened=TIGHT.get(m['name'], []))
            if m['name'] in NOTE: e['note'] = NOTE[m['name']]
            if e['first_failure'] == '?': e['first_failure'] = 'theories/Leaves.v (out of memory)'
            out.append(e)
    with open('/verif/seeded/LOG.jsonl', 'w') as h:
        for e in out: h.write(json.dumps(e) + '\n')
    print(len(out), sum(1 for e in out if e['first_failure'] is None), 'survive')
main()
