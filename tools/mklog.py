#!/usr/bin/env python3
"""Collects mutation results (/tmp/mut/*.json, *.out.jsonl) into seeded/LOG.jsonl; the log in git is the record."""
import json,sys,glob,os
TIGHT={ # survivor id -> theorems tightened or added afterwards
 'm033':['C15_perfpack_put_get','C15_put_ignores'],'n038':['C36_gc_rates'],'n040':['C51_exact'],'n044':['C51_exact'],
 'p019':['C63_ledger','C63_xlog_describes_account'],'p020':['C63_ledger','C63_xlog_describes_account'],'p037':['C63_ledger'],'p041':['C63_ledger'],'p042':['C63_ledger'],
 'p038':['C73_propagation_headers'],'p039':['C72_profiles'],'p040':['C72_profiles'],
 'r008':['C73_propagation_headers'],'r062':['C73_propagation_headers'],'r063':['C73_propagation_headers'],'r064':['C73_propagation_headers'],
 'r039':['C74_async_step'],'r028':['C72_profiles'],'r059':['C72_profiles'],
 's039':['C15_map_getters'],'s041':['C15_list_getters'],'s051':['C02_boolean'],'s053':['C03_int_bytes_roundtrip'],'s063':['C60_sampler_settings'],
 's093':['C58_delete_command_partial','C66_list_then_fetch','C66_list_then_download','C65_thread_dump_command','C65_profile_commands']}
NOTE={'m046':'equivalent program: the edited branch is unreachable',
 'r008':'C73 took the ledger as hypothesis; now stated about the agent run itself','r028':'specification shared join_comma with the model; now has its own comma_list',
 'r059':'specification shared method_name with the model; now has its own','r039':'C74 took the ledger as hypothesis; now stated about the agent run itself'}
TIGHT.update({'t006': ['C77_only_through_sockets'], 't033': ['C59_started_without_file_partial'], 't039': ['C80_conversation'], 't088': ['C81_panic_refuted'], 't106': ['C82_profile_header'], 't112': ['C65_dump_directories']})
NOTE.update({'t037': 'killed by C69_config_text, a theorem outside the list first checked', 't067': 'equivalent program: SetStatus is ignored by the collector side view and never read back (C15_set_status_ignored)', 't080': 'equivalent program: the function is only called with absent keys'})
TIGHT.update({'v1_17':['C87_limit_obeyed'],'v1_23':['C88_never_stops','C88_realtime','C88_five_minutes']})
NOTE.update({'v1_14':'not a bug of the stated kind: only the moment at which a batch is closed moves; order, completeness and datagram sizes (C87_limit_obeyed) still hold','v1_23':'the statements used the reading of the clock of the model; they now have their own (second)'})
TIGHT.update({'w2_15':['C90_follows','C90_no_churn'],'w2_23':['C66_listing_rows'],'w2_28':['C58_only_profiles'],'w3_36':['C58_delete_command_partial','C65_thread_dump_command','C51_reset_command']})
NOTE.update({'w2_47':'the edited file did not typecheck; rerun as w3_03','w3_27':'equivalent program: no path that is cleaned is empty','w3_34':'killed by C75, which was not in the list first checked; rerun as w4_00','w3_36':'the statements named the state after the command by a definition of the model; they now describe its fields. rerun as w4_01'})
TIGHT.update({'w4_15':['C89_after_init_partial'],'w4_24':['C57_text_file_followed','C57_binary_file_followed','C58_reads_one_file_partial'],'w4_32':['C36_float_bits']})
NOTE.update({'w4_15':'register was not used by any statement; rerun as w5_00','w4_24':'killed by C58 and C66, not by C57, whose statements shared stream_name with the model; rerun as w5_01','w4_32':'statements shared f32_bits with the model; rerun as w5_02','w4_69':'breaks no claim: a nil context would be ignored instead of being reported as a panic, which is contained either way (C64, C89)','w4_72':'breaks no claim: a nil step would be ignored instead of being reported as a panic, which is contained either way (C64, C89)'})
TIGHT.update({'x1_60':['C90_whole_agent_follows'],'x1_42':['C93_started'],'x1_51':['C83_serialized_links']})
NOTE.update({'x1_60':'C91 speaks of survival only and C90 was about M_Redirect alone; rerun as y1_01','x1_61':'the edited file did not typecheck; rerun as y1_02','x1_44':'equivalent program: the conversion passed along is the identity, so both kinds store the same value','x1_42':'killed only by a witness; the theorem now states it','x1_51':'no statement spoke of parents under concurrency; rerun as y1_00'})
TIGHT.update({'y1_14':['C97_never_twice'],'y1_18':['C70_describes_account'],'y1_19':['C70_describes_account','C56_rows_are_accounts']})
NOTE.update({'y1_17':'Inherit is written and never read: nothing observable changes','y1_21':'set_Txid is used nowhere in the model','y1_29':'HttpMethod is only copied, never shown: nothing observable changes','y1_14':'C97_repeats is about removal switched off, where the state does not change; rerun as z1','y1_18':'no theorem said which method was the last; the ledger now keeps it; rerun as z1','y1_19':'killed only by a witness; the ledger now keeps the goroutine; rerun as z1'})
TIGHT.update({'y1_60':['C24_add_key'],'y1_61':['C27_fifo_partial','C27_bounded_returns']})
NOTE.update({'y1_38':'IsChildTx is written and never read: nothing observable changes','y1_40':'CallerObjHash is written and never read: nothing observable changes','y1_58':'equivalent program: the text of a stack has one blank there','y1_65':'the code yields this discard type nowhere','y1_67':'the edited file did not typecheck','y1_60':'rerun as z1_01','y1_61':'rerun as z1_02'})
TIGHT.update({'a2_015':['C82_profile_header'],'a2_065':['C08_unknown_type_reported'],'a2_078':['C93_shown']})
NOTE.update({'a2_074':'equivalent program: the modification time of a directory is never used','a2_081':'killed by C89, which was not in the list first checked; rerun in c1','a2_098':'C51_empty failed but was missing from the Print Assumptions list; it is printed now; rerun in c1','a2_103':'equivalent program: no reachable state asks for a missing socket entry','a2_106':'equivalent program: the first report has no earlier time stamp and does not read the collection count','a2_113':'IsChildTx is written and never read: nothing observable changes','a2_119':'equivalent program: the parent and index given here are overwritten when the step is added'})
TIGHT.update({'e1_007':['C93_app_path'],'e1_052':['C31_sender_loses_nothing'],'e1_063':['C90_whole_agent_refines','C90_whole_agent_only_configured'],'e1_075':['C12_read_pack_at_the_end']})
NOTE.update({'e1_007':'rerun as f1_00 after the tightening: killed','e1_011':'equivalent program: the case before has taken the empty list','e1_023':'killed: lemma L_Show.float_shown, on which C98 rests, fails; the checker lost the position of the theorem',
 'e1_029':'killed by C82, which was not in the list first checked; rerun as f1_01','e1_049':'killed by C37/C39/C40, which were not in the list first checked; rerun in f1','e1_052':'rerun as g1_01','e1_063':'the limit that batches is free in C91; rerun as g1_00 after the new theorems: killed','e1_075':'rerun as g1_02: killed',
 'f1_02':'killed: lemma L_Show.float_shown, on which C98 rests, fails; the checker lost the position of the theorem','g1_16':'C91 bounds the ways to end, and the edit has fewer; C92 fails, which was not in the list first checked; rerun as h1_00'})
extra=json.load(open('/tmp/mut/tight.json')) if os.path.exists('/tmp/mut/tight.json') else {}
TIGHT.update(extra.get('tight',{})); NOTE.update(extra.get('note',{}))
out=[];valid=set()
for f in sys.argv[1:]:
    src={m['id']:m for m in json.load(open(f'/tmp/mut/{f}.json'))}
    for L in open(f'/tmp/mut/{f}.out.jsonl'):
        r=json.loads(L)
        if r.get('error'): continue
        m=src[r['id']]
        d={'id':r['id'],'definition':(m['definition'] if m['definition'].startswith(m['file'][:-2]+'.') else f"{m['file'][:-2]}.{m['definition']}"),'edit':m['edit']+f": `{m['old']}` -> `{m['new']}`",
           'claim_broken':m['claim'] if m['claim'] not in m['breaks'] else ','.join(m['breaks']),
           'theorems_failed':r['hit'] if r['hit'] else [], 'all_theorems_failed':r['theorems'],'first_failing_lemmas':r['lemmas'][:6],
           'theorems_tightened':TIGHT.get(r['id'],[])}
        if r['survived']: d['survived']=True
        if m.get('rerun'): d['rerun_of']=m['rerun']
        if r['id'] in NOTE: d['note']=NOTE[r['id']]
        out.append(d)
th=set()
for f in glob.glob('/verif/rocq/theories/P_*.v'):
    for l in open(f):
        if l.startswith('Theorem '): th.add(l.split()[1].rstrip(':'))
for d in out:
    for t in d['theorems_tightened']:
        if t not in th: print('unknown theorem',d['id'],t)
open('/verif/seeded/LOG.jsonl','w').write(''.join(json.dumps(d)+'\n' for d in out))
print(len(out),'lines',sum(1 for d in out if d.get('survived')),'survivors')
