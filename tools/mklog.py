import json,re,subprocess,os
R='/verif/rocq/theories/'
def defn(file,old):
    p=R+file
    try: s=open(p).read()
    except: return file
    i=s.find(old)
    if i<0:
        # earlier versions in git
        revs=subprocess.run(['git','-C','/verif','log','--format=%h','--','rocq/theories/'+file],capture_output=True,text=True).stdout.split()
        for r in revs:
            s=subprocess.run(['git','-C','/verif','show',f'{r}:rocq/theories/{file}'],capture_output=True,text=True).stdout
            i=s.find(old)
            if i>=0: break
        if i<0: return file
    name=None
    for m in re.finditer(r'^\s*(?:Definition|Fixpoint|Record|Inductive|CoInductive|with|Program Definition|Notation)\s+"?([\w\']+)',s,re.M):
        if m.start()<=i: name=m.group(1)
        else:
            if name is None or m.start()<i+len(old): name=name or m.group(1)
            if old.lstrip().startswith(m.group(0).strip()): name=m.group(1)
            break
    return f'{file}:{name}'
T={ # survivor -> (tightened theorems, note)
'b1-u10':(['c05_lower_case'],'no theorem failed; added a theorem that fixes the case of the digits'),
'b1-f08':(['c15_serialisation_terminates_partial','c15_serialisation_diverges_refuted'],'no theorem failed; the C15 theorems were tightened'),
'b1-s05':(['c22_to_key_is_rfc'],'only theorems of other properties failed'),
'b1-s09':(['c23_key_length','c23_hash_and_block_tables','c22_to_key_is_rfc'],'no theorem failed; added the tables'),
'b2-d09':(['c80_user_id_octets_partial'],'no theorem failed; added theorem'),
'b2-m13':(['c79_every_recipient_partial','c79_first_usable_session_key'],'no theorem failed; added theorems'),
'b2-e04':(['c67_revoked_partial'],'no theorem failed; tightened'),
'b2-e09':([],'no theorem failed: the edit had been scored against a version of the file without the theorem; re-run in a later batch'),
'b3-l02':(['c74_same_address_refuted','c74_same_address_release_refuted'],'no theorem failed; added theorems about locks at one address'),
'b3-l03':([],'edit did not compile; replaced by l03b'),
'b3-r09':(['c53_*','c76_* (their entries may now be followed by compressed packets)'],'no theorem failed; hypotheses relaxed'),
'b3-r10':(['c89_*'],'no theorem failed; new property C89 and file DbSearch.v'),
'b3-r11':(['c89_*'],'no theorem failed; new property C89 and file DbSearch.v'),
'b3-n08':([],'equivalent: the edit changes no observable result'),
'b3-p05':(['c79_unprotected_refuted'],'no theorem failed; added theorem'),
'b3-x11':(['c78_newline_refuted'],'no theorem failed; added theorem'),
'b2-m08':([],'the theorem that failed belongs to another property than expected; no change needed'),
'b2-v07':([],'the theorem that failed belongs to another property than expected; no change needed'),
'b1-u09':([],'benign edit: behaviour differs only where the code already deviates'),
'b1-k09':([],'the edit repairs the bug; the _refuted theorem fails as it should'),
'b2-n02':([],'the edit repairs the bug; the _refuted theorem fails as it should'),
'b3-h06':([],'the edit repairs the bug; the _refuted theorem fails as it should'),
'b3-p02':([],'the edit repairs the bug; the _refuted theorem fails as it should'),
'b3-j05':([],'the edit repairs the bug; the _refuted theorem fails as it should'),
}
try: T.update(json.load(open('/tmp/mutants/extra.json')))
except FileNotFoundError: pass
out=[]
import glob
for f in ['b1','b1b','b2','b3','b4','b4b','b5','b5b','b6','b6b','b7','b7b']:
    p=f'/tmp/mutants/{f}.out'
    if not os.path.exists(p): continue
    for x in map(json.loads,open(p)):
        t,n=T.get(f'{f}-{x["id"]}',([],'')) if f!='b1b' else ([],'re-run after tightening')
        d=dict(id=f'{f}-{x["id"]}',definition=defn(x['file'],x['edit'][0]),edit={'from':x['edit'][0],'to':x['edit'][1]},breaks=x['claim'],theorems_failed=x['theorems'],theorems_tightened=t)
        if n: d['note']=n
        out.append(json.dumps(d))

A={'CommandLine.v:add_arguments':['c102_options_partial'],'CommandLine.v:import_command':['c102_module_partial','c102_module_missing_refuted'],'CommandLine.v:sorted_set':['c102_mixed_refuted'],
'CommandLine.v:combination_multifile':['c102_multifile_combination_refuted'],'SignMessage.v:message_signable':['c98_old_signature_refuted','c98_not_signed'],'SignMessage.v:verify_message':['c98_not_signed','c98_wrong_data_refuted'],
'Agent.v:hex_val':['c88_percent_stays'],'Compression.v:decompress_octets':['c57_unknown_algorithm_refuted'],'Shortcuts.v:octet_space':['c72_blank_octets_refuted'],'Shortcuts.v:to_public_key':['c70_public_copy_type'],
'Validate.v:is_cannot':['c86_unknown_digest_refuted'],'Merge.v:merge_key':['c52_by_hash_refuted'],'DumpSig.v:issuer':['c84_issuers_read_refuted'],'DumpSig.v:ascii_r':['c84_text_replaced']}
E0={'Merge.v:appended','Merge.v:collect','Merge.v:choose','Validate.v:is_invalid','Validate.v:set_issuer','Validate.v:validate_key_signature','CommandLine.v:combination_sig','Agent.v:always_safe','Url.v:scheme_char','Url.v:splitparams','Url.v:urlunparse'}
try: X=json.load(open('/tmp/mutants/autox.json'))
except FileNotFoundError: X={}
CL=re.compile(r'\bc(\d\d+)_')
for f in ['auto1','auto2','auto3','auto4','auto5']:
    p=f'/tmp/mutants/{f}.out'
    if not os.path.exists(p): continue
    for i,x in enumerate(map(json.loads,open(p))):
        if x['verdict']=='killed' and x['where'].split(':')[0]==x['file']: continue
        k=x['file']+':'+x['def']; key=f'{f}-{i}'
        d=dict(id=key,definition=k,edit={'from':x['old'],'to':x['new']},breaks='systematic edit of this definition',theorems_failed=[x['where']] if x['verdict']=='killed' else [],theorems_tightened=[])
        if x['verdict']=='survived':
            if key in X: d['theorems_tightened'],d['note']=X[key]
            elif f=='auto1' and k in A: d['theorems_tightened']=A[k]; d['note']='no theorem failed; added theorems'
            elif f=='auto1' and k in E0: d['note']='no theorem failed; the edit changes no behaviour a property speaks of (dead code, an equivalent choice or a library detail the modelled calls do not reach)'
            else: d['note']='no theorem failed; only the class of an exception changes' if f=='auto1' else 'no theorem failed'
        out.append(json.dumps(d))
LT={('life',19):['c112_subkey_alone_refuted'],('life',28):['c112_up'],('life',30):['c112_answer_means'],('unlock',5):['c119_stops'],('enc',5):['c121_order_refuted']}
for nm,fn,p in [('life','lifetime','C112'),('unlock','unlock','C119'),('enc','encrypted','C121'),('sigeq','sigeq','C122')]:
    q=f'/tmp/mutants/{fn}.json'
    if not os.path.exists(q): continue
    for i,x in enumerate(json.load(open(q))):
        if x['where'].startswith('INVALID'): continue
        t=LT.get((nm,i),[])
        d=dict(id=f'{nm}-{i}',definition=f"{x.get('file') or ('Lifetime' if nm=='life' else 'Unlock')}.v:{x['definition']}",edit={'from':x['old'],'to':x['new']},breaks=p+': '+x['why'],theorems_failed=[] if t else [x['where']],theorems_tightened=t)
        if t: d['note']='no theorem failed at first; after tightening the edit is caught there'
        out.append(json.dumps(d))
open('/verif/seeded/LOG.jsonl','w').write('\n'.join(out)+'\n')
print(len(out))
