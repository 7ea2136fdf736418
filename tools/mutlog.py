# Turns the raw results of the seeded-bug runs (out*.jsonl) into seeded/LOG.jsonl.
# For each edit: the lemmas and theorems whose proofs failed on rebuild, and the
# manifest theorems whose proof uses one of those lemmas (so they fail with it).
import json,re,sys,glob
man=json.load(open('/verif/MANIFEST.json'))['claims']
prop={}
for c in man:
    for t in c['theorems']: prop.setdefault(t,[]).append(c['property'])
decl=re.compile(r'^\s*(?:#\[\w+\] )?(?:Local )?(?:Theorem|Lemma|Example|Corollary|Remark|Fact)\s+(\w+)',re.M)
body={}
for f in glob.glob('/verif/rocq/theories/*.v'):
    s=open(f).read(); ms=list(decl.finditer(s)); mod=f.split('/')[-1][:-2]
    for i,m in enumerate(ms):
        t=s[m.start():(ms[i+1].start() if i+1<len(ms) else len(s))]
        e=re.search(r'\b(Qed|Defined)\.',t)
        body[m.group(1)]=(mod,set(re.findall(r'\w+',t[:e.end()] if e else t)))
users={}
for n,(mod,ws) in body.items():
    for w in ws:
        if w in body and w!=n: users.setdefault(w,set()).add(n)
def via(names,depth=3):
    seen=set(names); cur=set(names); res=set(n for n in names if n in prop)
    for _ in range(depth):
        nxt=set()
        for n in cur:
            for u in users.get(n,()):
                if u not in seen: seen.add(u); nxt.add(u)
                if u in prop: res.add(u)
        cur=nxt
        if res: break
    return sorted(res)
tight=json.load(open('/verif/tools/tightened.json'))
out=[]
for f in sorted(glob.glob(sys.argv[1] if len(sys.argv)>1 else '/tmp/mutw/out*.jsonl')):
    for l in open(f):
        r=json.loads(l)
        names=[x.split('.')[-1] for x in r['failed']]
        v=via(names); direct=[n for n in names if n in prop]
        key=r['definition']+'|'+r['new']
        tg=tight.get(key,[])
        ids=sorted(set(p for n in (direct or v) for p in prop[n]) | set(p for t in tg for p in prop.get(t,[])))
        claim=re.sub(r'^C\d\d[^:]*: *','',r['claim'])
        o={'definition':r['file']+': '+r['definition'],'edit':'replace `%s` by `%s`'%(r['old'],r['new']),
           'claim':('%s: '%'/'.join(ids) if ids else '')+claim,'theorems_failed':r['failed'],
           'claim_theorems_failed':sorted(set(direct)|set(v)),'theorems_tightened':tg}
        if r.get('note'): o['note']=r['note']
        out.append(o)
open('/verif/seeded/LOG.jsonl','w').write(''.join(json.dumps(o)+'\n' for o in out))
bad=[o for o in out if not o['claim_theorems_failed'] and not o['theorems_tightened']]
print(len(out),'lines;',len(bad),'without a claim theorem')
for o in bad: print(o['definition'],'|',o['edit'][:200],'|',o['claim'],o['theorems_failed'])
