"""Token edits of Trace.v (also events and tests); see automut.py. usage: automut_trace.py WORKER NWORKERS N SEED, with a built copy of rocq/ in /tmp/amt/base"""
import sys,json,random,subprocess,shutil,os,re
sys.path.insert(0,'/verif/tools')
import automut
from mutate import theorem_at
w,nw,n=int(sys.argv[1]),int(sys.argv[2]),int(sys.argv[3]); seed=int(sys.argv[4])
rnd=random.Random(seed)
ms=list(automut.mutants("Trace"))
s0=open('/tmp/amt/base/theories/Trace.v').read()
ev=["MulElem","AddElem","MulScalar","AddScalar","SubScalar","Invert","Serialize","Finish","CompareElem","CompareScalar","CheckZero"]
ts=["TooLong","OtherLength","TooMany","ZeroKey","ZeroTweak","IdentityKey","IdentityInput","SameChallenge","ValidKey"]
for name,st,bs,en,b in automut.definitions(s0):
    body=b[bs:en]
    for L in (ev,ts):
        for x in L:
            for m in re.finditer(r"\b%s\b"%x,body):
                ms.append(dict(file="Trace",definition=name,i=bs+m.start(),j=bs+m.end(),new=rnd.choice([y for y in L if y!=x]),edit=None))
    for m in re.finditer(r"Update \(len data\)",body): ms.append(dict(file="Trace",definition=name,i=bs+m.start(),j=bs+m.end(),new="Finish",edit="Update dropped"))
    for m in re.finditer(r"\[Draw\]",body): ms.append(dict(file="Trace",definition=name,i=bs+m.start(),j=bs+m.end(),new="[]",edit="Draw dropped"))
rnd.shuffle(ms)
for m in ms:
    if m["edit"] is None: m["edit"]=s0[m["i"]:m["j"]]+" -> "+m["new"]
ms=ms[:n]
sc=f"/tmp/amt/s{w}"
if not os.path.exists(sc): shutil.copytree("/tmp/amt/base",sc)
out=f"/tmp/amt/out{seed}_{w}.jsonl"
for k,m in enumerate(ms):
    if k%nw!=w: continue
    p=f"{sc}/theories/Trace.v"
    open(p,"w").write(s0[:m["i"]]+m["new"]+s0[m["j"]:])
    rec=dict(m); rec["outcome"]="SURVIVED"
    for f in ["Trace","TraceFacts","PropTrace","PropCost"]:
        r=subprocess.run(["timeout","120","coqc","-q","-Q","theories","Verif",f"theories/{f}.v"],cwd=sc,capture_output=True,text=True)
        if r.returncode:
            if f=="Trace": rec["outcome"]="invalid"
            else:
                rec["outcome"]="killed"
                fm=re.findall(r'File "\./theories/(\w+\.v)", line (\d+)',r.stdout+r.stderr)
                rec["failed_at"]=[g[:-2]+"."+theorem_at(f"{sc}/theories/{g}",int(l)) for g,l in fm[:3]]
            break
    rec["line"]=s0.count("\n",0,m["i"])+1
    if rec["outcome"]=="SURVIVED":
        rec["context"]=s0.split("\n")[rec["line"]-1]; print(json.dumps(rec),flush=True)
    open(out,"a").write(json.dumps(rec)+"\n")
print("done",w)
