#!/usr/bin/env python3
"""Mutation testing: apply one textual edit to a model file in a scratch copy and
rebuild.  usage: mutate.py muts.json   (list of {file, def, old, new, edit, claim, [expect]})
/tmp/mutbase is a built checkout of the last commit (see tools/mutbase.sh).
Appends one JSON line per attempt to /verif/seeded/LOG.jsonl."""
import json,sys,os,subprocess,re,shutil
muts=json.load(open(sys.argv[1]))
S="/tmp/mut"; 
def run(m):
    shutil.rmtree(S,ignore_errors=True)
    subprocess.run(["cp","-a","/tmp/mutbase/rocq",S],check=True)
    p=f"{S}/theories/{m['file']}"
    s=open(p).read()
    if s.count(m['old'])<1:
        print("NOT FOUND",m); return
    i=s.index(m['old']) if 'nth' not in m else [x.start() for x in re.finditer(re.escape(m['old']),s)][m['nth']]
    s=s[:i]+m['new']+s[i+len(m['old']):]
    open(p,"w").write(s)
    r=subprocess.run(f"cd {S} && coq_makefile -f _CoqProject -o Makefile >/dev/null 2>&1; timeout 1500 make -k -j3 {' '.join('theories/'+t+'.vo' for t in m.get('targets',[]))} 2>&1",shell=True,capture_output=True,text=True)
    fails=[]
    timeouts = 'Terminated' in r.stdout
    for f,l in re.findall(r'File "\./(theories/\w+\.v)", line (\d+), characters[^\n]*\nError',r.stdout):
        lines=open(f"{S}/{f}").read().split("\n")[:int(l)]
        name="?"
        for x in reversed(lines):
            k=re.match(r"\s*(Theorem|Lemma|Corollary|Example|Definition|Fixpoint)\s+(\w+)",x)
            if k: name=k.group(2); break
        fails.append(f"{os.path.basename(f)}:{name}")
    # files not built
    nb=[f for f in os.listdir(f"{S}/theories") if f.endswith(".v") and (not os.path.exists(f"{S}/theories/{f[:-2]}.vo"))]
    # props files which depend
    rec={"definition":m['def'],"file":m['file'],"edit":m['edit'],"breaks":m['claim'],"first_failures":fails}
    # theorems in Props files that did not get rebuilt
    thms=[]
    for f in sorted(os.listdir(f"{S}/theories")):
        if f.endswith("Props.v") or f in ("WgStaging.v","WgConf.v","WgHandshake.v","WgAgree.v","WgHello.v","WgLoad.v","WgCookieTrip.v","WgHome.v","EspAuth.v","EspOnce.v","EspNonce.v","EspSafe.v","EspToy.v","RawExamples.v"):
            vo=f"{S}/theories/{f[:-2]}.vo"; ok=os.path.exists(vo) and os.path.getmtime(vo)>os.path.getmtime(p)-0.0
            fl=[x.split(':')[1] for x in fails if x.startswith(f+':')]
            if fl:
                t=open(f"{S}/theories/{f}").read()
                names=re.findall(r"^Theorem (\w+)",t,re.M)
                if fl[0] in names: thms+= names[names.index(fl[0]):]
                else:
                    pos=t.index(fl[0]); thms+=[n for n in names if t.index("Theorem "+n)>pos]
            elif not ok and dep(f,m['file']) and (not m.get('targets') or f[:-2] in m['targets']): thms+=re.findall(r"^Theorem (\w+)",open(f"{S}/theories/{f}").read(),re.M)
    rec["theorems_failed"]=thms
    rec["result"]="caught" if fails else ("TIMEOUT" if timeouts else "SURVIVED")
    rec["tightened"]=m.get("tightened",[])
    print(json.dumps(rec),flush=True)
    with open("/tmp/mutlog.jsonl","a") as g: g.write(json.dumps(rec)+"\n")
    if fails or m.get('log_survivor'):
        with open("/verif/seeded/LOG.jsonl","a") as g: g.write(json.dumps(rec)+"\n")
def dep(f,src,seen=None):
    seen=seen or set()
    if f==src: return True
    if f in seen: return False
    seen.add(f)
    try: t=open(f"/tmp/mutbase/rocq/theories/{f}").read()
    except FileNotFoundError: return False
    mods=[]
    for l in re.findall(r"From Verif Require (?:Import|Export) ([^.]*)\.",t): mods+=l.split()
    return any(dep(x+".v",src,seen) for x in mods)
for m in muts: run(m)
