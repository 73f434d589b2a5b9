#!/usr/bin/env python3
"""Seeded-bug testing.  usage: mutate.py MUTATIONS.json [ids...]
Each mutation {id, file, old, new, def, edit, claim} is applied to a scratch copy of
rocq/theories (outside /verif); every file is rebuilt; a proof that no longer goes through
is replaced by Admitted (in the scratch copy only) and the build goes on, so that at the
end `Print Assumptions` tells which property theorems no longer stand: those whose own
proof failed and those that rest on a lemma whose proof failed.  One JSON line per
mutation is printed."""
import json, os, re, shutil, subprocess, sys
SRC = os.environ.get("MUTSRC", "/verif/rocq")
def run(mut, scratch):
    if not os.path.exists(scratch):
        shutil.copytree(SRC, scratch)
    else:
        subprocess.run(["rsync","-a","--delete",SRC+"/",scratch+"/"]) if shutil.which("rsync") else (shutil.rmtree(scratch), shutil.copytree(SRC, scratch))
    files = [l.strip() for l in open(scratch+"/_CoqProject") if l.strip().endswith(".v")]
    path = scratch+"/theories/"+mut["file"]
    s = open(path).read()
    if s.count(mut["old"]) != 1:
        return {"id": mut["id"], "error": "pattern occurs %d times" % s.count(mut["old"])}
    open(path,"w").write(s.replace(mut["old"], mut["new"]))
    # which files depend on it
    dep = {}
    for f in files:
        t = open(scratch+"/"+f).read()
        dep[f] = set("theories/%s.v"%m for r in re.findall(r"From Verif Require (?:Import|Export) ([\w\s]+)\.", t) for m in r.split())
    order, seen = [], set()
    def visit(f):
        if f in seen or f not in dep: return
        seen.add(f)
        for g in sorted(dep[f]): visit(g)
        order.append(f)
    for f in files: visit(f)
    files = order
    dirty = {"theories/"+mut["file"]}
    for f in files:
        if dep[f] & dirty: dirty.add(f)
    direct, fell = [], []
    for f in files:
        if f not in dirty: continue
        while True:
            try:
                r = subprocess.run(["coqc","-Q","theories","Verif",f],cwd=scratch,capture_output=True,text=True,timeout=1500)
            except subprocess.TimeoutExpired:
                return {"id":mut["id"],"error":"timeout "+f}
            if r.returncode == 0: break
            m = re.search(r'line (\d+), characters (\d+)', r.stderr)
            if not m: return {"id":mut["id"],"error":r.stderr[-500:]}
            ln = int(m.group(1))
            t = open(scratch+"/"+f).read()
            lines = t.split("\n")
            off = sum(len(x)+1 for x in lines[:ln-1]) + int(m.group(2))
            st = None
            for mm in re.finditer(r"(?m)^\s*(?:Local )?(Lemma|Theorem|Example|Corollary|Remark|Fact)\s+([\w']+)", t):
                if mm.start() <= off: st = mm
                else: break
            if st is None: return {"id":mut["id"],"error":"in def: "+r.stderr[-500:]}
            q = re.compile(r"\b(Qed|Defined)\.").search(t, max(st.start(), st.start()))
            # the Qed must be at or after the error
            if q.end() < off and t[q.end():off].strip() != "":
                return {"id":mut["id"],"error":"not in a proof: %s line %d %s"%(f,ln,r.stderr[-400:])}
            p = re.compile(r"\bProof\.").search(t, st.start())
            if not p or p.start() > q.start(): return {"id":mut["id"],"error":"no Proof"}
            if p.start() > off: return {"id":mut["id"],"error":"statement of "+st.group(2)+" fails: "+r.stderr[-400:]}
            direct.append(st.group(2))
            t = t[:p.start()] + "Admitted." + t[q.end():]
            open(scratch+"/"+f,"w").write(t)
            if len(direct) > 80: return {"id":mut["id"],"error":"too many failures","direct":direct}
        base = os.path.basename(f)
        if base.startswith("Props"):
            # Print Assumptions in order
            t = open(scratch+"/"+f).read()
            names = re.findall(r"Print Assumptions ([\w']+)\.", t)
            out = re.split(r"(?m)^(?=Closed under the global context|Axioms:)", r.stdout)
            out = [o for o in out if o.startswith("Closed") or o.startswith("Axioms:")]
            for n,o in zip(names,out):
                if o.startswith("Axioms:"):
                    bad = [d for d in direct if re.search(r"(?m)^%s\b"%re.escape(d), o)]
                    if bad and n not in fell: fell.append(n)
    props = [d for d in direct if re.match(r"C\d+_",d)]
    lem = [d for d in direct if not re.match(r"C\d+_",d)]
    return {"id":mut["id"],"definition":mut["def"],"edit":mut["edit"],"claim":mut["claim"],"theorems_failed":fell,"failed_directly":props,"lemmas_failed":lem}
if __name__ == "__main__":
    muts = json.load(open(sys.argv[1]))
    want = set(sys.argv[2:])
    scratch = "/tmp/mut_scratch_%d"%os.getpid()
    for m in muts:
        if want and m["id"] not in want: continue
        print(json.dumps(run(m, scratch)), flush=True)
    shutil.rmtree(scratch, ignore_errors=True)
