#!/usr/bin/env python3
"""Automatic small mutations of the model files.  usage: automut.py SRC SEED COUNT [file-regex]
Each mutant changes one token of one definition of a *Model.v file (or another file of definitions); the files
that depend on it are rebuilt in a scratch copy until one proof fails.  A mutant that does not type-check is
dropped.  One JSON line per mutant: killed_by (file and lemma of the first failing proof) or survived."""
import json, os, random, re, shutil, subprocess, sys
SRC, seed, count = sys.argv[1], int(sys.argv[2]), int(sys.argv[3])
want = re.compile(sys.argv[4] if len(sys.argv) > 4 else r"Model|PyBase|Jabmod|Regex\.v|UrlText|JsonText|JsonParse\.v|ResultsJson")
random.seed(seed)
files = [l.strip() for l in open(SRC+"/_CoqProject") if l.strip().endswith(".v")]
def blank(s):
    "comments become blanks"
    out, d, i, instr = [], 0, 0, False
    while i < len(s):
        if d == 0 and s[i] == '"':
            instr = not instr; out.append(s[i]); i += 1; continue
        if not instr and s.startswith("(*", i): d += 1; out.append("  "); i += 2; continue
        if not instr and d and s.startswith("*)", i): d -= 1; out.append("  "); i += 2; continue
        out.append(s[i] if d == 0 or s[i] == "\n" else " "); i += 1
    return "".join(out)
OPS = [(r"<\?", ["<=?"]), (r"<=\?", ["<?"]), (r"&&", ["||"]), (r"\|\|", ["&&"]), (r"\btrue\b", ["false"]), (r"\bfalse\b", ["true"]),
       (r"\bfst\b", ["snd"]), (r"\bsnd\b", ["fst"]), (r"\bfirstn\b", ["skipn"]), (r"\bskipn\b", ["firstn"]), (r"\bnegb\b", ["id"]),
       (r"\brev\b", ["id"]), (r" \+ ", [" - "]), (r" - ", [" + "]), (r"\bexistsb\b", ["forallb"]), (r"\bforallb\b", ["existsb"]),
       (r"(?<![\w.])\d+(?![\w.])", ["N+1"]), (r'u "[^"]+"', ["STR"]), (r"\bif (?=[a-z])", ["IFNEG"]),
       (r"\bErr (\w+Error|\w+Exn|\w+Exception)\b", ["ERR"]), (r"\bfold_left\b", ["FOLDR"]), (r"\bstrip\b", ["id"]), (r"\bfilter \(fun", ["SKIPF"]),
       (r"\b([a-z]\w*) \+\+ ([a-z]\w*)\b", ["SWAPAPP"]), (r"\bin_dec\b", []), (r"\b\w+ \+\+ \[", ["DROPAPP"])]
def mutants(f):
    s = open(SRC+"/"+f).read(); t = blank(s)
    res = []
    spans = [(m.start(1), m.group(2)) for m in re.finditer(r"(?m)^\s*(?:Local )?(Definition|Fixpoint|with|Inductive|Record|Lemma|Theorem|Example|Notation|Section|Variable|From|Require|Ltac)\s+(\S+)", t)]
    for k, (st, name) in enumerate(spans):
        end = spans[k+1][0] if k+1 < len(spans) else len(t)
        head = t[st:st+20].strip()
        if not re.match(r"(Local )?(Definition|Fixpoint|with)\b", head): continue
        body0 = t.find(":=", st)
        if body0 < 0 or body0 > end: continue
        for pat, reps in OPS:
            for m in re.finditer(pat, t[body0:end]):
                a, b = body0+m.start(), body0+m.end()
                old = s[a:b]
                for r in reps:
                    if r == "N+1": new = str(int(old)+1)
                    elif r == "STR": new = old[:-1]+'x"'
                    elif r == "IFNEG":
                        th = t.find(" then", b)
                        if th < 0 or "\n" in t[b:th] or "if " in t[b:th]: continue
                        b2 = th; res.append((f, name, a, b2, s[a:b2], "if negb ("+s[b:b2]+")")); continue
                    elif r == "ERR": new = "Err GenericException" if "GenericException" not in old else "Err KeyError"
                    elif r == "FOLDR": continue
                    elif r == "SKIPF": new = "filter (fun _ => true) (filter (fun" ; continue
                    elif r == "SWAPAPP": new = "%s ++ %s" % (m.group(2), m.group(1))
                    elif r == "DROPAPP": new = "["
                    else: new = r
                    res.append((f, name, a, b, old, new))
    return res
allm = []
for f in files:
    if want.search(f): allm.extend(mutants(f))
byd = {}
for m in allm: byd.setdefault((m[0], m[1]), []).append(m)
keys = sorted(byd); random.shuffle(keys)
print(json.dumps({"definitions": len(keys), "mutants": len(allm)}), flush=True)
scratch = "/tmp/am/scratch_%d" % os.getpid()
shutil.copytree(SRC, scratch)
dep = {}
for f in files:
    t = open(SRC+"/"+f).read()
    dep[f] = set("theories/%s.v"%m for r in re.findall(r"From Verif Require (?:Import|Export) ([\w\s]+)\.", t) for m in r.split())
order, seen = [], set()
def visit(f):
    if f in seen or f not in dep: return
    seen.add(f)
    for g in sorted(dep[f]): visit(g)
    order.append(f)
for f in files: visit(f)
files = order
done = 0
for key in keys:
    if done >= count: break
    m = random.choice(byd[key]); f, name, a, b, old, new = m
    s = open(SRC+"/"+f).read()
    dirty = [f]
    for g in files:
        if g != f and dep[g] & set(dirty): dirty.append(g)
    ln = s[:a].count("\n")+1
    rec = {"file": f, "definition": name, "line": ln, "old": old, "new": new, "context": s[max(0,a-50):b+40]}
    def coqc(g):
        try:
            r = subprocess.run(["timeout","600","coqc","-Q","theories","Verif",g],cwd=scratch,capture_output=True,text=True)
        except Exception as e: return 1, str(e)
        return r.returncode, r.stderr
    open(scratch+"/"+f,"w").write(s[:a]+new+s[b:])
    touched = []
    status = None
    for g in dirty:
        touched.append(g)
        rc, err = coqc(g)
        if rc == 0: continue
        mm = re.search(r'line (\d+), characters', err)
        t = open(scratch+"/"+g).read().split("\n")
        lem = None
        if mm:
            for i in range(int(mm.group(1))-1, -1, -1):
                x = re.match(r"\s*(?:Local )?(Lemma|Theorem|Example|Definition|Fixpoint|Corollary)\s+([\w']+)", t[i])
                if x: lem = x.group(2); kind = x.group(1); break
        if g == f and (lem is None or kind in ("Definition","Fixpoint")): status = "stillborn"
        else: status = "killed"; rec["killed_by"] = g+":"+str(lem)+("" if rc != 124 else " (timeout)")
        break
    if status is None: status = "survived"
    rec["status"] = status
    for g in touched + [f]:
        for ext in (".v",".vo",".vos",".vok",".glob"):
            p = g[:-2]+ext
            if os.path.exists(SRC+"/"+p): shutil.copy2(SRC+"/"+p, scratch+"/"+p)
    if status != "stillborn":
        done += 1
        print(json.dumps(rec), flush=True)
shutil.rmtree(scratch, ignore_errors=True)
