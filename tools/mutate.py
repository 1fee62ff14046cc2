#!/usr/bin/env python3
"""Apply one wrong edit to a model file in a scratch copy, rebuild, and find the
theorems that no longer hold.

  mutate.py MUTANTS.json INDEX... [--jobs N]

MUTANTS.json is a list of {"def", "file", "old", "new", "breaks"}; with "targets", a list of
files of Props, only these are rebuilt and looked at. A lemma whose proof
fails is admitted in the scratch copy and the build goes on, so that the property
theorems resting on it show up through Print Assumptions. One line per mutant is
appended to seeded/LOG.jsonl."""
import json, os, re, shutil, subprocess, sys, time
HERE = os.path.dirname(os.path.abspath(__file__))
ROOT = os.path.dirname(HERE)
args = [a for a in sys.argv[1:]]
jobs = "4"
if "--jobs" in args:
    i = args.index("--jobs"); jobs = args[i + 1]; del args[i:i + 2]
muts = json.load(open(args[0]))
DECL = re.compile(r"^\s*(?:Global |Local |#\[.*\] )?(Lemma|Theorem|Example|Corollary|Instance|Definition|Fixpoint|Fact)\s+([\w']+)", re.M)

def admit(path, line):
    s = open(path).read()
    pos = sum(len(l) + 1 for l in s.split("\n")[:line - 1])
    end = s.find("\n", pos)
    ds = [m for m in DECL.finditer(s) if m.start() <= end]
    if not ds: return None
    d = ds[-1]
    p = s.find("Proof", d.start())
    q = re.compile(r"\b(Qed|Defined)\.").search(s, d.start())
    if p < 0 or q is None or p > q.start(): return None
    nxt = DECL.search(s, d.end())
    if nxt and nxt.start() < p: return None
    body = s[p:q.end()]
    s = s[:p] + "Proof. Admitted. " + "\n" * body.count("\n") + s[q.end():]
    open(path, "w").write(s)
    return d.group(1), d.group(2)

def run(m, idx):
    t0 = time.time()
    W = "/tmp/mut/w%d" % os.getpid()
    base = "/tmp/mut/base"
    shutil.rmtree(W, ignore_errors=True)
    subprocess.run(["cp", "-rp", base if os.path.isdir(base) else ROOT + "/rocq", W], check=True)
    f = W + "/theories/" + m["file"]
    s = open(f).read()
    assert s.count(m["old"]) == 1, (m["def"], s.count(m["old"]))
    open(f, "w").write(s.replace(m["old"], m["new"]))
    shutil.rmtree(W + "/theories/Tests", ignore_errors=True)
    cp = [l for l in open(W + "/_CoqProject").read().split("\n") if "/Tests/" not in l]
    open(W + "/_CoqProject", "w").write("\n".join(cp))
    subprocess.run("coq_makefile -f _CoqProject -o Makefile", shell=True, cwd=W, check=True, capture_output=True)
    broken, stuck = [], []
    for it in range(80):
        r = subprocess.run("ulimit -v 7000000; make -k -j%s COQC='timeout 240 coqc' %s" % (jobs, " ".join("theories/Props/%s.vo" % t for t in m.get("targets", []))), shell=True, cwd=W,
                           capture_output=True, text=True)
        out = r.stdout + r.stderr
        if r.returncode == 0: break
        errs = re.findall(r'File "\./(theories/[^"]+)", line (\d+), characters [^\n]*\n(?!Warning)', out)
        done = False
        for path, line in dict((p, l) for p, l in errs).items():
            if "/Model/" in path:
                print("model does not compile", out[-800:]); return None
            a = admit(W + "/" + path, int(line))
            if a: broken.append((path[9:],) + a); done = True
            elif path not in stuck: stuck.append(path)
        if not done: break
    names = [t for c in json.load(open(ROOT + "/MANIFEST.json"))["claims"] for t in c["theorems"]]
    where = {}
    for d in ("Props", "Proofs"):
        for fn in sorted(os.listdir(W + "/theories/" + d)):
            if fn.endswith(".v"):
                for k in DECL.finditer(open(W + "/theories/%s/%s" % (d, fn)).read()):
                    where.setdefault(k.group(2), (d, fn[:-2]))
    failed = []
    for (d, mod) in sorted(set(where[n] for n in names if n in where)):
        if m.get("targets") and mod not in m["targets"]: continue
        ns = [n for n in names if where.get(n) == (d, mod)]
        if not os.path.exists(W + "/theories/%s/%s.vo" % (d, mod)):
            failed += [n + " (not rebuilt)" for n in ns]; continue
        src = "From Verif.%s Require Import %s.\n" % (d, mod) + "".join("Print Assumptions %s.\n" % n for n in ns)
        open(W + "/q.v", "w").write(src)
        r = subprocess.run(["coqc", "-Q", "theories", "Verif", "q.v"], cwd=W, capture_output=True, text=True)
        outs = re.split(r"(?=^Closed under the global context|^Axioms:)", r.stdout, flags=re.M)
        outs = [o for o in outs if o.startswith(("Closed", "Axioms"))]
        if len(outs) != len(ns): failed += [n + " (?)" for n in ns]; print(r.stderr[-500:]); continue
        failed += [n for n, o in zip(ns, outs) if o.startswith("Axioms")]
    ex = [n for (p, k, n) in broken if k == "Example"]
    rec = {"definition": m["file"] + ":" + m["def"], "edit": m["old"] + "  ->  " + m["new"], "breaks": m["breaks"],
           "failed": sorted(failed), "broken_lemmas": [p + ":" + n for (p, k, n) in broken if k != "Example"],
           "broken_examples": ex, "tightened": []}
    if m.get("targets"): rec["looked_at"] = m["targets"]
    if stuck: rec["not_rebuilt"] = stuck
    with open(ROOT + "/seeded/LOG.jsonl", "a") as g: g.write(json.dumps(rec) + "\n")
    shutil.rmtree(W)
    print(idx, m["def"], "|", m["breaks"], "|", len(failed), "theorems:", " ".join(sorted(failed))[:300], "| %ds" % (time.time() - t0), flush=True)

for i in (range(len(muts)) if len(args) == 1 else map(int, args[1:])):
    try: run(muts[i], i)
    except Exception as e: print(i, "ERROR", repr(e), flush=True)
