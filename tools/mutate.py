#!/usr/bin/env python3
"""Apply wrong edits to a scratch copy of the model and see which theorems stop checking.

usage: mutate.py list.py   (list.py defines M = [(file, old, new, claim), ...])
Results are appended to seeded/LOG.jsonl; survivors are printed."""
import sys, os, re, json, subprocess, shutil, bisect
REPO = "/verif"; SRC = "/tmp/mutbase/rocq"; TMP = "/tmp/mutants"
def base():
    """build the committed state once"""
    head = subprocess.run(["git", "-C", REPO, "rev-parse", "HEAD"], capture_output=True, text=True).stdout.strip()
    mark = "/tmp/mutbase/HEAD"
    if os.path.exists(mark) and open(mark).read() == head: return
    os.makedirs("/tmp/mutbase", exist_ok=True)
    subprocess.run(f"git -C {REPO} archive HEAD rocq | tar -x -C /tmp/mutbase --warning=no-timestamp", shell=True, check=True)
    subprocess.run("coq_makefile -f _CoqProject -o Makefile && make -j3", shell=True, cwd=SRC, check=True, capture_output=True)
    open(mark, "w").write(head)
base()
ns = {}; exec(open(sys.argv[1]).read(), ns); M = ns["M"]

def deps():
    """theorem -> set of names it mentions (from the .glob files of a full build)"""
    d = {}
    for g in os.listdir(SRC + "/theories"):
        if not g.endswith(".glob"): continue
        mod = "Verif." + g[:-5]; starts = []; names = []; refs = []
        for l in open(f"{SRC}/theories/{g}"):
            m = re.match(r"(prf|def|ind|rec|thm|lem) (\d+):\d+ <> (\S+)", l)
            if m: starts.append(int(m[2])); names.append(m[3]); continue
            m = re.match(r"R(\d+):\d+ (Verif\.\S+) <> (\S+)", l)
            if m: refs.append((int(m[1]), m[2], m[3]))
        o = sorted(zip(starts, names)); starts = [a for a, _ in o]; names = [b for _, b in o]
        for n in names: d.setdefault((mod, n), set())
        for p, m, n in refs:
            i = bisect.bisect(starts, p) - 1
            if i >= 0: d[(mod, names[i])].add((m, n))
    return d
D = deps(); R = {}
for k, v in D.items():
    for x in v: R.setdefault(x, set()).add(k)
def users(k):
    seen = set(); st = [k]
    while st:
        x = st.pop()
        for y in R.get(x, ()):
            if y not in seen: seen.add(y); st.append(y)
    return seen

def fresh():
    shutil.rmtree(TMP, ignore_errors=True)
    subprocess.run(["cp", "-a", SRC, TMP], check=True)

fresh(); survivors = []
for (f, old, new, claim) in M:
    path = f"{TMP}/theories/{f}.v"; s = open(path).read()
    if s.count(old) < 1: print("NOT FOUND", f, old); continue
    if s.count(old) > 1: print("AMBIGUOUS", f, old); continue
    i = s.index(old)
    head = re.findall(r"^(?:Definition|Fixpoint|Inductive|Record)\s+(\w+)", s[:i + 1], re.M)
    open(path, "w").write(s.replace(old, new))
    try:
        r = subprocess.run("ulimit -v 5000000; ulimit -t 200; make -k -j3 COQEXTRAFLAGS=", shell=True, cwd=TMP, capture_output=True, text=True, timeout=1500)
        out = r.stdout + r.stderr; code = r.returncode
    except subprocess.TimeoutExpired:
        out = ""; code = 99
    failed = set()
    for m in re.finditer(r'File "\./theories/(\w+)\.v", line (\d+)', out):
        src = open(f"{TMP}/theories/{m[1]}.v").read().split("\n")[:int(m[2])]
        nm = [x for l in src for x in re.findall(r"^(?:Lemma|Theorem|Example|Definition|Fixpoint|Corollary)\s+(\w+)", l)]
        if nm: failed.add((f"Verif.{m[1]}", nm[-1]))
    hung = set(re.findall(r"theories/(\w+)\.vo\] (?:Killed|CPU time limit|Error 1(?:37|52))", out))
    for h in hung: failed |= {k for k in D if k[0] == "Verif." + h}
    allf = set(failed)
    for k in failed: allf |= users(k)
    th = sorted({n for (m, n) in allf if m.startswith("Verif.Props") and re.match(r"C\d\d", n)} )
    first = sorted(n for (m, n) in failed if m[6:] not in hung) + sorted(f"{h}.v (proof search exceeds the time limit)" for h in hung)
    ok = code == 0
    if ok: survivors.append((f, old, new))
    rec = {"file": f"rocq/theories/{f}.v", "definition": head[-1] if head else f, "edit": f"{old}  -->  {new}",
           "breaks": claim, "failed_at": first, "theorems_failed": th if not ok else [], "tightened": [] }
    if ok: rec["result"] = "survived"
    if code == 99: rec["result"] = "build did not finish"
    open("/verif/seeded/LOG.jsonl", "a").write(json.dumps(rec) + "\n")
    print("SURVIVED" if ok else "killed", f, rec["definition"], "|", new[:60], "|", first, th[:6], flush=True)
    open(path, "w").write(s)
    # bring the copy back to the good state
    subprocess.run(["cp", "-a", f"{SRC}/theories/.", f"{TMP}/theories/"], check=True)
print(len(survivors), "survivors")
