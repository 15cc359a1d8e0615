#!/usr/bin/env python3
"""Mutation tests of the theorems.

usage: mutate.py MUTANTS.json WORKDIR [id ...]

Each mutant is {"id", "file", "def", "old", "new", "edit", "breaks", "claims": [property ids]}.
The rocq folder is copied to WORKDIR, the edit is made, and the files that hold the theorems of the
claims are rebuilt.  A proof that fails is replaced (in the copy) by Admitted and the build goes on, so
that all proofs that fail directly are found; Print Assumptions then tells which theorems of the
claims rest on such a proof.  A theorem that neither fails nor rests on a failed proof still holds of
the wrong program.
"""
import json, os, re, shutil, subprocess, sys, time

ROCQ = "/verif/rocq"
muts = json.load(open(sys.argv[1]))
work = sys.argv[2]
only = sys.argv[3:]
manifest = json.load(open("/verif/MANIFEST.json"))
claims = {c["property"]: c["theorems"] for c in manifest["claims"]}
HEAD = re.compile(r"^\s*(?:#\[[^\]]*\]\s*)?(?:Local |Global )?(Lemma|Theorem|Example|Corollary|Definition|Fact|Remark|Instance)\s+(\w+)", re.M)

where = {}
for f in os.listdir(ROCQ + "/theories"):
    if f.endswith(".v") and f != "Assumptions.v":
        for m in HEAD.finditer(open(f"{ROCQ}/theories/{f}").read()):
            where.setdefault(m.group(2), f)

def fresh():
    os.makedirs(work, exist_ok=True)
    subprocess.run(["rsync", "-a", "--delete", ROCQ + "/", work + "/"]) if shutil.which("rsync") else \
        (shutil.rmtree(work), shutil.copytree(ROCQ, work, copy_function=shutil.copy2))

def patch(path, line):
    """replace the proof around [line] (1-based) by Admitted; the name of the lemma, or None"""
    s = open(path).read()
    pos = sum(len(l) + 1 for l in s.split("\n")[: line - 1])
    best = None
    for m in HEAD.finditer(s):
        if m.start() <= pos + 400 and s.count("\n", 0, m.start()) + 1 <= line:
            best = m
    if not best:
        return None
    p = re.compile(r"\bProof\b").search(s, best.start())
    q = re.compile(r"\b(Qed|Defined|Admitted|Abort)\.").search(s, best.start())
    if not p or not q or p.start() > q.start() or q.group(1) == "Admitted":
        return None
    if s.count("\n", 0, q.end()) + 1 < line:
        return None
    s = s[: p.start()] + "Proof. Admitted." + "\n" * s.count("\n", p.start(), q.end()) + s[q.end():]
    open(path, "w").write(s)
    return best.group(2)

def make(targets, tmo):
    env = dict(os.environ, COQEXTRAFLAGS="")
    r = subprocess.run(["make", "-k", "-j2", f"COQC=timeout {tmo} coqc"] + targets, cwd=work, env=env,
                       stdout=subprocess.PIPE, stderr=subprocess.STDOUT, text=True)
    return r.returncode, r.stdout

def slow_line(f, tmo):
    r = subprocess.run(["timeout", str(tmo), "coqc", "-time", "-Q", "theories", "Verif", "theories/" + f], cwd=work,
                       stdout=subprocess.PIPE, stderr=subprocess.STDOUT, text=True)
    cs = re.findall(r"^Chars (\d+) - (\d+)", r.stdout, re.M)
    if not cs: return None
    end = int(cs[-1][1])
    b = open(f"{work}/theories/{f}", "rb").read()
    k = b.find(b"\n", end + 2)
    return b.count(b"\n", 0, end + 2) + 1

for mu in muts:
    if only and mu["id"] not in only:
        continue
    t0 = time.time()
    fresh()
    path = f"{work}/theories/{mu['file']}"
    s = open(path).read()
    if s.count(mu["old"]) != 1:
        print(json.dumps({"id": mu["id"], "error": f"old text occurs {s.count(mu['old'])} times"}), flush=True)
        continue
    open(path, "w").write(s.replace(mu["old"], mu["new"]))
    thms = [t for c in mu["claims"] for t in claims.get(c, [])]
    files = sorted({where[t] for t in thms if t in where})
    targets = [f"theories/{f[:-2]}.vo" for f in files]
    failed, error = [], None
    for rnd in range(80):
        rc, out = make(targets, 240)
        if rc == 0:
            break
        errs = [(m.group(1), m.group(2), m.group(3)) for m in
                re.finditer(r'^File "\./theories/(\w+\.v)", line (\d+)[^\n]*\n((?:.*\n){0,1}?Error)?', out, re.M)]
        done = False
        seen = set()
        for f, l, e in errs:
            if f in seen or not e: continue
            seen.add(f)
            n = patch(f"{work}/theories/{f}", int(l))
            if n: failed.append(n); done = True
            else: error = f"{f}:{l}"
        if not done:
            for f in set(re.findall(r"theories/(\w+)\.vo\] Error 124", out)):
                l = slow_line(f + ".v", 240)
                n = l and patch(f"{work}/theories/{f}.v", l)
                if n: failed.append(n + " (no end)"); done = True
        if not done:
            error = error or out[-600:]
            break
        error = None
    tainted, holds = [], []
    if error is None:
        chk = "".join(f"From Verif Require Import {f[:-2]}.\n" for f in files)
        for t in thms:
            chk += f'Goal True. idtac "@@{t}". Abort.\nPrint Assumptions {t}.\n'
        open(f"{work}/chk.v", "w").write(chk)
        r = subprocess.run(["coqc", "-Q", "theories", "Verif", "chk.v"], cwd=work, stdout=subprocess.PIPE, stderr=subprocess.STDOUT, text=True)
        parts = r.stdout.split("@@")[1:]
        for p in parts:
            t, body = p.split("\n", 1)
            (holds if "Closed under the global context" in body else tainted).append(t.strip())
        if r.returncode: error = r.stdout[-300:]
    names = [f.replace(" (no end)", "") for f in failed]
    print(json.dumps({"id": mu["id"], "definition": mu["def"], "file": mu["file"], "edit": mu["edit"], "breaks": mu["breaks"],
        "failed_proofs": failed, "claim_theorems_lost": [t for t in tainted], "claim_theorems_that_still_hold": holds,
        "error": error, "seconds": round(time.time() - t0)}), flush=True)
