#!/usr/bin/env python3
"""Seed bugs in a scratch copy of the model and see which theorems notice.
usage: mutate.py MUTATIONS.json [--log]   each entry: definition, edit, claim, edits [[file, old, new]...]
An entry may have targets, the names of the Props files to rebuild; without it all are.
The scratch copy starts from the built tree, so only what depends on the edit is rebuilt.
Every proof that breaks is replaced, in the scratch copy only, by an admitted one and the build goes on;
in the end a theorem counts as failed when what it rests on contains one of those."""
import json, os, re, shutil, subprocess, sys
ROOT = os.environ.get("MUT_ROOT", "/verif/rocq"); DIR = os.environ.get("MUT_DIR", "/tmp/mut"); SCR = DIR + "/rocq"
START = re.compile(r"^\s*(?:Theorem|Lemma|Example|Corollary|Definition|Fixpoint|Fact|Remark)\s+(\w+)")
def path(f): return os.path.join(SCR, "theories", f)
def admit(f, line):
    ls = open(path(f)).read().split("\n")
    i = line - 1
    while i >= 0 and not START.match(ls[i]): i -= 1
    name = START.match(ls[i]).group(1) if i >= 0 else "?"
    j = i
    while j < len(ls) and not re.search(r"\bProof\.", ls[j]): j += 1
    k = j
    while k < len(ls) and not re.search(r"\b(Qed|Defined)\.", ls[k]): k += 1
    if j >= len(ls) or k >= len(ls) or not (j <= line - 1 <= k): return name, False
    a = ls[j].index("Proof."); tail = re.split(r"\b(?:Qed|Defined)\.", ls[k], 1)[1]
    ls[j:k + 1] = [ls[j][:a] + "Admitted." + tail] + [""] * (k - j)
    open(path(f), "w").write("\n".join(ls))
    return name, True
def theorems(f): return re.findall(r"^Theorem\s+(C\d\d_\w+)", open(path(f)).read(), re.M)
def one(mu):
    shutil.rmtree(DIR, ignore_errors=True); os.makedirs(DIR)
    subprocess.run(["cp", "-a", ROOT, SCR], check=True)
    for f, old, new in mu["edits"]:
        s = open(path(f)).read()
        if old not in s: print("NO MATCH", f, old[:60]); return
        open(path(f), "w").write(s.replace(old, new, 1))
    goals = " ".join("theories/%s.vo" % t for t in mu.get("targets", []))
    broken, hard = [], []
    for _ in range(40):
        r = subprocess.run("make -k -j3 COQC='timeout 500 coqc' %s 2>&1" % goals, shell=True, cwd=SCR, capture_output=True, text=True)
        errs = re.findall(r'File "\./theories/(\w+\.v)", line (\d+)[^\n]*\nError', r.stdout)
        if not errs: break
        for f, l in errs:
            n, ok = admit(f, int(l))
            broken.append(f[:-2] + "." + n)
            if not ok: hard.append(f)
        if hard: break
    props = [f for f in sorted(os.listdir(os.path.join(SCR, "theories"))) if f.startswith("Props") and f.endswith(".v")]
    if goals: props = [f for f in props if f[:-2] in mu["targets"]]
    failed, alive = [], []
    if hard:
        failed = ["(model no longer fits the statements in %s)" % ", ".join(hard)]
    else:
        for f in props:
            ts = theorems(f)
            open(DIR + "/q.v", "w").write("From Verif Require %s.\n" % f[:-2] + "".join("Print Assumptions %s.%s.\n" % (f[:-2], t) for t in ts))
            q = subprocess.run(["coqc", "-Q", "theories", "Verif", DIR + "/q.v"], cwd=SCR, capture_output=True, text=True)
            outs = re.split(r"(?=^Closed under|^Axioms:)", q.stdout, flags=re.M)[1:]
            assert len(outs) == len(ts), (f, q.stdout[-500:], q.stderr[-500:])
            for t, o in zip(ts, outs):
                (alive if o.startswith("Closed") else failed).append(t)
    print(json.dumps({"definition": mu["definition"], "edit": mu["edit"], "broken": broken, "failed": failed, "alive": len(alive)}), flush=True)
    if "--log" in sys.argv:
        with open("/verif/seeded/LOG.jsonl", "a") as fh:
            fh.write(json.dumps({"definition": mu["definition"], "edit": mu["edit"], "claim": mu["claim"],
                "first_failures": broken[:6], "theorems_failed": failed, "theorems_tightened": mu.get("tightened", [])}
                | ({"rebuilt": mu["targets"]} if goals else {})) + "\n")
for mu in json.load(open(sys.argv[1])): one(mu)
