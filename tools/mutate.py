#!/usr/bin/env python3
"""Mutation tests of the theorems.

Reads mutants from tools/mutants.py, applies each to a scratch copy of rocq/
outside /verif, rebuilds with make -k and appends a line to seeded/LOG.jsonl.
A mutant "survives" if the whole development still compiles.
usage: mutate.py [name ...]   (default: those not yet in the log)
"""
import json, os, re, shutil, subprocess, sys
ROOT = os.path.dirname(os.path.dirname(os.path.abspath(__file__)))
SCRATCH = "/tmp/mut"
BASE = "/tmp/mutbase"   # snapshot of rocq/ (built) taken when the run starts
LOG = os.path.join(ROOT, "seeded", "LOG.jsonl")
sys.path.insert(0, os.path.join(ROOT, "tools"))
from mutants import MUTANTS

def theorem_at(path, line):
    name = "?"
    for i, l in enumerate(open(path), 1):
        m = re.match(r"\s*(?:Theorem|Lemma|Corollary|Example|Definition|Fixpoint|Record|Instance)\s+(\w+)", l)
        if m: name = m.group(1)
        if i >= line: break
    return name

def run(name, m):
    if os.path.exists(SCRATCH): shutil.rmtree(SCRATCH)
    shutil.copytree(BASE, SCRATCH)
    p = os.path.join(SCRATCH, "theories", m["file"])
    s = open(p).read()
    n = s.count(m["old"])
    if n < 1: raise SystemExit(f"{name}: pattern not found")
    idx = m.get("nth", 0)
    if n > 1 and "nth" not in m and not m.get("all"): raise SystemExit(f"{name}: pattern found {n} times")
    if m.get("all"): s = s.replace(m["old"], m["new"])
    else:
        pos = -1
        for _ in range(idx + 1): pos = s.index(m["old"], pos + 1)
        s = s[:pos] + m["new"] + s[pos + len(m["old"]):]
    open(p, "w").write(s)
    out = subprocess.run(["make", "-k", "-j4", "TIMECMD=timeout 300"], cwd=SCRATCH, capture_output=True, text=True)
    txt = out.stdout + out.stderr
    failed = []
    for f, l in re.findall(r'File "\./theories/(\w+\.v)", line (\d+)[^\n]*\n(?:Error|.*\nError)', txt):
        t = f[:-2] + "." + theorem_at(os.path.join(SCRATCH, "theories", f), int(l))
        if t not in failed: failed.append(t)
    # property theorems that were not rebuilt because they or what they need failed
    unbuilt = []
    for f in sorted(os.listdir(os.path.join(SCRATCH, "theories"))):
        if f.endswith(".v"):
            v = os.path.join(SCRATCH, "theories", f); vo = v + "o"
            if not os.path.exists(vo) or os.path.getmtime(vo) < os.path.getmtime(p):
                if f in txt or f + "o" in txt or not os.path.exists(vo):
                    pass
    mk = subprocess.run(["make", "-k", "-n"], cwd=SCRATCH, capture_output=True, text=True)
    for f in re.findall(r"COQC theories/(\w+)\.v", mk.stdout):
        for l in open(os.path.join(SCRATCH, "theories", f + ".v")):
            mm = re.match(r"(?:Theorem|Corollary)\s+(C\d\d_\w+)", l)
            if mm: unbuilt.append(mm.group(1))
    return out.returncode, failed, unbuilt, txt

def main():
    done = set()
    if os.path.exists(LOG):
        for l in open(LOG):
            if l.strip(): done.add(json.loads(l).get("mutant"))
    names = sys.argv[1:] or [n for n in MUTANTS if n not in done]
    if os.path.exists(BASE): shutil.rmtree(BASE)
    shutil.copytree(os.path.join(ROOT, "rocq"), BASE)
    for name in names:
        m = MUTANTS[name]
        rc, failed, unbuilt, txt = run(name, m)
        if rc != 0 and not failed:
            print(name, "NO ERROR LOCATED"); print(txt[-1500:])
        claim = m["claim"]
        hit = [t for t in unbuilt if any(t.startswith(c) for c in re.findall(r"C\d\d", claim))]
        rec = {"mutant": name, "definition": m["def"], "edit": m["edit"], "claim": claim,
               "outcome": "killed" if rc != 0 else "survived",
               "failed_at": failed, "theorems_failed": hit or unbuilt[:5],
               "tightened": m.get("tightened", [])}
        if "note" in m: rec["note"] = m["note"]
        print(name, rec["outcome"], failed, hit[:4], flush=True)
        with open(LOG, "a") as f: f.write(json.dumps(rec) + "\n")
if __name__ == "__main__": main()
