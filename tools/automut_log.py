#!/usr/bin/env python3
"""Append automut results to seeded/LOG.jsonl (invalid mutants are left out).
usage: automut_log.py RUN out.jsonl... ; survivors need a verdict in VERDICTS."""
import json, sys, os
ROOT = os.path.dirname(os.path.dirname(os.path.abspath(__file__)))
LOG = ROOT + "/seeded/LOG.jsonl"
VERDICTS = {
 ("Api", "proper"): ("the definition was only used to say nothing about panicking runs; it has been removed and the theorems now cover those runs", ["C26_never_panics and the other history theorems"]),
 ("Poprf", "poprf_finalize_after_unblind"): ("equivalent: renames a binder", []),
 ("EllipticCurve", "encoded_from_bytes"): ("equivalent for callers: the identity encoding is rejected by the next check as well", []),
 ("Sha2", "blocks"): ("killed by PropNistCases, which the scratch build leaves out", []),
 ("Sha2", "schedule"): ("equivalent: default of nth that is never used", []),
 ("Trace", "t_server_evaluate_hash_input"): ("equivalent: a hasher is modelled by the bytes fed to it, and at this point these are il", []),
 ("Api", "serde_one"): ("equivalent: reading serde data never panics (C36), so the branch is not reached", []),
 ("Sessions", "oprf_mode"): ("equivalent: renames a binder that base mode does not use", []),
}
run = sys.argv[1]
have = {json.loads(l)["mutant"] for l in open(LOG)}
n = 0
with open(LOG, "a") as f:
    for p in sys.argv[2:]:
        for l in open(p):
            d = json.loads(l)
            if d["outcome"] == "invalid": continue
            name = f"auto_{run}_{d['file']}_{d['i']}_{d['j']}_{len(d['new'])}"
            if name in have: continue
            if d["outcome"] == "SURVIVED":
                if (d["file"], d["definition"]) not in VERDICTS: print("no verdict", d); continue
                v, t = VERDICTS[(d["file"], d["definition"])]
                rec = dict(mutant=name, definition=d["definition"], edit=d["edit"], claim=v, outcome="survived", failed_at=[], theorems_failed=[], tightened=t)
            else:
                rec = dict(mutant=name, definition=d["definition"], edit=d["edit"], claim="(sampled token edit)", outcome="killed",
                           failed_at=d.get("failed_at", []), theorems_failed=[x.split(".")[1] for x in d.get("failed_at", [])], tightened=[])
            f.write(json.dumps(rec) + "\n"); n += 1; have.add(name)
print(n)
