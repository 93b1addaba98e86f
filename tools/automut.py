#!/usr/bin/env python3
"""Systematic mutation of the model: token-level edits of every definition.

usage: automut.py gen N SEED > list.json      sample N mutants
       automut.py run list.json WORKER NWORKERS OUT.jsonl
Only edits that still typecheck are counted.  P-384/P-521 files are left out of the
scratch builds (they are the same theorems with other constants)."""
import json, os, random, re, shutil, subprocess, sys
ROOT = os.path.dirname(os.path.dirname(os.path.abspath(__file__)))
FILES = "Base Common Oprf Voprf Poprf Serialization Serde Drop Danger Ristretto EllipticCurve Xmd NistCurve Sha2 Api Sessions Iters".split()
SKIP = ["Nist384", "Nist521", "PropNist384", "PropNist521", "PropNistCases", "PropNistCases384", "PropNistCases521",
        "Cert384", "Cert521", "Pow384", "Pow521", "Chain384", "Chain521", "Root384", "CubicPoly"]
IDENT = re.compile(r"[A-Za-z_][A-Za-z0-9_']*")
KW = set("match with end let in fun if then else as return fix forall exists struct at Some None Ok Err true false map combine fst snd".split())

def blank(s):
    """replace comments by spaces"""
    out = list(s); d = 0; i = 0
    while i < len(s):
        if s.startswith("(*", i): d += 1; out[i] = out[i+1] = " "; i += 2; continue
        if s.startswith("*)", i) and d: d -= 1; out[i] = out[i+1] = " "; i += 2; continue
        if d and s[i] != "\n": out[i] = " "
        i += 1
    return "".join(out)

def definitions(s):
    b = blank(s)
    for m in re.finditer(r"^(Definition|Fixpoint|Program Definition)\s+(\w+)", b, re.M):
        e = re.compile(r"\.(?=\s*\n)").search(b, m.end())
        body = b.find(":=", m.end())
        if e and 0 < body < e.start(): yield m.group(2), m.start(), body + 2, e.start(), b

def locals_of(txt):
    v = set()
    for m in re.finditer(r"\(([\w' ]+) :", txt): v |= set(m.group(1).split())
    for m in re.finditer(r"\blet ([\w']+)", txt): v.add(m.group(1))
    for m in re.finditer(r"([\w']+) <[-~]", txt): v.add(m.group(1))
    for m in re.finditer(r"'\(([\w', ()]+)\)", txt): v |= set(IDENT.findall(m.group(1)))
    for m in re.finditer(r"\bfun ([\w' ]+) =>", txt): v |= set(m.group(1).split())
    for m in re.finditer(r"\|\s*\w+((?: [\w']+)+) =>", txt): v |= set(m.group(1).split())
    return {x for x in v if x not in KW and x not in ("CS", "R", "G", "H", "Type", "_")}

def mutants(file):
    s = open(f"{ROOT}/rocq/theories/{file}.v").read()
    for name, st, bs, en, b in definitions(s):
        body = b[bs:en]; vs = sorted(locals_of(b[st:en])); out = []
        def add(i, j, new, what): out.append((bs + i, bs + j, new, what))
        for pat, news in [(r"<\?", ["<=?"]), (r"<=\?", ["<?"]), (r"(?<![<])=\?", ["<=?", "<?"]), (r"\bnegb\b", ["(fun b : bool => b)"]),
                          (r"&&", ["||"]), (r"\|\|", ["&&"]), (r"\bfirstn\b", ["skipn"]), (r"\bskipn\b", ["firstn"]),
                          (r"\bOprf\b", ["Voprf"]), (r"\bVoprf\b", ["Poprf", "Oprf"]), (r"\bPoprf\b", ["Voprf"]),
                          (r"\bPanic\b", ["(Err EProtocol)"]), (r"\btrue\b", ["false"]), (r"\bfalse\b", ["true"]),
                          (r"\bscalar_add\b", ["scalar_sub", "scalar_mul"]), (r"\bscalar_sub\b", ["scalar_add"]),
                          (r"\bscalar_mul\b", ["scalar_add"]), (r"\bbase_elem G\b", ["identity_elem G"]), (r"\bidentity_elem G\b", ["base_elem G"]),
                          (r"\bunwrap\b", ["(fun x => map_err x EProtocol)"]), (r"\bfilter\b", ["(fun _ l => l)"]),
                          (r"\bSTR_\w+", ["STR_INFO", "STR_SEED"]), (r" \+ ", [" - "]), (r" - ", [" + "]),
                          (r"\bfmul\b", ["fadd"]), (r"\bfadd\b", ["fsub", "fmul"]), (r"\bfsub\b", ["fadd"]), (r"\brotr\b", ["shr"]), (r"\bN.lxor\b", ["N.lor", "N.land"]),
                          (r"\bpblind_sk\b", ["x"]), (r"_pk\b", ["_sk"]), (r"\bx0([0-9])\b", ["x1f"])]:
            for m in re.finditer(pat, body):
                for n in news:
                    if n != m.group(0): add(m.start(), m.end(), n, f"{m.group(0).strip()} -> {n.strip()}")
        for m in re.finditer(r"\bE(Info|Input|Batch|DeriveKeyPair|Protocol|ProofVerification|Deserialization)\b", body):
            n = "EInput" if m.group(0) != "EInput" else "EBatch"
            add(m.start(), m.end(), n, f"{m.group(0)} -> {n}")
        for m in re.finditer(r"(?<![\w.%])(\d+)(?![\w.])", body):
            k = int(m.group(1)); add(m.start(), m.end(), str(k + 1), f"{k} -> {k+1}")
            if k > 0: add(m.start(), m.end(), str(k - 1), f"{k} -> {k-1}")
        for m in re.finditer(r"\bif ([^\n]*?) then", body):
            for n in ("true", "false"): add(m.start(), m.end(), f"if {n} then", f"condition {m.group(1)} -> {n}")
        for m in re.finditer(r"_ <[-~] [^;]*;;", body): add(m.start(), m.end(), "", "drop " + m.group(0))
        for m in re.finditer(r"\[([^\[\]]*;[^\[\]]*)\]", body):
            items = m.group(1).split(";")
            if any(c in m.group(1) for c in "()") and m.group(1).count("(") != m.group(1).count(")"): continue
            for k in range(len(items)):
                r = items[:k] + items[k+1:]
                add(m.start(1), m.end(1), ";".join(r), f"drop list item {k}: {items[k].strip()}")
                if k + 1 < len(items):
                    r = items[:]; r[k], r[k+1] = r[k+1], r[k]
                    if items[k].strip() != items[k+1].strip(): add(m.start(1), m.end(1), ";".join(r), f"swap list items {k},{k+1}")
        ids = [m for m in IDENT.finditer(body) if m.group(0) in vs]
        for m in ids:
            before = body[max(0, m.start()-5):m.start()]
            after = body[m.end():m.end()+4]
            if before.endswith("let ") or after.strip().startswith(("<-", "<~", ":=", ":")) or after.strip().startswith("=>"): continue
            for v in vs:
                if v != m.group(0): add(m.start(), m.end(), v, f"{m.group(0)} -> {v}")
        for m in re.finditer(r"(?<![\w'])(\w+) (\w+)(?![\w'])", body):
            if m.group(1) in vs and m.group(2) in vs: add(m.start(), m.end(), m.group(2) + " " + m.group(1), f"swap {m.group(0)}")
        for i, j, new, what in out:
            yield dict(file=file, definition=name, i=i, j=j, new=new, edit=what)

def gen(n, seed):
    rnd = random.Random(seed); by = {}
    for f in FILES:
        for m in mutants(f): by.setdefault((f, m["definition"]), []).append(m)
    res = []
    for k in by: rnd.shuffle(by[k])
    keys = sorted(by)
    print({f: sum(len(v) for (g, _), v in by.items() if g == f) for f in FILES}, file=sys.stderr)
    while len(res) < n and keys:
        rnd.shuffle(keys)
        for k in list(keys):
            if by[k]: res.append(by[k].pop())
            else: keys.remove(k)
    json.dump(res[:n] if n < len(res) else res, sys.stdout)

def run(lst, w, nw, outp):
    base = "/tmp/am/base"; sc = f"/tmp/am/s{w}"
    done = set()
    if os.path.exists(outp):
        for l in open(outp): d = json.loads(l); done.add((d["file"], d["i"], d["j"], d["new"]))
    for k, m in enumerate(json.load(open(lst))):
        if k % nw != w or (m["file"], m["i"], m["j"], m["new"]) in done: continue
        shutil.rmtree(sc, ignore_errors=True); shutil.copytree(base, sc)
        p = f"{sc}/theories/{m['file']}.v"; s = open(p).read()
        open(p, "w").write(s[:m["i"]] + m["new"] + s[m["j"]:])
        r = subprocess.run(["timeout", "120", "coqc", "-q", "-Q", "theories", "Verif", f"theories/{m['file']}.v"], cwd=sc, capture_output=True, text=True)
        rec = dict(m)
        if r.returncode: rec["outcome"] = "invalid"
        else:
            r = subprocess.run(["make", "-j2", "TIMECMD=timeout 240"], cwd=sc, capture_output=True, text=True)
            txt = r.stdout + r.stderr
            rec["outcome"] = "killed" if r.returncode else "SURVIVED"
            fm = re.findall(r'File "\./theories/(\w+\.v)", line (\d+)', txt)
            sys.path.insert(0, ROOT + "/tools")
            from mutate import theorem_at
            if r.returncode: rec["failed_at"] = [f[:-2] + "." + theorem_at(f"{sc}/theories/{f}", int(l)) for f, l in fm[:3]]
            line = s.count("\n", 0, m["i"]) ; rec["line"] = line + 1
            if not r.returncode: rec["context"] = s.split("\n")[line]
        with open(outp, "a") as f: f.write(json.dumps(rec) + "\n")
        if rec["outcome"] == "SURVIVED": print(json.dumps(rec), flush=True)

if __name__ == "__main__":
    if sys.argv[1] == "gen": gen(int(sys.argv[2]), int(sys.argv[3]))
    else: run(sys.argv[2], int(sys.argv[3]), int(sys.argv[4]), sys.argv[5])
