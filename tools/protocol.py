#!/usr/bin/env python3
"""Wrong protocols: the code and Spec.v edited alike, so that the theorems that
compare the two still say the same; the security theorems have to notice.

Each edit is made in a scratch copy of the built rocq/; proofs that fail are
admitted there, one after another, and listed, so that a failure near the root
does not hide whether later theorems notice.  (A theorem proved from an
admitted lemma that is now false does not count as a survivor.)
usage: protocol.py name...  (all: no names; -n: do not log)
"""
import json, os, re, shutil, subprocess, sys
ROOT = os.path.dirname(os.path.dirname(os.path.abspath(__file__)))
SCRATCH, BASE = "/tmp/proto", "/tmp/protobase"
TARGETS = ["theories/%s.vo" % t for t in """PropEncoding PropSoundness PropSimulation PropRom PropZk PropPrf PropUnpredict
  PropOneMore PropSolver PropDerived PropCancel PropUnlink PropPrivacy PropOblivious PropSessions PropKeys PropDanger""".split()]

CHAL = ["serialize_elem G b", ]
P = {}
def p(name, edits, edit, claim): P[name] = (edits, edit, claim)

# key derivation
p("derive_without_info", [("Common.v", "[seed; info_len; info; u8_to_be_bytes counter]", "[seed; u8_to_be_bytes counter]"),
   ("Spec.v", "(seed ++ lv info ++ I2OSP counter 1)", "(seed ++ I2OSP counter 1)"),
   ("PropDerived.v", "lv info ++ I2OSP c 1", "I2OSP c 1"), ("PropDerived.v", "lv info' ++ I2OSP c' 1", "I2OSP c' 1"), ("PropDerived.v", "lv info ++ I2OSP (N", "I2OSP (N")],
  "the key info is not hashed", "C16; C64: keys for different infos are independent")
p("derive_without_seed", [("Common.v", "[seed; info_len; info; u8_to_be_bytes counter]", "[info_len; info; u8_to_be_bytes counter]"),
   ("Spec.v", "(seed ++ lv info ++ I2OSP counter 1)", "(lv info ++ I2OSP counter 1)"),
   ("PropDerived.v", "(seed ++ fst p, snd p)", "(fst p, snd p)"), ("PropDerived.v", "(fun c => O (seed ++ lv info", "(fun c => O (lv info"),
   ("PropDerived.v", "assert (Em : seed' ++ lv info' ++ I2OSP c' 1 = seed ++ lv info ++ I2OSP c 1)", "assert (Em : lv info' ++ I2OSP c' 1 = lv info ++ I2OSP c 1)")],
  "the seed is not hashed", "C16; C64: the keys cannot be told from random ones")
p("derive_without_counter", [("Common.v", "[seed; info_len; info; u8_to_be_bytes counter]", "[seed; info_len; info]"),
   ("Spec.v", "(seed ++ lv info ++ I2OSP counter 1)", "(seed ++ lv info)"),
   ("PropDerived.v", "lv info ++ I2OSP c 1", "lv info"), ("PropDerived.v", "lv info' ++ I2OSP c' 1", "lv info'"), ("PropDerived.v", "lv info ++ I2OSP (N.of_nat x) 1", "lv info"), ("PropDerived.v", "lv info ++ I2OSP (N.of_nat y) 1", "lv info")],
  "the counter is not hashed", "C64: the error is as rare as 1 in q^256")
p("derive_one_mode", [("Common.v", "dst <- dst_new STR_DERIVE_KEYPAIR mode ;;", "dst <- dst_new STR_DERIVE_KEYPAIR Oprf ;;"),
   ("Spec.v", '(str "DeriveKeyPair" ++ contextString mode)', '(str "DeriveKeyPair" ++ contextString modeOPRF)'),
   ("CommonFacts.v", "(the_dst STR_DERIVE_KEYPAIR mode) counters", "(the_dst STR_DERIVE_KEYPAIR Oprf) counters"), ("CommonFacts.v", "(concat_dst STR_DERIVE_KEYPAIR mode)", "(concat_dst STR_DERIVE_KEYPAIR Oprf)"),
   ("PropDerived.v", 'str "DeriveKeyPair" ++ contextString (CS := CS) (mode_id mode)', 'str "DeriveKeyPair" ++ contextString (CS := CS) modeOPRF')],
  "keys of all modes derived with the tag of the base mode", "C16; C64: keys for different modes are independent")
# the proof
p("challenge_no_commitments", [("Common.v", "elem_len_bytes; a1;\n   elem_len_bytes; a2; elem_len_bytes; a3; STR_CHALLENGE]", "elem_len_bytes; a1; STR_CHALLENGE]"),
   ("Spec.v", "++ lv (Ser Z) ++ lv (Ser t2) ++ lv (Ser t3)\n            ++", "++ lv (Ser Z) ++")],
  "t2 and t3 are not hashed", "C12, C52, C53: anybody can prove anything")
p("challenge_no_t3", [("Common.v", "elem_len_bytes; a2; elem_len_bytes; a3; STR_CHALLENGE]", "elem_len_bytes; a2; STR_CHALLENGE]"),
   ("Spec.v", "++ lv (Ser t2) ++ lv (Ser t3)\n            ++", "++ lv (Ser t2) ++")],
  "t3 is not hashed", "C12, C52, C53: a wrong Z passes")
p("challenge_no_z", [("Common.v", "elem_len_bytes; a0; elem_len_bytes; a1;\n", "elem_len_bytes; a0;\n"),
   ("Spec.v", "++ lv (Ser M) ++ lv (Ser Z) ++", "++ lv (Ser M) ++")],
  "Z is not hashed", "C52: Z can be chosen after the challenge")
p("composite_no_d", [("Common.v", "elem_len_bytes; ci; elem_len_bytes; di; STR_COMPOSITE]", "elem_len_bytes; ci; STR_COMPOSITE]"),
   ("Spec.v", '++ lv (Ser Ci) ++ lv (Ser Di) ++ str "Composite")', '++ lv (Ser Ci) ++ str "Composite")')],
  "the weights do not depend on the replies", "C53: errors that cancel can be computed from the weights")
p("composite_no_index", [("Common.v", "[i2osp_2_array seed; seed; u16_to_be_bytes i;\n", "[i2osp_2_array seed; seed;\n"),
   ("Spec.v", "(lv seed ++ I2OSP (N.of_nat i) 2 ++ lv (Ser Ci)", "(lv seed ++ lv (Ser Ci)")],
  "the index is not hashed into the weight", "C53: equal pairs get equal weights")
p("composite_unweighted", [("Common.v", "let m' := elem_add G (elem_mul G c w) m in", "let m' := elem_add G c m in"),
   ("Common.v", "| None => elem_add G (elem_mul G d w) z", "| None => elem_add G d z"),
   ("Spec.v", "w [*] P [+] lincomb ws Ps", "P [+] lincomb ws Ps")],
  "the items are added without weights", "C12, C53: replies that are swapped or have errors that cancel pass")
# outputs
p("finalize_no_input", [("Spec.v", 'Hash (lv input ++ lv (Ser N0) ++ str "Finalize")', 'Hash (lv (Ser N0) ++ str "Finalize")'), ],
  "the input is not hashed (Spec.v only)", "C18; C54")
p("context_no_mode", [("Common.v", 'let par_2 := STR_OPRF ++ [mode_to_u8 mode] ++ bstr "-" in', 'let par_2 := STR_OPRF ++ bstr "-" in'),
   ("Spec.v", 'str "OPRFV1-" ++ I2OSP mode 1 ++ str "-" ++ ID CS', 'str "OPRFV1-" ++ str "-" ++ ID CS')],
  "the context string does not name the mode", "C17; C64: keys for different modes are independent")
p("tweak_no_info", [("Spec.v", 'H2S modePOPRF (str "Info" ++ lv info)', 'H2S modePOPRF (str "Info")')],
  "the tweak does not depend on the info (Spec.v only)", "C20: the tweak is that of the info")

def main():
    names = [a for a in sys.argv[1:] if a != "-n"] or list(P)
    log = "-n" not in sys.argv
    if not os.path.exists(BASE): shutil.copytree(os.path.join(ROOT, "rocq"), BASE)
    for name in names:
        edits, edit, claim = P[name]
        if os.path.exists(SCRATCH): shutil.rmtree(SCRATCH)
        shutil.copytree(BASE, SCRATCH)
        for f, o, n in edits:
            path = os.path.join(SCRATCH, "theories", f); s = open(path).read()
            if o not in s: raise SystemExit(f"{name}: {f}: not found: {o}")
            open(path, "w").write(s.replace(o, n))
        failed, note = [], ""
        while True:
            r = subprocess.run(["make", "-k", "-j3", "TIMECMD=timeout 900"] + TARGETS, cwd=SCRATCH, capture_output=True, text=True)
            if r.returncode == 0: break
            txt = r.stdout + r.stderr
            errs = [e for e in re.findall(r'File "\./theories/(\w+\.v)", line (\d+), characters[^\n]*\n((?:(?!File|make).*\n){1,8})', txt) if "Error" in e[2]]
            if not errs: note = "stopped: " + txt[-300:]; break
            for f, n, msg in errs:
                path = os.path.join(SCRATCH, "theories", f); L = open(path).read().split("\n"); n = int(n)
                i = min(n - 1, len(L) - 1)
                while i >= 0 and not re.match(r".*\bProof\b", L[i]): i -= 1
                k = i
                while k >= 0 and not re.match(r"\s*(Theorem|Lemma|Corollary|Example|Definition|Instance|Fact)\b", L[k]): k -= 1
                j = i
                while j < len(L) and not re.search(r"\b(Qed|Defined|Admitted)\.", L[j]): j += 1
                if n - 1 > j or k < 0: note = f"stopped at {f}:{n}: {msg.strip()[:200]}"; break
                th = re.match(r"\s*\w+\s+(\w+)", L[k]).group(1)
                failed.append(f[:-2] + "." + th); print("FAIL", name, f, n, th, msg.strip()[:140].replace("\n", " "), flush=True)
                L[i:j + 1] = [L[i][:L[i].index("Proof")] + "Proof. Admitted."]
                open(path, "w").write("\n".join(L))
            if note: break
        print("DONE", name, failed, note, flush=True)
        if log:
            with open(os.path.join(ROOT, "seeded", "LOG.jsonl"), "a") as out:
                out.write(json.dumps({"mutant": "protocol_" + name, "definition": "; ".join(sorted({f for f, _, _ in edits})),
                  "edit": edit + " (code and specification alike)", "claim": claim, "outcome": "killed" if any(re.search(r"\.C\d\d_", x) for x in failed) else "see note",
                  "failed_at": failed, "theorems_tightened": [], "note": (note + " Proofs that failed were admitted in the scratch copy to see what later ones notice.").strip()}) + "\n")
main()
