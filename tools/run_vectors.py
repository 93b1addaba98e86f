#!/usr/bin/env python3
"""Runs the model on the RFC 9497 test vectors of /repo/src/tests/cfrg_vectors.rs.

usage: run_vectors.py [ristretto255-SHA512|P256-SHA256|P384-SHA384|P521-SHA512] [OPRF|VOPRF|POPRF] ...
Generates one Coq file per vector in /tmp/vectors, compiles it against the
built model and prints what agreed.  Slow (affine arithmetic): minutes per
vector.  Not part of the build."""
import re, subprocess, sys, os
TXT = open('/repo/src/tests/cfrg_vectors.rs').read()
SUITES = {'P256-SHA256': ('PropNist', 'P256_SHA256'), 'P384-SHA384': ('PropNist384', 'P384_SHA384'),
          'P521-SHA512': ('PropNist521', 'P521_SHA512'), 'ristretto255-SHA512': ('PropRist', 'Ristretto255_SHA512')}
def rnd(v, h):   # ristretto.rs:79-86 reads 64 bytes, little endian, modulo l
    return b(h + '00' * 32 if v['suite'].startswith('rist') else h)

def parse():
    cur = {}; suite = mode = None; out = []; common = {}; key = None
    tgt = None
    for line in TXT.splitlines():
        m = re.match(r'A\.\d\.  (\S+)$', line)
        if m: suite = m.group(1); tgt = None; continue
        m = re.match(r'A\.\d\.\d\.  (\S+) Mode', line)
        if m: mode = m.group(1); common = {}; tgt = common; continue
        m = re.match(r'A\.\d\.\d\.\d\.  Test Vector (\d), Batch Size (\d)', line)
        if m:
            tgt = dict(common); tgt.update(suite=suite, mode=mode, n=int(m.group(1)), size=int(m.group(2))); out.append(tgt); continue
        m = re.match(r'   (\w+) = (\S+)$', line)
        if m: key = m.group(1); tgt[key] = m.group(2); continue
        m = re.match(r'   (\S+)$', line)
        if m and tgt is not None and key: tgt[key] += m.group(1)
    return out

def b(h):
    return '[' + ';'.join('x%s' % h[i:i+2] for i in range(0, len(h), 2)) + ']'
def bl(h): return '[' + ';'.join(b(x) for x in h.split(',')) + ']'

HEAD = '''From Verif Require Import %s.
From Verif Require Import Oprf Voprf Poprf Serialization.
From Coq Require Import List. Import ListNotations.
Open Scope N_scope.
Definition CS := %s 5.
(* successive fills return successive strings *)
Definition VRng : Rng := {| rng_state := list bytes;
  fill_bytes := fun st n => match st with b :: r => (b, r) | [] => (repeat x00 n, []) end |}.
Fixpoint eqb (a b : bytes) : bool := match a, b with
  | [], [] => true | x :: a, y :: b => Byte.eqb x y && eqb a b | _, _ => false end.
Fixpoint eqs (a b : list bytes) : bool := match a, b with
  | [], [] => true | x :: a, y :: b => eqb x y && eqs a b | _, _ => false end.
Definition rb (r : res bytes) : bytes := match r with Ok x => x | _ => [] end.
Definition rbs (r : res (list (res bytes))) : list bytes := match r with Ok x => map rb x | _ => [] end.
Notation "x <-- e ;; k" := (match e with Ok x => k | _ => [false] end) (at level 100, e at next level, right associativity).
'''
def gen(v):
    f, d = SUITES[v['suite']]
    s = HEAD % (f, d if d.startswith('Rist') else d + ' (fun _ => false)')
    m = v['mode'].lower(); pk = ''
    info = ' (Some %s)' % b(v['Info']) if 'Info' in v else ''
    s += 'Definition test : list bool :=\n  server <-- %s_server_new_from_seed CS %s %s ;;\n' % (m, b(v['Seed']), b(v['KeyInfo']))
    inputs = v['Input'].split(','); blinds = v['Blind'].split(',')
    for i, (x, r) in enumerate(zip(inputs, blinds)):
        s += '  r%d <-- fst (%s_client_blind CS VRng %s [%s]) ;;\n' % (i, m, b(x), rnd(v, r))
    N = range(len(inputs))
    L = lambda p: '[' + '; '.join(p % i for i in N) + ']'
    checks = []
    if m == 'oprf':
        part = os.environ.get('PART')     # ristretto: A, B or C keeps a run under the 75 minutes a prover may take
        if part == 'C':
            s = s[:s.index('  r0 <--')] + '  '
            return s + '[eqb (rb (oprf_server_evaluate CS server %s)) %s].\nTime Eval vm_compute in test.\n' % (b(inputs[0]), b(v['Output']))
        if part == 'B':
            s += '  e <-- evaluation_deserialize CS %s ;;\n' % b(v['EvaluationElement'])
            return s + '  [eqb (rb (oprf_client_finalize CS (oprf_state r0) %s e)) %s].\nTime Eval vm_compute in test.\n' % (b(inputs[0]), b(v['Output']))
        s += '  let e := oprf_server_blind_evaluate CS server (oprf_message r0) in\n'
        checks.append('eqb (oprf_server_serialize CS server) %s' % b(v['skSm']))
        checks.append('eqb (evaluation_serialize CS e) %s' % b(v['EvaluationElement']))
        if part != 'A': checks.append('eqb (rb (oprf_client_finalize CS (oprf_state r0) %s e)) %s' % (b(inputs[0]), b(v['Output'])))
        if part != 'A': checks.append('eqb (rb (oprf_server_evaluate CS server %s)) %s' % (b(inputs[0]), b(v['Output'])))
    else:
        M = m
        checks.append('eqb (%s_server_serialize CS server) (%s ++ %s)' % (m, b(v['skSm']), b(v['pkSm'])))
        if len(inputs) == 1:
            s += '  ev <-- fst (%s_server_blind_evaluate CS server VRng (%s_message r0)%s [%s]) ;;\n' % (m, m, info, rnd(v, v['ProofRandomScalar']))
            s += '  let es := [%s_eval_message ev] in let pr := %s_eval_proof ev in\n' % (m, m)
            checks.append('eqb (rb (%s_client_finalize CS (%s_state r0) %s (hd (%s_eval_message ev) es) pr (%s_pk server)%s)) %s' % (m, m, b(inputs[0]), m, m, info, b(v['Output'])))
        else:
            s += '  ev <-- fst (%s_server_batch_blind_evaluate CS server VRng %s%s [%s]) ;;\n' % (m, L(m + '_message r%d'), info, rnd(v, v['ProofRandomScalar']))
            s += '  let es := %s_batch_messages ev in let pr := %s_batch_proof ev in\n' % (m, m)
            checks.append('eqs (rbs (%s_client_batch_finalize CS %s %s es pr (%s_pk server)%s)) %s' % (m, bl(v['Input']), L(m + '_state r%d'), m, info, bl(v['Output'])))
        checks.append('eqs (map (evaluation_serialize CS) es) %s' % bl(v['EvaluationElement']))
        checks.append('eqb (proof_serialize CS pr) %s' % b(v['Proof']))
        for x, o in zip(inputs, v['Output'].split(',')):
            checks.append('eqb (rb (%s_server_evaluate CS server %s%s)) %s' % (m, b(x), info, b(o)))
    checks.insert(1, 'eqs %s %s' % (L('blinded_serialize CS (%s_message r%%d)' % m), bl(v['BlindedElement'])))
    s += '  [' + ';\n   '.join(checks) + '].\nTime Eval vm_compute in test.\n'
    return s
if __name__ == '__main__':
    os.makedirs('/tmp/vectors', exist_ok=True)
    want = sys.argv[1:]
    for v in parse():
        if v['suite'] not in SUITES or any(w not in (v['suite'], v['mode']) and w in list(SUITES)+['OPRF','VOPRF','POPRF'] for w in want): continue
        name = ('%s_%s_%d' % (v['suite'], v['mode'], v['n'])).replace('-', '_')
        open('/tmp/vectors/%s.v' % name, 'w').write(gen(v))
        p = subprocess.run(['timeout', '14000', 'coqc', '-Q', '/verif/rocq/theories', 'Verif', '%s.v' % name], cwd='/tmp/vectors', capture_output=True, text=True)
        print(name, ' '.join((p.stdout + p.stderr)[-600:].split()), flush=True)
