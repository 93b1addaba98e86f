(** * PropZkNumbers: what C55 says of the built-in suites, in numbers.

    For clients that hash up to 2^80 strings and get up to 2^40 proofs, the
    proofs a server gives and proofs made up without its key give the same
    impression up to 1 in 2^131 (ristretto255), 2^135 (P-256), 2^263 (P-384),
    2^400 (P-521). *)
From Verif Require Import NistCurve Nist256 Nist384 Nist521 Ristretto Rist25519
  PropNist PropNist384 PropNist521 PropRist Oprf Voprf Poprf Laws Spec PropCorrectness Reprogram Oracle Guess PropUnpredict PropRom PropRomSuites
  ZkFacts PropZk PropNumbers PropSeedNumbers.
From Coq Require Import Lia.
Open Scope N_scope.

Definition proofs_made_up (CS : CipherSuite) (bits : N) : Prop :=
  forall (L : SuiteLaws CS) (scalars : list (scalar CS)), enumerates scalars ->
  forall (R : Rng) (draw : list (scalar CS) -> rng_state R), yields (CSGroup CS) R draw ->
  forall (k : scalar CS) (Q n : nat), N.of_nat Q <= 2 ^ 80 -> N.of_nat n <= 2 ^ 40 ->
  let G := CSGroup CS in let pk := elem_mul G (base_elem G) k in
  let q := length scalars in let q1 := length (nonces scalars) in
  (forall D : distinguisher (scalar CS) (voprf_call CS) (reply CS), spends voprf_proofs voprf_hashed Q n D ->
   exists needed, forall points O, NoDup points -> incl needed points ->
   let all := oracles scalars points O in
   let real := sum (fun O => count (fun rs => says O (voprf_answers k R O) D (draw rs)) (sequences n (nonces scalars))) all in
   let simulated := sum (fun O =>
     voprf_simulated L scalars pk (fun P => elem_mul G P k) (voprf_server_evaluate CS (mkVoprfServer k pk)) n O D) all in
   within_2_to bits real (length all * q1 ^ n) simulated (length all * (q1 * q) ^ n)) /\
  (forall D : distinguisher (scalar CS) (poprf_call CS) (reply CS), spends poprf_proofs poprf_hashed Q n D ->
   exists needed, forall points O, NoDup points -> incl needed points ->
   let all := oracles scalars points O in
   let real := sum (fun O => count (fun rs => says O (poprf_answers k R O) D (draw rs)) (sequences n (nonces scalars))) all in
   let simulated := sum (fun O =>
     poprf_simulated L scalars pk
       (fun m P => elem_mul G P (s_inv (group_laws L) (scalar_add G k m)))
       (fun m input info => let CS' := with_oracle CS (fun _ _ => m) in
          poprf_server_evaluate CS' (mkPoprfServer (CS := CS') k pk) input info) n O D) all in
   within_2_to bits real (length all * q1 ^ n) simulated (length all * (q1 * q) ^ n)).

Lemma proofs_numbers (CS : CipherSuite) (q : Z) (bits : N) : rom_ready CS q -> 1 < Z.to_N q ->
  2 ^ 40 * (2 ^ 80 + 2 ^ 40) * 2 ^ bits <= Z.to_N q - 1 -> proofs_made_up CS bits.
Proof.
  intros (_ & (scalars0 & He0 & Hq0) & _) H1 H2 L scalars He R draw Hy k Q n HQ Hn G pk q' q1.
  assert (Hq : N.of_nat q' = Z.to_N q) by (unfold q'; rewrite (enumerates_length _ _ He He0); lia).
  assert (Eq : (q1 + 1 = q')%nat) by exact (proj2 (C55_choices CS L scalars He)).
  assert (Hb : N.of_nat (n * (Q + n)) * 2 ^ bits <= N.of_nat q1).
  { transitivity (2 ^ 40 * (2 ^ 80 + 2 ^ 40) * 2 ^ bits); [|lia]. apply N.mul_le_mono_r.
    rewrite Nat2N.inj_mul, Nat2N.inj_add. apply N.mul_le_mono; [exact Hn|]. apply N.add_le_mono; assumption. }
  assert (H0 : (0 < q1)%nat) by lia.
  split.
  - intros D HD. destruct (C55_voprf_zero_knowledge CS L scalars He R draw Hy k Q n D HD) as [needed K].
    exists needed. intros points O Hp Hi all real simulated. specialize (K points O Hp Hi). cbv zeta in K.
    exact (differ_bits _ _ bits _ _ _ _ Hb H0 K).
  - intros D HD. destruct (C55_poprf_zero_knowledge CS L scalars He R draw Hy k Q n D HD) as [needed K].
    exists needed. intros points O Hp Hi all real simulated. specialize (K points O Hp Hi). cbv zeta in K.
    exact (differ_bits _ _ bits _ _ _ _ Hb H0 K).
Qed.

Theorem C55_builtin_numbers :
  forall pick fuel,
  proofs_made_up (P256_SHA256 pick (S fuel)) 135 /\
  proofs_made_up (P384_SHA384 pick (S fuel)) 263 /\
  proofs_made_up (P521_SHA512 pick (S fuel)) 400 /\
  proofs_made_up (Ristretto255_SHA512 (S fuel)) 131.
Proof.
  intros pick fuel. destruct (C55_builtin_suites pick fuel) as (A & B & C & D).
  split; [|split; [|split]].
  - apply (proofs_numbers _ _ _ A); now compute.
  - apply (proofs_numbers _ _ _ B); now compute.
  - apply (proofs_numbers _ _ _ C); now compute.
  - apply (proofs_numbers _ _ _ D); now compute.
Qed.
