(** * PropNumbers: what C52 and C53 say of the built-in suites, in numbers.

    For servers that hash up to 2^80 strings.  A client that finalizes one
    item is fooled by at most one in 2^171 (ristretto255), 2^175 (P-256),
    2^303 (P-384), 2^440 (P-521) of the hash functions; a client that finalizes
    a batch of two by one in 2^91, 2^95, 2^223, 2^360. *)
From Verif Require Import NistCurve Nist256 Nist384 Nist521 Ristretto Rist25519
  PropNist PropNist384 PropNist521 PropRist Oprf Voprf Poprf Laws Spec PropCorrectness Reprogram Oracle PropRom PropRomSuites.
From Coq Require Import Permutation Lia.
Open Scope N_scope.

(** At most one in 2^bits of the functions, on any finite set of strings that
    contains the [needed] ones. *)
Definition one_in_2_to {S} (bits : N) (scalars : list S) (wins : oracle S -> bool) : Prop :=
  exists needed : list point, forall (points : list point) (O : oracle S),
  NoDup points -> incl needed points ->
  let all := oracles scalars points O in
  N.of_nat (count wins all) * 2 ^ bits <= N.of_nat (length all).

(** One item, in the modes with proofs. *)
Definition single_forgery (CS : CipherSuite) (bits : N) : Prop :=
  forall (L : SuiteLaws CS) (scalars : list (scalar CS)), enumerates scalars ->
  forall (R : Rng) (st st' : rng_state R) (input : bytes) (message : BlindedElement CS),
  (forall client, voprf_client_blind CS R input st = (Ok (mkVoprfClientBlindResult client message), st') ->
     forall Q server, N.of_nat Q <= 2 ^ 80 -> at_most Q server ->
     one_in_2_to bits scalars (voprf_forges L client input server)) /\
  (forall client, poprf_client_blind CS R input st = (Ok (mkPoprfClientBlindResult client message), st') ->
     forall Q server, N.of_nat Q <= 2 ^ 80 -> at_most Q server ->
     one_in_2_to bits scalars (poprf_forges L client input server)).

(** A batch of two. *)
Definition double_forgery (CS : CipherSuite) (bits : N) : Prop :=
  forall (L : SuiteLaws CS) (scalars : list (scalar CS)), enumerates scalars ->
  forall (k : scalar CS) (input1 input2 : bytes),
  (forall sessions, Forall2 (voprf_blinded CS) [input1; input2] sessions ->
     forall Q server, N.of_nat Q <= 2 ^ 80 -> at_most Q server ->
     one_in_2_to bits scalars (voprf_batch_forges L k (map voprf_state sessions) [input1; input2] server)) /\
  (elem_len (CSGroup CS) < 256 ->
   forall info sessions, Forall2 (poprf_blinded CS) [input1; input2] sessions ->
     forall Q server, N.of_nat Q <= 2 ^ 80 -> at_most Q server ->
     one_in_2_to bits scalars (poprf_batch_forges L k info (map poprf_state sessions) [input1; input2] server)).

Lemma enumerates_length {T} (l l' : list T) : enumerates l -> enumerates l' -> length l = length l'.
Proof.
  intros [H1 H2] [H1' H2']. apply Permutation_length, NoDup_Permutation; auto. intros x. split; auto.
Qed.

Lemma chance_bits {S} (scalars : list S) num bits wins (q : N) : N.of_nat (length scalars) = q ->
  N.of_nat num * 2 ^ bits <= q -> 0 < q ->
  chance_at_most scalars num wins -> one_in_2_to bits scalars wins.
Proof.
  intros Hq Hb H0 [needed H]. exists needed. intros points O Hp Hi all. specialize (H points O Hp Hi). cbv zeta in H. fold all in H.
  assert (H' : N.of_nat (count wins all) * q <= N.of_nat num * N.of_nat (length all)) by (rewrite <- Hq; lia).
  set (c := N.of_nat (count wins all)) in *. set (a := N.of_nat (length all)) in *. set (n := N.of_nat num) in *.
  destruct (N.eq_dec n 0) as [Hn|Hn].
  - rewrite Hn in H'. assert (c = 0) by nia. nia.
  - apply (N.mul_le_mono_pos_r _ _ n); [lia|].
    transitivity (c * (n * 2 ^ bits)); [lia|]. transitivity (c * q); [now apply N.mul_le_mono_l|]. lia.
Qed.

Lemma numbers (CS : CipherSuite) (q : Z) (b1 b2 : N) : rom_ready CS q ->
  (2 ^ 80 + 3) * 2 ^ b1 <= Z.to_N q -> (2 ^ 80 + 3) ^ 2 * 2 ^ b2 <= Z.to_N q -> 0 < Z.to_N q ->
  single_forgery CS b1 /\ double_forgery CS b2.
Proof.
  intros (_ & (scalars0 & He0 & Hq0) & _) H1 H2 H0.
  assert (Hq : forall scalars : list (scalar CS), enumerates scalars -> N.of_nat (length scalars) = Z.to_N q).
  { intros scalars He. rewrite (enumerates_length _ _ He He0). lia. }
  split.
  - intros L scalars He R st st' input message. split.
    + intros client Hb Q server HQ Hs. eapply chance_bits; [exact (Hq _ He)| |exact H0|exact (C52_voprf_forgery CS L scalars He R st st' input client message Hb Q server Hs)].
      etransitivity; [|exact H1]. apply N.mul_le_mono_r. lia.
    + intros client Hb Q server HQ Hs. eapply chance_bits; [exact (Hq _ He)| |exact H0|exact (C52_poprf_forgery CS L scalars He R st st' input client message Hb Q server Hs)].
      etransitivity; [|exact H1]. apply N.mul_le_mono_r. lia.
  - intros L scalars He k input1 input2.
    assert (En : forall Q, N.of_nat Q <= 2 ^ 80 -> N.of_nat ((Q + length [input1; input2] + 1) ^ length [input1; input2]) * 2 ^ b2 <= Z.to_N q).
    { intros Q HQ. etransitivity; [|exact H2]. apply N.mul_le_mono_r. rewrite Nat2N.inj_pow. apply N.pow_le_mono_l. cbn [length]. lia. }
    split.
    + intros sessions Hs Q server HQ Hat. eapply chance_bits; [exact (Hq _ He)|exact (En Q HQ)|exact H0|exact (C53_voprf_batch_forgery CS L scalars He k _ sessions Hs Q server Hat)].
    + intros Hl info sessions Hs Q server HQ Hat. eapply chance_bits; [exact (Hq _ He)|exact (En Q HQ)|exact H0|exact (C53_poprf_batch_forgery CS L scalars He Hl k info _ sessions Hs Q server Hat)].
Qed.

Theorem C53_builtin_numbers :
  forall pick fuel,
  (single_forgery (P256_SHA256 pick (S fuel)) 175 /\ double_forgery (P256_SHA256 pick (S fuel)) 95) /\
  (single_forgery (P384_SHA384 pick (S fuel)) 303 /\ double_forgery (P384_SHA384 pick (S fuel)) 223) /\
  (single_forgery (P521_SHA512 pick (S fuel)) 440 /\ double_forgery (P521_SHA512 pick (S fuel)) 360) /\
  (single_forgery (Ristretto255_SHA512 (S fuel)) 171 /\ double_forgery (Ristretto255_SHA512 (S fuel)) 91).
Proof.
  intros pick fuel. destruct (C55_builtin_suites pick fuel) as (A & B & C & D).
  split; [|split; [|split]].
  - apply (numbers _ _ _ _ A); [now compute|now compute|now compute].
  - apply (numbers _ _ _ _ B); [now compute|now compute|now compute].
  - apply (numbers _ _ _ _ C); [now compute|now compute|now compute].
  - apply (numbers _ _ _ _ D); [now compute|now compute|now compute].
Qed.
