(** * PropSeedNumbers: what C64 and C65 say of the built-in suites, in numbers.

    A program that hashes up to 2^80 strings with either function tells the
    evaluations of a fresh server from a random function with advantage at
    most 1 in 2^171 (ristretto255), 2^174 (P-256), 2^302 (P-384), 2^440 (P-521); a
    program that gets the keys of fresh servers tells them from keys made with
    an independent hash function with advantage at most 1 in 2^176, 2^176,
    2^304, 2^448. *)
From Verif Require Import NistCurve Nist256 Nist384 Nist521 Ristretto Rist25519
  PropNist PropNist384 PropNist521 PropRist Oprf Voprf Poprf Laws Spec PropCorrectness Reprogram Oracle Guess PropUnpredict PropRom PropRomSuites
  PropZk PropPrf PropDerived PropNumbers PropSeeded.
From Coq Require Import Lia.
Open Scope N_scope.

(** The fractions [a / ta] and [b / tb] differ by at most 1 in 2^bits. *)
Definition within_2_to (bits : N) (a ta b tb : nat) : Prop :=
  N.of_nat a * N.of_nat tb * 2 ^ bits <= N.of_nat b * N.of_nat ta * 2 ^ bits + N.of_nat ta * N.of_nat tb /\
  N.of_nat b * N.of_nat ta * 2 ^ bits <= N.of_nat a * N.of_nat tb * 2 ^ bits + N.of_nat ta * N.of_nat tb.

(** A fresh base-mode server, evaluated, and a random function. *)
Definition fresh_server_random (CS : CipherSuite) (bits : N) : Prop :=
  forall (L : SuiteLaws CS) (scalars : list (scalar CS)), enumerates scalars ->
  forall (Q1 Q2 : nat) (A : caller CS), N.of_nat Q1 <= 2 ^ 80 -> N.of_nat Q2 <= 2 ^ 80 -> caller_hashes Q1 Q2 A ->
  exists needed2 : list point, forall (points2 : list point) (O20 : oracle (scalar CS)), NoDup points2 -> incl needed2 points2 ->
  exists needed1 needed_inputs : list point, forall (points1 inputs : list point) (O10 F0 : oracle (output_digest CS)),
  NoDup points1 -> NoDup inputs -> incl needed1 points1 -> incl needed_inputs inputs ->
  let O1s := oracles (all_digests (output_size (CSHash CS))) points1 O10 in
  let Fs := oracles (all_digests (output_size (CSHash CS))) inputs F0 in
  let O2s := oracles scalars points2 O20 in
  let tapes := PropUniform.strings (N.to_nat (scalar_len (CSGroup CS))) in
  let real := count (fun '(O1, (tape, O2)) => new_server_says A tape O1 O2) (list_prod O1s (list_prod tapes O2s)) in
  let random := count (fun '(O2, (O1, F)) => random_says L A F O1 O2) (list_prod O2s (list_prod O1s Fs)) in
  within_2_to bits real (length O1s * (length tapes * length O2s)) random (length O2s * (length O1s * length Fs)).

Lemma differ_bits e d bits a ta b tb : N.of_nat e * 2 ^ bits <= N.of_nat d -> (0 < d)%nat ->
  differ_at_most e d a ta b tb -> within_2_to bits a ta b tb.
Proof.
  intros He Hd [H1 H2].
  set (P := 2 ^ bits) in *. unfold within_2_to. fold P.
  assert (H1' : N.of_nat d * (N.of_nat a * N.of_nat tb) <= N.of_nat d * (N.of_nat b * N.of_nat ta) + N.of_nat e * (N.of_nat ta * N.of_nat tb)) by lia.
  assert (H2' : N.of_nat d * (N.of_nat b * N.of_nat ta) <= N.of_nat d * (N.of_nat a * N.of_nat tb) + N.of_nat e * (N.of_nat ta * N.of_nat tb)) by lia.
  clear H1 H2. assert (Hd' : 0 < N.of_nat d) by lia. clear Hd. rename Hd' into Hd.
  set (D := N.of_nat d) in *. set (E := N.of_nat e) in *. set (T := N.of_nat ta * N.of_nat tb) in *.
  set (x := N.of_nat a * N.of_nat tb) in *. set (y := N.of_nat b * N.of_nat ta) in *. clearbody D E T x y P. clear a ta b tb e d.
  assert (K : forall u v, D * u <= D * v + E * T -> u * P <= v * P + T).
  { intros u v H. apply (N.mul_le_mono_pos_l _ _ D); auto.
    transitivity ((D * v + E * T) * P). { replace (D * (u * P)) with (D * u * P) by ring. now apply N.mul_le_mono_r. }
    replace (D * (v * P + T)) with (D * v * P + D * T) by ring.
    replace ((D * v + E * T) * P) with (D * v * P + E * P * T) by ring.
    apply N.add_le_mono_l. now apply N.mul_le_mono_r. }
  split; apply K; auto.
Qed.

Lemma bound (q n Q1 Q2 P D : N) : 1 < q -> Q1 <= 2 ^ 80 -> Q2 <= 2 ^ 80 -> q <= D ->
  (2 ^ 80 * P + P) * n + 2 ^ 80 * P * (q - 1) <= n * (q - 1) ->
  (Q2 * (D * (q - 1)) + Q1 * (n * D) + n * (q - 1)) * P <= n * D * (q - 1).
Proof.
  intros Hq HQ1 HQ2 HD H3.
  set (w := q - 1) in *. assert (Hw : w <= D) by lia. set (X := 2 ^ 80) in *. clearbody X w.
  transitivity ((X * (D * w) + X * (n * D) + n * D) * P).
  { apply N.mul_le_mono_r. apply N.add_le_mono; [apply N.add_le_mono; now apply N.mul_le_mono_r|now apply N.mul_le_mono_l]. }
  replace ((X * (D * w) + X * (n * D) + n * D) * P) with (D * ((X * P + P) * n + X * P * w)) by ring.
  replace (n * D * w) with (D * (n * w)) by ring. now apply N.mul_le_mono_l.
Qed.

Lemma fresh_numbers (CS : CipherSuite) (q : Z) (bits ns : N) : rom_ready CS q -> scalar_len (CSGroup CS) = ns -> 1 < Z.to_N q ->
  (2 ^ 80 * 2 ^ bits + 2 ^ bits) * 256 ^ ns + 2 ^ 80 * 2 ^ bits * (Z.to_N q - 1) <= 256 ^ ns * (Z.to_N q - 1) ->
  fresh_server_random CS bits.
Proof.
  intros (_ & (scalars0 & He0 & Hq0) & _) <- H1 H2 L scalars He Q1 Q2 A HQ1 HQ2 HA.
  assert (Hq : N.of_nat (length scalars) = Z.to_N q) by (rewrite (enumerates_length _ _ He He0); lia).
  destruct (C65_new_server CS L scalars He Q1 Q2 A HA) as (needed2 & K2).
  exists needed2. intros points2 O20 Hp2 Hi2. destruct (K2 points2 O20 Hp2 Hi2) as (needed1 & needed_inputs & K).
  exists needed1, needed_inputs. intros points1 inputs O10 F0 Hp1 Hin Hi1 Hii O1s Fs O2s tapes real random.
  specialize (K points1 inputs O10 F0 Hp1 Hin Hi1 Hii). cbv zeta in K. fold O1s Fs O2s tapes in K. fold real random in K.
  destruct K as [Hn K].
  set (n := length tapes) in *. set (qn := length scalars) in *.
  assert (HD : N.of_nat qn <= N.of_nat (qn ^ 256)).
  { rewrite Nat2N.inj_pow. rewrite <- (N.pow_1_r (N.of_nat qn)) at 1. apply N.pow_le_mono_r; lia. }
  assert (Hn0 : 0 < N.of_nat n). { rewrite Hn. apply N.neq_0_lt_0, N.pow_nonzero. discriminate. }
  set (D := (qn ^ 256)%nat) in *. clearbody D.
  refine (differ_bits _ _ bits _ _ _ _ _ _ K).
  - pose proof (bound (N.of_nat qn) (N.of_nat n) (N.of_nat Q1) (N.of_nat Q2) (2 ^ bits) (N.of_nat D)) as B.
    rewrite Hn, Hq in B. specialize (B H1 HQ1 HQ2 ltac:(lia) H2). rewrite <- Hn, <- Hq in B.
    replace (N.of_nat qn - 1) with (N.of_nat (qn - 1)) in B by lia. rewrite !Nat2N.inj_add, !Nat2N.inj_mul. exact B.
  - repeat apply Nat.mul_pos_pos; lia.
Qed.

Theorem C65_builtin_numbers :
  forall pick fuel,
  fresh_server_random (P256_SHA256 pick (S fuel)) 174 /\
  fresh_server_random (P384_SHA384 pick (S fuel)) 302 /\
  fresh_server_random (P521_SHA512 pick (S fuel)) 440 /\
  fresh_server_random (Ristretto255_SHA512 (S fuel)) 171.
Proof.
  intros pick fuel. destruct (C55_builtin_suites pick fuel) as (A & B & C & D).
  split; [|split; [|split]].
  - apply (fresh_numbers _ _ _ 32 A); [reflexivity|now compute|now compute].
  - apply (fresh_numbers _ _ _ 48 B); [reflexivity|now compute|now compute].
  - apply (fresh_numbers _ _ _ 66 C); [reflexivity|now compute|now compute].
  - apply (fresh_numbers _ _ _ 32 D); [reflexivity|now compute|now compute].
Qed.

(** Keys made by [new], of any mode and as many as the program asks for, and
    keys made with an independent hash function (C64). *)
Definition fresh_keys_random (CS : CipherSuite) (bits : N) : Prop :=
  forall (L : SuiteLaws CS) (scalars : list (scalar CS)), enumerates scalars ->
  forall (Q : nat) (A : key_user CS), N.of_nat Q <= 2 ^ 80 -> user_hashes Q A ->
  exists needed needed_inputs : list point, forall (points inputs : list point) (O0 F0 : oracle (scalar CS)),
  NoDup points -> NoDup inputs -> incl needed points -> incl needed_inputs inputs ->
  let Os := oracles scalars points O0 in
  let Fs := oracles scalars inputs F0 in
  let tapes := PropUniform.strings (N.to_nat (scalar_len (CSGroup CS))) in
  let of_new := count (fun '(tape, hash) => new_says A hash tape) (list_prod tapes Os) in
  let independent := count (fun '(hash, other) => independent_new_says A hash other) (list_prod Os Fs) in
  within_2_to bits of_new (length tapes * length Os) independent (length Os * length Fs).

Lemma fresh_keys_numbers (CS : CipherSuite) (bits ns : N) : scalar_len (CSGroup CS) = ns ->
  2 ^ 80 * 2 ^ bits <= 256 ^ ns -> fresh_keys_random CS bits.
Proof.
  intros <- H L scalars He Q A HQ HA.
  destruct (C64_new_servers CS L scalars He Q A HA) as (needed & needed_inputs & K).
  exists needed, needed_inputs. intros points inputs O0 F0 Hp Hi Hip Hii Os Fs tapes of_new independent.
  specialize (K points inputs O0 F0 Hp Hi Hip Hii). cbv zeta in K. fold Os Fs tapes in K. fold of_new independent in K.
  destruct K as [Hn K]. assert (Hn0 : 0 < N.of_nat (length tapes)). { rewrite Hn. apply N.neq_0_lt_0, N.pow_nonzero. discriminate. }
  refine (differ_bits _ _ bits _ _ _ _ _ _ K); [|lia].
  rewrite Hn. etransitivity; [|exact H]. now apply N.mul_le_mono_r.
Qed.

Theorem C64_builtin_numbers :
  forall pick fuel,
  fresh_keys_random (P256_SHA256 pick (S fuel)) 176 /\
  fresh_keys_random (P384_SHA384 pick (S fuel)) 304 /\
  fresh_keys_random (P521_SHA512 pick (S fuel)) 448 /\
  fresh_keys_random (Ristretto255_SHA512 (S fuel)) 176.
Proof.
  intros pick fuel. split; [|split; [|split]].
  - apply (fresh_keys_numbers _ _ 32); [reflexivity|now compute].
  - apply (fresh_keys_numbers _ _ 48); [reflexivity|now compute].
  - apply (fresh_keys_numbers _ _ 66); [reflexivity|now compute].
  - apply (fresh_keys_numbers _ _ 32); [reflexivity|now compute].
Qed.
