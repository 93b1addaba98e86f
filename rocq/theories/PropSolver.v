(** * C63, verifiable modes: the solver without the key.

    [PropOneMore] finds the evaluated elements in the strings a client of the
    verifiable modes hashes.  Here the client is taken away from the server:
    the proofs are made up, and all that is left of the key is the
    multiplication of the elements that the client has evaluated.  Both hash
    functions are random: [O1] is the output hash, [O2] the hash to scalar. *)
From Verif Require Import Laws Spec GroupFacts CommonFacts OprfFacts VoprfFacts PoprfFacts PropCorrectness Oracle RomFacts ZkFacts Guess
  PropUnpredict PropRom PropZk PropOneMore Zq.
From Coq Require Import Lia.
Open Scope N_scope.

(** A client: it hashes, hashes to scalars, has batches evaluated, and names
    outputs in the end. *)
Inductive voprf_client (CS : CipherSuite) : Type :=
| CHash (message : bytes) (next : bytes -> voprf_client CS)
| CScalar (message tag : bytes) (next : scalar CS -> voprf_client CS)
| CEvaluate (blinded : list (elem CS)) (next : reply_of (elem CS) (scalar CS) -> voprf_client CS)
| CName (outputs : list (bytes * bytes)).
Arguments CHash {CS} _ _.
Arguments CScalar {CS} _ _ _.
Arguments CEvaluate {CS} _ _.
Arguments CName {CS} _.

(** It names at most [n] outputs, has at most [proofs] batches evaluated, and
    sends and hashes to scalars at most [a] elements and strings. *)
Fixpoint client_names {CS} (n : nat) (A : voprf_client CS) : Prop :=
  match A with
  | CHash _ next => forall d, client_names n (next d)
  | CScalar _ _ next => forall x, client_names n (next x)
  | CEvaluate _ next => forall r, client_names n (next r)
  | CName outputs => (length outputs <= n)%nat
  end.
Fixpoint client_spends {CS} (a proofs : nat) (A : voprf_client CS) : Prop :=
  match A with
  | CHash _ next => forall d, client_spends a proofs (next d)
  | CScalar _ _ next => (1 <= a)%nat /\ forall x, client_spends (a - 1) proofs (next x)
  | CEvaluate es next => (length es <= a)%nat /\ (1 <= proofs)%nat /\ forall r, client_spends (a - length es) (proofs - 1) (next r)
  | CName _ => True
  end.

(** The client, when the hash to scalar is [O2]: an attacker of [PropUnpredict]. *)
Fixpoint against {CS} (O2 : oracle (scalar CS)) (A : voprf_client CS) :
    attack (voprf_call (with_oracle CS O2)) (reply_of (elem CS) (scalar CS)) (list (bytes * bytes)) :=
  match A with
  | CHash m next => Hash m (fun d => against O2 (next d))
  | CScalar m t next => against O2 (next (O2 m t))
  | CEvaluate es next => Query (VBatch (CS := with_oracle CS O2) es) (fun r => against O2 (next r))
  | CName outputs => Name outputs
  end.

(** The client, when the output hash is [hash]: what it sends and hashes to
    scalars is left to another; what is found in the strings it hashes is
    kept.  In the end [enough] decides on that and the number of elements it
    sent. *)
Fixpoint keeping {CS} (O1 : oracle (output_digest CS)) (enough : list (bytes * elem CS) -> nat -> bool) (A : voprf_client CS)
    (found : list (bytes * elem CS)) (sent : nat) : distinguisher (scalar CS) (voprf_call (with_digest CS O1)) (reply_of (elem CS) (scalar CS)) :=
  match A with
  | CHash m next => keeping O1 enough (next (value (O1 m []))) (found ++ candidate m) sent
  | CScalar m t next => DHash m t (fun x => keeping O1 enough (next x) found sent)
  | CEvaluate es next => DCall (VBatch (CS := with_digest CS O1) es) (fun r => keeping O1 enough (next r) found (sent + length es))
  | CName _ => DSay (enough found sent)
  end.

(** Enough: the evaluated elements of more inputs than elements sent. *)
Definition enough_found {CS} (L : SuiteLaws CS) (k : scalar CS) (found : list (bytes * elem CS)) (sent : nat) : bool :=
  Nat.ltb sent (distinct (map fst (filter (fun '(input, e) =>
    elem_ct_eq (CSGroup CS) e (elem_mul (CSGroup CS) (H2G L modeVOPRF input) k)) found))).

(** In how many of its runs (one for each choice of [proofs] pairs) the solver
    finds enough.  It gets the public key, multiplication by the key, and
    nothing else. *)
Definition solver_runs {CS} (L : SuiteLaws CS) (scalars : list (scalar CS)) (pk : elem CS) (times_key : elem CS -> elem CS)
    (enough : list (bytes * elem CS) -> nat -> bool) (proofs : nat) (A : voprf_client CS)
    (O1 : oracle (output_digest CS)) (O2 : oracle (scalar CS)) : nat :=
  voprf_simulated (digest_laws L O1) scalars pk times_key (fun _ => Err EInput) proofs O2 (keeping O1 enough A [] 0).

Section Proofs.
Context {CS : CipherSuite} (L : SuiteLaws CS) (k : scalar CS) (R : Rng) (scalars : list (scalar CS)).
Local Notation G := (CSGroup CS).

Lemma against_names (O2 : oracle (scalar CS)) n A : client_names n A -> names_at_most n (against O2 A).
Proof. induction A; simpl; auto. Qed.

Lemma keeping_spends (O1 : oracle (output_digest CS)) enough A : forall a proofs found sent, client_spends a proofs A ->
  spends voprf_proofs voprf_hashed a proofs (keeping O1 enough A found sent).
Proof.
  induction A as [m next IH|m t next IH|es next IH|outputs]; intros a proofs found sent H; simpl in *; auto.
  - destruct H as [H1 H2]. split; auto.
  - destruct H as (H1 & H2 & H3). split; [exact H1|split; [exact H2|]]. intros r. apply IH. apply H3.
Qed.

Lemma keeping_says (O1 : oracle (output_digest CS)) (O2 : oracle (scalar CS)) enough A : forall st found sent claims hashed calls,
  play (fun m => value (O1 m [])) (voprf_serves (CS := with_oracle CS O2) k R O1) (against O2 A) st = (claims, hashed, calls) ->
  says O2 (voprf_answers (CS := with_digest CS O1) k R O2) (keeping O1 enough A found sent) st =
  enough (found ++ flat_map candidate hashed) (sent + voprf_evaluated calls)%nat.
Proof.
  induction A as [m next IH|m t next IH|es next IH|outputs]; intros st found sent claims hashed calls H; cbn [against play keeping says] in *.
  - destruct (play (fun m => value (O1 m [])) (voprf_serves (CS := with_oracle CS O2) k R O1) (against O2 (next (value (O1 m [])))) st) as [[cl h] cs] eqn:E. injection H as <- <- <-.
    rewrite (IH _ _ _ _ _ _ _ E). cbn [flat_map]. now rewrite app_assoc.
  - exact (IH _ _ _ _ _ _ _ H).
  - change (voprf_answers (CS := with_digest CS O1) k R O2 (VBatch (CS := with_digest CS O1) es) st)
      with (voprf_serves (CS := with_oracle CS O2) k R O1 (VBatch (CS := with_oracle CS O2) es) st).
    destruct (voprf_serves _ _ _ _ _) as [r st'] eqn:Es.
    destruct (play (fun m => value (O1 m [])) (voprf_serves (CS := with_oracle CS O2) k R O1) (against O2 (next r)) st') as [[cl h] cs] eqn:E. injection H as <- <- <-.
    rewrite (IH _ _ _ _ _ _ _ E). cbn [voprf_evaluated fold_right]. f_equal. unfold voprf_evaluated. exact (eq_sym (Nat.add_assoc _ _ _)).
  - injection H as <- <- <-. cbn [flat_map voprf_evaluated fold_right]. now rewrite app_nil_r, Nat.add_0_r.
Qed.

Lemma solved_says (O1 : oracle (output_digest CS)) (O2 : oracle (scalar CS)) A st :
  says O2 (voprf_answers (CS := with_digest CS O1) k R O2) (keeping O1 (enough_found L k) A [] 0) st =
  voprf_solved (CS := with_oracle CS O2) (oracle_laws L O2) k R st (against O2 A) O1.
Proof.
  unfold voprf_solved.
  destruct (play _ _ _ _) as [[claims hashed] calls] eqn:E.
  rewrite (keeping_says _ _ _ _ _ [] 0 _ _ _ E). reflexivity.
Qed.

Lemma simulated_evaluate (O1 : oracle (output_digest CS)) pk ev evaluate evaluate' enough A : forall proofs O2 found sent,
  voprf_simulated (digest_laws L O1) scalars pk ev evaluate proofs O2 (keeping O1 enough A found sent) =
  voprf_simulated (digest_laws L O1) scalars pk ev evaluate' proofs O2 (keeping O1 enough A found sent).
Proof.
  induction A as [m next IH|m t next IH|es next IH|outputs]; intros proofs O2 found sent; cbn [keeping voprf_simulated]; auto.
  destruct proofs as [|proofs]; match goal with |- context [if ?b then _ else _] => destruct b end; auto.
  unfold made_up. apply sum_ext. intros c _. apply sum_ext. intros s _. apply IH.
Qed.
End Proofs.

(** A client that makes [n] calls, and sends and hashes to scalars [Q]
    elements and strings, and names [outputs] outputs.  For every hash to
    scalar, nonces and output hash: if it ends with more outputs than elements
    evaluated, it has found enough, but for [outputs] in [256 ^ Nh] of the
    output hashes.  And for every output hash it finds enough in about as many
    cases as the solver that has no key and no server: over all nonces, pairs
    and hashes to scalar the difference is at most n (Q + n) / (q - 1). *)
Theorem C63_voprf_solver :
  forall (CS : CipherSuite) (L : SuiteLaws CS) (scalars : list (scalar CS)), enumerates scalars ->
  forall (R : Rng) (draw : list (scalar CS) -> rng_state R), yields (CSGroup CS) R draw ->
  forall (k : scalar CS) (A : voprf_client CS) (Q n outputs : nat),
  k <> zero_scalar (CSGroup CS) -> client_spends Q n A -> client_names outputs A ->
  let G := CSGroup CS in let pk := elem_mul G (base_elem G) k in
  let q := length scalars in let q1 := length (nonces scalars) in
  let one_more (O1 : oracle (output_digest CS)) (O2 : oracle (scalar CS)) st := voprf_one_more (CS := with_oracle CS O2) (oracle_laws L O2) k R st (against O2 A) O1 in
  let found_enough (O1 : oracle (output_digest CS)) (O2 : oracle (scalar CS)) st := voprf_solved (CS := with_oracle CS O2) (oracle_laws L O2) k R st (against O2 A) O1 in
  (forall O2 st, chance_at_most (all_digests (output_size (CSHash CS))) outputs (fun O1 => one_more O1 O2 st && negb (found_enough O1 O2 st))) /\
  (forall O1, exists needed, forall points O, NoDup points -> incl needed points ->
    let all := oracles scalars points O in
    let with_server := sum (fun O2 => count (fun rs => found_enough O1 O2 (draw rs)) (sequences n (nonces scalars))) all in
    let alone := sum (fun O2 => solver_runs L scalars pk (fun e => elem_mul G e k) (enough_found L k) n A O1 O2) all in
    differ_at_most (n * (Q + n)) q1 with_server (length all * q1 ^ n) alone (length all * (q1 * q) ^ n)).
Proof.
  intros CS L scalars Hs R draw Hd k A Q n outputs Hk Hq Hn G pk q q1 one_more found_enough. split.
  - intros O2 st.
    exact (proj2 (C63_voprf_one_more (with_oracle CS O2) (oracle_laws L O2) k R st (against O2 A) outputs Hk (against_names O2 outputs A Hn))).
  - intros O1.
    destruct (C55_voprf_zero_knowledge (with_digest CS O1) (digest_laws L O1) scalars Hs R draw Hd k Q n
      (keeping O1 (enough_found L k) A [] 0) (keeping_spends O1 _ A Q n [] 0 Hq)) as (needed & H).
    exists needed. intros points O Hp Hi all with_server alone. specialize (H points O Hp Hi). cbv zeta in H.
    fold all in H.
    assert (E1 : with_server = sum (fun O => count (fun rs => says O (voprf_answers (CS := with_digest CS O1) k R O)
      (keeping O1 (enough_found L k) A [] 0) (draw rs)) (sequences n (nonces (CS := with_digest CS O1) scalars))) all).
    { unfold with_server. apply sum_ext. intros O2 _. apply count_ext. intros rs _. exact (eq_sym (solved_says L k R O1 O2 A (draw rs))). }
    rewrite E1.
    assert (E2 : alone = sum (fun O => voprf_simulated (digest_laws L O1) scalars pk (fun P => elem_mul G P k)
      (voprf_server_evaluate (with_digest CS O1) (mkVoprfServer (CS := with_digest CS O1) k pk)) n O (keeping O1 (enough_found L k) A [] 0)) all).
    { unfold alone, solver_runs. apply sum_ext. intros O2 _. exact (simulated_evaluate L scalars O1 pk _ _ _ _ A n O2 [] 0). }
    rewrite E2. exact H.
Qed.

(** ** POPRF *)

(** A client of the POPRF mode: as before, with an info string for each batch
    and each output. *)
Inductive poprf_client (CS : CipherSuite) : Type :=
| PHash (message : bytes) (next : bytes -> poprf_client CS)
| PScalar (message tag : bytes) (next : scalar CS -> poprf_client CS)
| PSend (blinded : list (elem CS)) (info : option bytes) (next : reply_of (elem CS) (scalar CS) -> poprf_client CS)
| PName (outputs : list (bytes * option bytes * bytes)).
Arguments PHash {CS} _ _.
Arguments PScalar {CS} _ _ _.
Arguments PSend {CS} _ _ _.
Arguments PName {CS} _.

Fixpoint pclient_names {CS} (n : nat) (A : poprf_client CS) : Prop :=
  match A with
  | PHash _ next => forall d, pclient_names n (next d)
  | PScalar _ _ next => forall x, pclient_names n (next x)
  | PSend _ _ next => forall r, pclient_names n (next r)
  | PName outputs => (length outputs <= n)%nat
  end.
(** A batch also counts for its info string. *)
Fixpoint pclient_spends {CS} (a proofs : nat) (A : poprf_client CS) : Prop :=
  match A with
  | PHash _ next => forall d, pclient_spends a proofs (next d)
  | PScalar _ _ next => (1 <= a)%nat /\ forall x, pclient_spends (a - 1) proofs (next x)
  | PSend es _ next => (1 + length es <= a)%nat /\ (1 <= proofs)%nat /\
      forall r, pclient_spends (a - (1 + length es)) (proofs - 1) (next r)
  | PName _ => True
  end.

Fixpoint pagainst {CS} (O2 : oracle (scalar CS)) (A : poprf_client CS) :
    attack (poprf_call (with_oracle CS O2)) (reply_of (elem CS) (scalar CS)) (list (bytes * option bytes * bytes)) :=
  match A with
  | PHash m next => Hash m (fun d => pagainst O2 (next d))
  | PScalar m t next => pagainst O2 (next (O2 m t))
  | PSend es info next => Query (PBatch (CS := with_oracle CS O2) es info) (fun r => pagainst O2 (next r))
  | PName outputs => Name outputs
  end.

(** In the end the hash of the info string is computed, for [enough]. *)
Fixpoint pkeeping {CS} (O1 : oracle (output_digest CS)) (info : bytes) (enough : scalar CS -> list (bytes * elem CS) -> nat -> bool)
    (A : poprf_client CS) (found : list (bytes * elem CS)) (sent : nat) :
    distinguisher (scalar CS) (poprf_call (with_digest CS O1)) (reply_of (elem CS) (scalar CS)) :=
  match A with
  | PHash m next => pkeeping O1 info enough (next (value (O1 m []))) (found ++ info_candidate info m) sent
  | PScalar m t next => DHash m t (fun x => pkeeping O1 info enough (next x) found sent)
  | PSend es i next => DCall (PBatch (CS := with_digest CS O1) es i) (fun r =>
      pkeeping O1 info enough (next r) found (sent + (if same_bytes (bytes_of_info i) info then length es else 0)))
  | PName _ => DHash (str "Info" ++ lv info) (str "HashToScalar-" ++ contextString (CS := CS) modePOPRF) (fun m => DSay (enough m found sent))
  end.

(** Enough, if the info string hashes to [m]: the elements of more inputs,
    under the inverse of the key plus [m], than elements sent. *)
Definition enough_under {CS} (L : SuiteLaws CS) (k m : scalar CS) (found : list (bytes * elem CS)) (sent : nat) : bool :=
  Nat.ltb sent (distinct (map fst (filter (fun '(input, e) =>
    elem_ct_eq (CSGroup CS) e (elem_mul (CSGroup CS) (H2G L modePOPRF input) (s_inv (group_laws L) (scalar_add (CSGroup CS) k m)))) found))).

(** The solver gets the public key and multiplication by the inverse of the
    key plus any scalar. *)
Definition psolver_runs {CS} (L : SuiteLaws CS) (scalars : list (scalar CS)) (pk : elem CS) (times : scalar CS -> elem CS -> elem CS)
    (info : bytes) (enough : scalar CS -> list (bytes * elem CS) -> nat -> bool) (proofs : nat) (A : poprf_client CS)
    (O1 : oracle (output_digest CS)) (O2 : oracle (scalar CS)) : nat :=
  poprf_simulated (digest_laws L O1) scalars pk times (fun _ _ _ => Err EInput) proofs O2 (pkeeping O1 info enough A [] 0).

Section PProofs.
Context {CS : CipherSuite} (L : SuiteLaws CS) (k : scalar CS) (R : Rng) (scalars : list (scalar CS)).
Local Notation G := (CSGroup CS).

Lemma pagainst_names (O2 : oracle (scalar CS)) n A : pclient_names n A -> names_at_most n (pagainst O2 A).
Proof. induction A; simpl; auto. Qed.

Lemma pkeeping_spends (O1 : oracle (output_digest CS)) info enough A : forall a proofs found sent, pclient_spends a proofs A ->
  spends poprf_proofs poprf_hashed (1 + a) proofs (pkeeping O1 info enough A found sent).
Proof.
  induction A as [m next IH|m t next IH|es i next IH|outputs]; intros a proofs found sent H; cbn [pclient_spends pkeeping spends] in *; auto.
  - destruct H as [H1 H2]. split; [lia|]. intros x. replace (1 + a - 1)%nat with (1 + (a - 1))%nat by lia. auto.
  - destruct H as (H1 & H2 & H3). change (poprf_hashed (PBatch (CS := with_digest CS O1) es i)) with (1 + length es)%nat.
    change (poprf_proofs (PBatch (CS := with_digest CS O1) es i)) with 1%nat.
    split; [lia|split; [exact H2|]]. intros r. replace (1 + a - (1 + length es))%nat with (1 + (a - (1 + length es)))%nat by lia.
    apply IH. apply H3.
  - split; [lia|]. auto.
Qed.

Lemma pkeeping_says (O1 : oracle (output_digest CS)) (O2 : oracle (scalar CS)) info enough A : forall st found sent claims hashed calls,
  play (fun m => value (O1 m [])) (poprf_serves (CS := with_oracle CS O2) k R O1) (pagainst O2 A) st = (claims, hashed, calls) ->
  says O2 (poprf_answers (CS := with_digest CS O1) k R O2) (pkeeping O1 info enough A found sent) st =
  enough (O2 (str "Info" ++ lv info) (str "HashToScalar-" ++ contextString (CS := CS) modePOPRF))
    (found ++ flat_map (info_candidate info) hashed) (sent + poprf_evaluated info calls)%nat.
Proof.
  induction A as [m next IH|m t next IH|es i next IH|outputs]; intros st found sent claims hashed calls H; cbn [pagainst play pkeeping says] in *.
  - destruct (play (fun m => value (O1 m [])) (poprf_serves (CS := with_oracle CS O2) k R O1) (pagainst O2 (next (value (O1 m [])))) st) as [[cl h] cs] eqn:E.
    injection H as <- <- <-. rewrite (IH _ _ _ _ _ _ _ E). cbn [flat_map]. now rewrite app_assoc.
  - exact (IH _ _ _ _ _ _ _ H).
  - change (poprf_answers (CS := with_digest CS O1) k R O2 (PBatch (CS := with_digest CS O1) es i) st)
      with (poprf_serves (CS := with_oracle CS O2) k R O1 (PBatch (CS := with_oracle CS O2) es i) st).
    destruct (poprf_serves _ _ _ _ _) as [r st'] eqn:Es.
    destruct (play (fun m => value (O1 m [])) (poprf_serves (CS := with_oracle CS O2) k R O1) (pagainst O2 (next r)) st') as [[cl h] cs] eqn:E.
    injection H as <- <- <-. rewrite (IH _ _ _ _ _ _ _ E). cbn [poprf_evaluated fold_right].
    f_equal. exact (eq_sym (Nat.add_assoc _ _ _)).
  - injection H as <- <- <-. cbn [flat_map poprf_evaluated fold_right]. now rewrite app_nil_r, Nat.add_0_r.
Qed.

Lemma s_inv_oracle (O2 : oracle (scalar CS)) : s_inv (group_laws (oracle_laws L O2)) = s_inv (group_laws L).
Proof. cbn [group_laws oracle_laws]. now destruct (group_laws L). Qed.

Lemma s_inv_digest (O1 : oracle (output_digest CS)) : s_inv (group_laws (digest_laws L O1)) = s_inv (group_laws L).
Proof. cbn [group_laws digest_laws]. now destruct (group_laws L). Qed.

Lemma psolved_says (O1 : oracle (output_digest CS)) (O2 : oracle (scalar CS)) info A st :
  says O2 (poprf_answers (CS := with_digest CS O1) k R O2) (pkeeping O1 info (enough_under L k) A [] 0) st =
  poprf_solved (CS := with_oracle CS O2) (oracle_laws L O2) k R st (pagainst O2 A) O1 info.
Proof.
  unfold poprf_solved.
  destruct (play _ _ _ _) as [[claims hashed] calls] eqn:E.
  rewrite (pkeeping_says _ _ _ _ _ _ [] 0 _ _ _ E). rewrite s_inv_oracle. reflexivity.
Qed.

Lemma psimulated_evaluate (O1 : oracle (output_digest CS)) pk ev evaluate evaluate' info enough A : forall proofs O2 found sent,
  poprf_simulated (digest_laws L O1) scalars pk ev evaluate proofs O2 (pkeeping O1 info enough A found sent) =
  poprf_simulated (digest_laws L O1) scalars pk ev evaluate' proofs O2 (pkeeping O1 info enough A found sent).
Proof.
  induction A as [m next IH|m t next IH|es i next IH|outputs]; intros proofs O2 found sent; cbn [pkeeping poprf_simulated]; auto.
  cbv zeta. destruct proofs as [|proofs];
    repeat match goal with |- (if ?b then _ else _) = _ => destruct b end; auto.
  unfold made_up. apply sum_ext. intros c _. apply sum_ext. intros s _. apply IH.
Qed.
End PProofs.

(** The same for POPRF, for any info string. *)
Theorem C63_poprf_solver :
  forall (CS : CipherSuite) (L : SuiteLaws CS) (scalars : list (scalar CS)), enumerates scalars ->
  forall (R : Rng) (draw : list (scalar CS) -> rng_state R), yields (CSGroup CS) R draw ->
  forall (k : scalar CS) (A : poprf_client CS) (info : bytes) (Q n outputs : nat),
  pclient_spends Q n A -> pclient_names outputs A ->
  let G := CSGroup CS in let pk := elem_mul G (base_elem G) k in
  let q := length scalars in let q1 := length (nonces scalars) in
  let one_more (O1 : oracle (output_digest CS)) (O2 : oracle (scalar CS)) st :=
    poprf_one_more (CS := with_oracle CS O2) (oracle_laws L O2) k R st (pagainst O2 A) O1 info in
  let found_enough (O1 : oracle (output_digest CS)) (O2 : oracle (scalar CS)) st :=
    poprf_solved (CS := with_oracle CS O2) (oracle_laws L O2) k R st (pagainst O2 A) O1 info in
  let times m e := elem_mul G e (s_inv (group_laws L) (scalar_add G k m)) in
  (forall O2 st, chance_at_most (all_digests (output_size (CSHash CS))) outputs (fun O1 => one_more O1 O2 st && negb (found_enough O1 O2 st))) /\
  (forall O1, exists needed, forall points O, NoDup points -> incl needed points ->
    let all := oracles scalars points O in
    let with_server := sum (fun O2 => count (fun rs => found_enough O1 O2 (draw rs)) (sequences n (nonces scalars))) all in
    let alone := sum (fun O2 => psolver_runs L scalars pk times info (enough_under L k) n A O1 O2) all in
    differ_at_most (n * (1 + Q + n)) q1 with_server (length all * q1 ^ n) alone (length all * (q1 * q) ^ n)).
Proof.
  intros CS L scalars Hs R draw Hd k A info Q n outputs Hq Hn G pk q q1 one_more found_enough times. split.
  - intros O2 st.
    refine (chance_mono _ outputs _ _ _ (proj2 (C63_poprf_one_more (with_oracle CS O2) (oracle_laws L O2) k R st (pagainst O2 A) outputs (pagainst_names O2 outputs A Hn)))).
    intros O1 H. apply existsb_exists. exists info. split; [|exact H].
    apply andb_prop in H as [H _]. unfold one_more, poprf_one_more in H. unfold named_infos.
    destruct (play _ _ _ _) as [[claims hashed] calls]. apply Nat.ltb_lt in H.
    destruct (filter _ claims) as [|[[i n'] o] l] eqn:Ef; [cbn in H; lia|].
    assert (Hin : In (i, n', o) ((i, n', o) :: l)) by now left. rewrite <- Ef in Hin. apply filter_In in Hin as [Hin Hc].
    apply andb_prop in Hc as [Hc _]. apply andb_prop in Hc as [Hc _]. apply same_bytes_spec in Hc. rewrite <- Hc.
    apply in_map_iff. exists (i, n', o). split; [reflexivity|exact Hin].
  - intros O1.
    destruct (C55_poprf_zero_knowledge (with_digest CS O1) (digest_laws L O1) scalars Hs R draw Hd k (1 + Q) n
      (pkeeping O1 info (enough_under L k) A [] 0) (pkeeping_spends O1 info _ A Q n [] 0 Hq)) as (needed & H).
    exists needed. intros points O Hp Hi all with_server alone. specialize (H points O Hp Hi). cbv zeta in H.
    fold all in H. rewrite (s_inv_digest L O1) in H.
    assert (E1 : with_server = sum (fun O => count (fun rs => says O (poprf_answers (CS := with_digest CS O1) k R O)
      (pkeeping O1 info (enough_under L k) A [] 0) (draw rs)) (sequences n (nonces (CS := with_digest CS O1) scalars))) all).
    { unfold with_server. apply sum_ext. intros O2 _. apply count_ext. intros rs _. exact (eq_sym (psolved_says L k R O1 O2 info A (draw rs))). }
    rewrite E1.
    assert (E2 : alone = sum (fun O => poprf_simulated (digest_laws L O1) scalars pk times
      (fun m input info => let CS' := with_oracle (with_digest CS O1) (fun _ _ => m) in
         poprf_server_evaluate CS' (mkPoprfServer (CS := CS') k pk) input info) n O (pkeeping O1 info (enough_under L k) A [] 0)) all).
    { unfold alone, psolver_runs. apply sum_ext. intros O2 _. exact (psimulated_evaluate L scalars O1 pk _ _ _ info _ A n O2 [] 0). }
    rewrite E2. exact H.
Qed.

(** Cases: the key is 42.  A client that knows the key and has one element
    evaluated finds the elements of two inputs, with the server and in each of
    the runs of the solver; one that runs the protocol for one input does not
    find more than one; one that names an output without hashing it finds
    nothing, and is right for the function with that value only. *)
Definition ex_insider_v (evaluate : list (elem TS)) : voprf_client TS :=
  let G := CSGroup TS in
  let e input := elem_mul G (H2G TL modeVOPRF input) (ex_scalar 42) in
  let rest := CHash (ex_string ex_input (e ex_input)) (fun d =>
    CHash (ex_string ex_input2 (e ex_input2)) (fun d' => CName [(ex_input, d); (ex_input2, d')])) in
  match evaluate with [] => rest | es => CEvaluate es (fun _ => rest) end.
Definition ex_client_v : voprf_client TS :=
  let G := CSGroup TS in
  CScalar ex_input [] (fun _ =>
  CEvaluate [elem_mul G (H2G TL modeVOPRF ex_input) (ex_scalar 9)] (fun r =>
    match r with
    | Evaluated (Ok ([e], _)) => CHash (ex_string ex_input (elem_mul G e (s_inv (group_laws TL) (ex_scalar 9)))) (fun d => CName [(ex_input, d)])
    | _ => CName []
    end)).
Definition ex_tag_oracle : oracle (scalar TS) := fun m t => HashToScalar TL m t.
Definition ex_outcome (A : voprf_client TS) (O1 : oracle (output_digest TS)) : list bool :=
  let L2 := oracle_laws TL ex_tag_oracle in
  [voprf_one_more (CS := with_oracle TS ex_tag_oracle) L2 (ex_scalar 42) CtrRng 17 (against ex_tag_oracle A) O1;
   voprf_solved (CS := with_oracle TS ex_tag_oracle) L2 (ex_scalar 42) CtrRng 17 (against ex_tag_oracle A) O1].
Definition ex_alone (A : voprf_client TS) (O1 : oracle (output_digest TS)) : nat :=
  let G := CSGroup TS in
  solver_runs TL ex_scalars (elem_mul G (base_elem G) (ex_scalar 42)) (fun e => elem_mul G e (ex_scalar 42))
    (enough_found TL (ex_scalar 42)) 0 A O1 ex_tag_oracle.

Example C63_solver_case :
  client_spends 1 1 (ex_insider_v [ex_elem 3]) /\ client_names 2 (ex_insider_v [ex_elem 3]) /\
  client_spends 2 1 ex_client_v /\ client_names 1 ex_client_v /\
  ex_outcome (ex_insider_v [ex_elem 3]) ex_digest = [true; true] /\
  ex_outcome ex_client_v ex_digest = [false; false] /\
  ex_outcome (CName [(ex_input, repeat x00 4)]) ex_value = [true; false] /\
  [ex_alone (ex_insider_v []) ex_digest; ex_alone (CName [(ex_input, repeat x00 4)]) ex_value] = [1; 0]%nat.
Proof.
  split; [simpl; auto|]. split; [simpl; auto|].
  split. { split; [lia|]. intros x. split; [simpl; lia|]. split; [lia|]. intros [[[[|e [|]] p]| | |]|]; simpl; auto. }
  split. { simpl. intros x [[[[|e [|]] p]| | |]|]; simpl; auto. }
  split; [vm_compute; reflexivity|]. split; [vm_compute; reflexivity|]. split; vm_compute; reflexivity.
Qed.

(** POPRF: the insider finds the element of one input, and one more than the
    empty batch under that info string, with the server and in the run of the
    solver alone; after a batch of that info string it has found no more. *)
Definition ex_insider_p (batch : list (elem TS)) (outputs : list (bytes * option bytes * bytes)) : poprf_client TS :=
  let G := CSGroup TS in
  let e := elem_mul G (H2G TL modePOPRF ex_input) (s_inv (group_laws TL) (tweaked_scalar TL (ex_scalar 42) ex_info)) in
  let rest := PHash (lv ex_input ++ lv ex_info ++ lv (serialize_elem G e) ++ str "Finalize") (fun d =>
    PName ((ex_input, Some ex_info, d) :: outputs)) in
  match batch with [] => rest | es => PSend es (Some ex_info) (fun _ => rest) end.
Definition ex_poutcome (A : poprf_client TS) (O1 : oracle (output_digest TS)) : list bool :=
  let L2 := oracle_laws TL ex_tag_oracle in
  [poprf_one_more (CS := with_oracle TS ex_tag_oracle) L2 (ex_scalar 42) CtrRng 17 (pagainst ex_tag_oracle A) O1 ex_info;
   poprf_solved (CS := with_oracle TS ex_tag_oracle) L2 (ex_scalar 42) CtrRng 17 (pagainst ex_tag_oracle A) O1 ex_info].
Definition ex_palone (A : poprf_client TS) (O1 : oracle (output_digest TS)) : nat :=
  let G := CSGroup TS in
  psolver_runs TL ex_scalars (elem_mul G (base_elem G) (ex_scalar 42))
    (fun m e => elem_mul G e (s_inv (group_laws TL) (scalar_add G (ex_scalar 42) m))) ex_info
    (enough_under TL (ex_scalar 42)) 0 A O1 ex_tag_oracle.

Example C63_poprf_solver_case :
  pclient_spends 2 1 (ex_insider_p [ex_elem 3] []) /\ pclient_names 1 (ex_insider_p [ex_elem 3] []) /\
  ex_poutcome (ex_insider_p [] []) ex_digest = [true; true] /\
  ex_poutcome (ex_insider_p [ex_elem 3] []) ex_digest = [false; false] /\
  ex_poutcome (PName [(ex_input, Some ex_info, repeat x00 4)]) ex_value = [true; false] /\
  [ex_palone (ex_insider_p [] []) ex_digest; ex_palone (PName [(ex_input, Some ex_info, repeat x00 4)]) ex_value] = [1; 0]%nat.
Proof.
  split; [simpl; auto|]. split; [simpl; auto|].
  split; [vm_compute; reflexivity|]. split; [vm_compute; reflexivity|]. split; vm_compute; reflexivity.
Qed.
