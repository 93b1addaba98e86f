(** * C55: proofs give nothing away.

    The hash to scalar is a random function.  A program hashes as it likes,
    calls the server as it likes, and says yes or no in the end.  It cannot
    tell the server from a simulator that does not know the key: the simulator
    is given the evaluated elements and makes the proofs up. *)
From Verif Require Import Laws Spec BytesFacts GroupFacts CommonFacts OprfFacts VoprfFacts PoprfFacts PropEncoding
  PropCorrectness PropSimulation Oracle RomFacts ZkFacts PropUnpredict PropRom Zq.
From Verif Require PropUniform.
From Verif Require Import Ristretto RistrettoFacts EllipticCurve EllipticCurveFacts.
From Coq Require Import Lia ArithRing.
Open Scope N_scope.

(** ** The two games *)

(** A program that hashes, calls, and decides. *)
Inductive distinguisher (S Call Reply : Type) : Type :=
| DHash (message tag : bytes) (next : S -> distinguisher S Call Reply)
| DCall (c : Call) (next : Reply -> distinguisher S Call Reply)
| DSay (answer : bool).
Arguments DHash {S Call Reply} _ _ _.
Arguments DCall {S Call Reply} _ _.
Arguments DSay {S Call Reply} _.

(** It makes at most [n] calls with a proof, and at most [a] strings are
    hashed by it and for the weights of the elements it sends. *)
Fixpoint spends {S Call Reply} (proofs hashed : Call -> nat) (a n : nat) (D : distinguisher S Call Reply) : Prop :=
  match D with
  | DHash _ _ next => (1 <= a)%nat /\ forall x, spends proofs hashed (a - 1) n (next x)
  | DCall c next => (hashed c <= a)%nat /\ (proofs c <= n)%nat /\
                    forall r, spends proofs hashed (a - hashed c) (n - proofs c) (next r)
  | DSay _ => True
  end.

Definition voprf_proofs {CS} (c : voprf_call CS) : nat := match c with VBlindEvaluate _ | VBatch _ => 1 | VEvaluate _ => 0 end.
Definition voprf_hashed {CS} (c : voprf_call CS) : nat :=
  match c with VBlindEvaluate _ => 1 | VBatch es => length es | VEvaluate _ => 0 end.
(* one more, for the info *)
Definition poprf_proofs {CS} (c : poprf_call CS) : nat := match c with PBlindEvaluate _ _ | PBatch _ _ => 1 | PEvaluate _ _ => 0 end.
Definition poprf_hashed {CS} (c : poprf_call CS) : nat :=
  match c with PBlindEvaluate _ _ => 2 | PBatch es _ => 1 + length es | PEvaluate _ _ => 1 end.

(** With the server. *)
Fixpoint says {S Call Reply St} (O : oracle S) (serve : Call -> St -> Reply * St) (D : distinguisher S Call Reply) (st : St) : bool :=
  match D with
  | DHash m t next => says O serve (next (O m t)) st
  | DCall c next => let '(r, st') := serve c st in says O serve (next r) st'
  | DSay b => b
  end.

Section Servers.
Context {CS : CipherSuite} (k : scalar CS) (R : Rng).
Local Notation G := (CSGroup CS).
Local Notation pk := (elem_mul G (base_elem G) k).

(** The servers of the crate, on the suite with hash to scalar [O]. *)
Definition voprf_answers (O : oracle (scalar CS)) (c : voprf_call CS) (st : rng_state R) : reply CS * rng_state R :=
  let CS' := with_oracle CS O in
  let server := mkVoprfServer (CS := CS') k pk in
  match c with
  | VBlindEvaluate e =>
      let '(r, st') := voprf_server_blind_evaluate CS' server R (mkBlinded (CS := CS') e) st in
      (Evaluated (map_ok (fun r => ([evaluation_value (voprf_eval_message r)], Some (proof_scalars (voprf_eval_proof r)))) r), st')
  | VBatch es =>
      let '(r, st') := voprf_server_batch_blind_evaluate CS' server R (map (mkBlinded (CS := CS')) es) st in
      (Evaluated (map_ok (fun r => (map evaluation_value (voprf_batch_messages r), Some (proof_scalars (voprf_batch_proof r)))) r), st')
  | VEvaluate input => (Output (voprf_server_evaluate CS' server input), st)
  end.

Definition poprf_answers (O : oracle (scalar CS)) (c : poprf_call CS) (st : rng_state R) : reply CS * rng_state R :=
  let CS' := with_oracle CS O in
  let server := mkPoprfServer (CS := CS') k pk in
  match c with
  | PBlindEvaluate e info =>
      let '(r, st') := poprf_server_blind_evaluate CS' server R (mkBlinded (CS := CS') e) info st in
      (Evaluated (map_ok (fun r => ([evaluation_value (poprf_eval_message r)], Some (proof_scalars (poprf_eval_proof r)))) r), st')
  | PBatch es info =>
      let '(r, st') := poprf_server_batch_blind_evaluate CS' server R (map (mkBlinded (CS := CS')) es) info st in
      (Evaluated (map_ok (fun r => (map evaluation_value (poprf_batch_messages r), Some (proof_scalars (poprf_batch_proof r)))) r), st')
  | PEvaluate input info => (Output (poprf_server_evaluate CS' server input info), st)
  end.
End Servers.

(** With the simulator.  A proof for (C, D) is a pair (c, s), any pair for
    which the first commitment is not the identity; the hash is [c] from then
    on at the string a verifier hashes. *)
Section Simulators.
Context {CS : CipherSuite} (L : SuiteLaws CS) (scalars : list (scalar CS)).
Local Notation G := (CSGroup CS).
Local Notation S := (scalar CS).
Local Notation nq := (length (nonces scalars)).
Local Notation q := (length scalars).

Definition made_up (mode : N) (B : elem CS) (C D : list (elem CS)) (O : oracle S) (rest : S * S -> oracle S -> nat) : nat :=
  sum (fun c => sum (fun s =>
    rest (c, s) (update O (verifier_string (CS := with_oracle CS O) (oracle_laws L O) mode (base_elem G) B C D c s, h2s_tag CS mode) c))
    (valid_responses scalars B c)) scalars.

(** The number of the sequences of [n] pairs for which the answer is yes.
    [ev] evaluates an element, [evaluate] an input. *)
Fixpoint voprf_simulated (pk : elem CS) (ev : elem CS -> elem CS) (evaluate : bytes -> res bytes)
    (n : nat) (O : oracle S) (D : distinguisher S (voprf_call CS) (reply CS)) : nat :=
  match D with
  | DHash m t next => voprf_simulated pk ev evaluate n O (next (O m t))
  | DCall c next =>
    let proven es :=
      match n with
      | Datatypes.O => 0%nat
      | Datatypes.S n => made_up modeVOPRF pk es (map ev es) O (fun p O' =>
          voprf_simulated pk ev evaluate n O' (next (Evaluated (Ok (map ev es, Some p)))))
      end in
    match c with
    | VBlindEvaluate e => proven [e]
    | VBatch es => if 65535 <? len es then voprf_simulated pk ev evaluate n O (next (Evaluated (Err EBatch))) else proven es
    | VEvaluate input => voprf_simulated pk ev evaluate n O (next (Output (evaluate input)))
    end
  | DSay b => if b then ((nq * q) ^ n)%nat else 0%nat
  end.

(** For POPRF [ev] and [evaluate] also get the hash of the info. *)
Definition info_hash (O : oracle S) (info : option bytes) : S :=
  O (str "Info" ++ lv (info_or_default info)) (h2s_tag CS modePOPRF).

Fixpoint poprf_simulated (pk : elem CS) (ev : S -> elem CS -> elem CS) (evaluate : S -> bytes -> option bytes -> res bytes)
    (n : nat) (O : oracle S) (D : distinguisher S (poprf_call CS) (reply CS)) : nat :=
  match D with
  | DHash m t next => poprf_simulated pk ev evaluate n O (next (O m t))
  | DCall c next =>
    let proven es info :=
      let m := info_hash O info in
      let B := elem_add G (elem_mul G (base_elem G) m) pk in
      let again r := poprf_simulated pk ev evaluate n O (next (Evaluated r)) in
      if 65535 <? len (info_or_default info) then again (Err EInfo)
      else if is_identity_elem G B then again (Err EProtocol)
      else if 65535 <? len es then again Panic
      else match n with
      | Datatypes.O => 0%nat
      | Datatypes.S n => made_up modePOPRF B (map (ev m) es) es O (fun p O' =>
          poprf_simulated pk ev evaluate n O' (next (Evaluated (Ok (map (ev m) es, Some p)))))
      end in
    match c with
    | PBlindEvaluate e info => proven [e] info
    | PBatch es info => proven es info
    | PEvaluate input info => poprf_simulated pk ev evaluate n O (next (Output (evaluate (info_hash O info) input info)))
    end
  | DSay b => if b then ((nq * q) ^ n)%nat else 0%nat
  end.
End Simulators.

(** All sequences of [n] things. *)
Fixpoint sequences {A} (n : nat) (l : list A) : list (list A) :=
  match n with
  | Datatypes.O => [[]]
  | Datatypes.S n => flat_map (fun a => map (cons a) (sequences n l)) l
  end.

(** a of ta, and b of tb: as fractions they differ by at most e / d. *)
Definition differ_at_most (e d : nat) (a ta b tb : nat) : Prop :=
  (d * (a * tb) <= d * (b * ta) + e * (ta * tb) /\ d * (b * ta) <= d * (a * tb) + e * (ta * tb))%nat.

(** ** Proofs *)
Lemma count_flat_map {A B} (f : B -> bool) (g : A -> list B) l : count f (flat_map g l) = sum (fun a => count f (g a)) l.
Proof.
  unfold count. induction l as [|a l IH]; simpl; auto. rewrite filter_app, app_length. now rewrite IH.
Qed.
Lemma count_map {A B} (f : B -> bool) (g : A -> B) l : count f (map g l) = count (fun a => f (g a)) l.
Proof.
  unfold count. induction l as [|a l IH]; simpl; auto. destruct (f (g a)); simpl; auto.
Qed.
Lemma sequences_length {A} n (l : list A) : length (sequences n l) = (length l ^ n)%nat.
Proof.
  induction n as [|n IH]; simpl; auto. rewrite length_flat_map.
  rewrite (sum_ext _ (fun _ => (length l ^ n)%nat)) by (intros; rewrite map_length; exact IH). apply sum_const.
Qed.
Lemma count_all {A} (l : list A) : count (fun _ => true) l = length l.
Proof. unfold count. induction l; simpl; auto. Qed.
Lemma count_none {A} (l : list A) : count (fun _ => false) l = 0%nat.
Proof. unfold count. induction l; simpl; auto. Qed.

Lemma steps_mono {CS} a n a' n' (T : ztree (CS := CS)) : (a <= a')%nat -> (n <= n')%nat -> steps a n T -> steps a' n' T.
Proof.
  revert a n a' n'. induction T as [m t next IH|t M next IH|b]; intros a n a' n' Ha Hn H; simpl in *; auto.
  - destruct a as [|a]; [contradiction|]. destruct a' as [|a']; [lia|]. intros x. apply (IH _ a n); auto; lia.
  - destruct n as [|n]; [contradiction|]. destruct n' as [|n']; [lia|]. intros x. apply (IH _ a n); auto; lia.
Qed.

Lemma spends_mono {S Call Reply} p h (D : distinguisher S Call Reply) : forall a n a' n',
  (a <= a')%nat -> (n <= n')%nat -> spends p h a n D -> spends p h a' n' D.
Proof.
  induction D as [m t next IH|c next IH|b]; intros a n a' n' Ha Hn H; simpl in *; auto.
  - destruct H as [H1 H]. split; [lia|]. intros x. apply (IH _ (a - 1)%nat n); auto; lia.
  - destruct H as (H1 & H2 & H). split; [lia|]. split; [lia|]. intros r.
    apply (IH _ (a - h c)%nat (n - p c)%nat); auto; lia.
Qed.

Section Zk.
Context {CS : CipherSuite} (L : SuiteLaws CS).
Context (scalars : list (scalar CS)) (all_scalars : forall a, In a scalars) (nodup_scalars : NoDup scalars).
Context (k : scalar CS) (R : Rng) (draw : list (scalar CS) -> rng_state R).
Local Notation G := (CSGroup CS).
Local Notation GL := (group_laws L).
Local Notation S := (scalar CS).
Local Notation A := (base_elem G).
Local Notation nonces := (nonces scalars).
Local Notation nq := (length nonces).
Local Notation q := (length scalars).
Local Notation WO := (with_oracle CS).
Local Notation OL := (oracle_laws L).
Local Notation pk := (elem_mul G A k).
Local Notation "P [+] Q" := (elem_add G P Q) (at level 50, left associativity).
Local Notation "k [*] P" := (elem_mul G P k) (at level 40).
Context (draws : forall r rs, r <> zero_scalar G -> random_scalar G R (draw (r :: rs)) = (Ok r, draw rs)).

Lemma nonces_nonzero r : In r nonces -> r <> zero_scalar G.
Proof.
  intros H. apply filter_In in H as [_ H]. apply Bool.negb_true_iff in H. now apply (is_zero_false GL).
Qed.

Section Trees.
Context (mode : N).
Local Notation tag := (h2s_tag CS mode).
Local Notation seed B := (proof_seed (CS := CS) mode B).

Fixpoint zask_weights (sd : bytes) (i : nat) (CD : list (elem CS * elem CS)) (cont : list S -> ztree (CS := CS)) : ztree (CS := CS) :=
  match CD with
  | [] => cont []
  | (C, D) :: rest => ZAsk (composite_string sd i C D) tag (fun w =>
      zask_weights sd (Datatypes.S i) rest (fun ws => cont (w :: ws)))
  end.
Lemma zask_real n O sd i CD cont :
  real mode scalars n O (zask_weights sd i CD cont) = real mode scalars n O (cont (oweights (CS := CS) mode O sd i CD)).
Proof. revert i cont. induction CD as [|[C D] CD IH]; intros i cont; auto. cbn [zask_weights real]. rewrite IH. reflexivity. Qed.
Lemma zask_simc n O sd i CD cont :
  simc mode scalars n O (zask_weights sd i CD cont) = simc mode scalars n O (cont (oweights (CS := CS) mode O sd i CD)).
Proof. revert i cont. induction CD as [|[C D] CD IH]; intros i cont; auto. cbn [zask_weights simc]. rewrite IH. reflexivity. Qed.
Lemma zask_steps a n sd i CD cont : (forall ws, steps a n (cont ws)) -> steps (length CD + a) n (zask_weights sd i CD cont).
Proof. revert i cont. induction CD as [|[C D] CD IH]; intros i cont H; simpl; auto. Qed.

Definition prove_tree (t : S) (C D : list (elem CS)) (cont : S * S -> ztree (CS := CS)) : ztree (CS := CS) :=
  zask_weights (seed (t [*] A)) 0 (combine C D) (fun ws => ZProve t (lincomb ws C) cont).

Lemma prove_steps a n t C D cont : length C = length D ->
  (forall p, steps a n (cont p)) -> steps (length D + a) (1 + n) (prove_tree t C D cont).
Proof.
  intros E H. unfold prove_tree. replace (length D) with (length (combine C D)) by (rewrite combine_length; lia).
  apply zask_steps. intros ws. simpl. exact H.
Qed.

Definition the_composite (O : oracle S) (t : S) (C D : list (elem CS)) : elem CS :=
  lincomb (oweights (CS := CS) mode O (seed (t [*] A)) 0 (combine C D)) C.
Definition the_proof (O : oracle S) (t : S) (C D : list (elem CS)) (r : S) : S * S :=
  let x := nonce_point mode t (the_composite O t C D) r in
  let c := O (fst x) (snd x) in (c, response t r c).

Lemma prove_real n O t C D cont :
  real mode scalars (Datatypes.S n) O (prove_tree t C D cont)
  = sum (fun r => real mode scalars n O (cont (the_proof O t C D r))) nonces.
Proof. unfold prove_tree. rewrite zask_real. reflexivity. Qed.

Lemma prove_simc n O t C D cont : D = map (fun P => t [*] P) C ->
  simc mode scalars (Datatypes.S n) O (prove_tree t C D cont)
  = made_up L scalars mode (t [*] A) C D O (fun p O' => simc mode scalars n O' (cont p)).
Proof.
  intros HD. unfold prove_tree. rewrite zask_simc. unfold made_up. cbn [simc].
  apply sum_ext. intros c _. apply sum_ext. intros s _. f_equal. f_equal. unfold chal_point. f_equal.
  unfold verifier_string. unfold compositeM, compositeZ. rewrite (oweights_eq L mode O).
  assert (E : lincomb (CS := CS) (oweights mode O (seed (t [*] A)) 0 (combine C D)) D
            = t [*] lincomb (oweights mode O (seed (t [*] A)) 0 (combine C D)) C) by (rewrite HD at 2; apply (lincomb_mul L)).
  rewrite <- E. reflexivity.
Qed.

(** What the code computes. *)
Lemma proof_with_oracle (O : oracle S) t (C D : list (elem CS)) r :
  proof_scalars (proof_with (CS := WO O) (OL O) mode t A (t [*] A) (compositeM (CS := WO O) (OL O) mode (t [*] A) C D)
     (t [*] compositeM (CS := WO O) (OL O) mode (t [*] A) C D) r) = the_proof O t C D r.
Proof. unfold compositeM. rewrite (oweights_eq L mode O). reflexivity. Qed.
End Trees.

(** *** VOPRF *)
Lemma voprf_batch_answer (O : oracle S) es st : len es <= 65535 ->
  voprf_answers k R O (VBatch es) st =
  match random_scalar G R st with
  | (Ok r, st') => (Evaluated (Ok (map (fun P => k [*] P) es, Some (the_proof modeVOPRF O k es (map (fun P => k [*] P) es) r))), st')
  | (Err e, st') => (Evaluated (Err e), st')
  | (Panic, st') => (Evaluated Panic, st')
  | (Diverge, st') => (Evaluated Diverge, st')
  end.
Proof.
  intros Hl. unfold voprf_answers.
  rewrite (voprf_batch_ok (OL O)) by (rewrite len_map; exact Hl).
  change (random_scalar (CSGroup (WO O)) R st) with (random_scalar G R st).
  destruct (random_scalar G R st) as [[r|e| |] st']; try reflexivity.
  unfold voprf_batch_result. cbn [map_ok voprf_batch_messages voprf_batch_proof voprf_sk voprf_pk].
  assert (E : map blinded_value (map (mkBlinded (CS := WO O)) es) = es) by (rewrite map_map; apply map_id).
  rewrite E. f_equal. f_equal. f_equal. f_equal.
  - rewrite map_map. apply map_id.
  - f_equal. exact (proof_with_oracle modeVOPRF O k es (map (fun P => k [*] P) es) r).
Qed.
Lemma voprf_single_answer (O : oracle S) e st :
  voprf_answers k R O (VBlindEvaluate e) st =
  match random_scalar G R st with
  | (Ok r, st') => (Evaluated (Ok ([k [*] e], Some (the_proof modeVOPRF O k [e] [k [*] e] r))), st')
  | (Err _, st') => (Evaluated Panic, st')
  | (Panic, st') => (Evaluated Panic, st')
  | (Diverge, st') => (Evaluated Diverge, st')
  end.
Proof.
  unfold voprf_answers. rewrite (voprf_single_ok (OL O)).
  change (random_scalar (CSGroup (WO O)) R st) with (random_scalar G R st).
  destruct (random_scalar G R st) as [[r|err| |] st']; try reflexivity.
Qed.
Lemma voprf_evaluate_answer (O : oracle S) input :
  voprf_server_evaluate (WO O) (mkVoprfServer (CS := WO O) k pk) input
  = voprf_server_evaluate CS (mkVoprfServer k pk) input.
Proof.
  destruct (N.le_gt_cases (len input) 65535) as [Hi|Hi].
  - destruct (is_identity_elem G (H2G L modeVOPRF input)) eqn:Ei.
    + apply (proj1 (elem_ct_eq_spec _ GL _ _)) in Ei. symmetry in Ei.
      refine (eq_trans (voprf_evaluate_err (OL O) (mkVoprfServer (CS := WO O) k pk) input (or_intror Ei)) _).
      symmetry. exact (voprf_evaluate_err L (mkVoprfServer k pk) input (or_intror Ei)).
    + apply (is_identity_false GL) in Ei.
      refine (eq_trans (voprf_evaluate_ok (OL O) k pk input Hi Ei) _).
      symmetry. exact (voprf_evaluate_ok L k pk input Hi Ei).
  - refine (eq_trans (voprf_evaluate_err (OL O) (mkVoprfServer (CS := WO O) k pk) input (or_introl Hi)) _).
    symmetry. exact (voprf_evaluate_err L (mkVoprfServer k pk) input (or_introl Hi)).
Qed.

Fixpoint voprf_tree (D : distinguisher S (voprf_call CS) (reply CS)) : ztree (CS := CS) :=
  match D with
  | DHash m t next => ZAsk m t (fun a => voprf_tree (next a))
  | DCall c next =>
    let proven es := let D := map (fun P => k [*] P) es in
      prove_tree modeVOPRF k es D (fun p => voprf_tree (next (Evaluated (Ok (D, Some p))))) in
    match c with
    | VBlindEvaluate e => proven [e]
    | VBatch es => if 65535 <? len es then voprf_tree (next (Evaluated (Err EBatch))) else proven es
    | VEvaluate input => voprf_tree (next (Output (voprf_server_evaluate CS (mkVoprfServer k pk) input)))
    end
  | DSay b => ZOut b
  end.

Lemma voprf_tree_steps D : forall a n, spends voprf_proofs voprf_hashed a n D -> steps a n (voprf_tree D).
Proof.
  assert (P : forall es a n (next : reply CS -> distinguisher S (voprf_call CS) (reply CS)),
    (forall r a n, spends voprf_proofs voprf_hashed a n (next r) -> steps a n (voprf_tree (next r))) ->
    (length es <= a)%nat -> (1 <= n)%nat -> (forall r, spends voprf_proofs voprf_hashed (a - length es) (n - 1) (next r)) ->
    steps a n (prove_tree modeVOPRF k es (map (fun P => k [*] P) es) (fun p =>
       voprf_tree (next (Evaluated (Ok (map (fun P => k [*] P) es, Some p))))))).
  { intros es a n next IH Ha Hn H. replace a with (length (map (fun P => k [*] P) es) + (a - length es))%nat by (rewrite map_length; lia).
    replace n with (1 + (n - 1))%nat by lia. apply prove_steps; [now rewrite map_length|]. intros p. apply IH. apply H. }
  induction D as [m t next IH|c next IH|b]; intros a n H; cbn [voprf_tree]; [| |exact I].
  - destruct H as [Ha H]. destruct a as [|a]; [lia|]. simpl. intros x. apply IH. specialize (H x).
    replace a with (Datatypes.S a - 1)%nat by lia. exact H.
  - destruct H as (Ha & Hn & H). destruct c as [e|es|i]; cbn [voprf_hashed voprf_proofs] in *.
    + apply (P [e]); auto.
    + destruct (65535 <? len es); [|apply P; auto].
      apply (steps_mono (a - length es) (n - 1)); [lia|lia|]. apply IH, H.
    + apply IH. specialize (H (Output (voprf_server_evaluate CS (mkVoprfServer k pk) i))). now rewrite !Nat.sub_0_r in H.
Qed.

Lemma voprf_tree_simc D : forall n O,
  simc modeVOPRF scalars n O (voprf_tree D)
  = voprf_simulated L scalars pk (fun P => k [*] P) (voprf_server_evaluate CS (mkVoprfServer k pk)) n O D.
Proof.
  induction D as [m t next IH|c next IH|b]; intros n O; [apply IH| |reflexivity].
  assert (P : forall es, simc modeVOPRF scalars n O (prove_tree modeVOPRF k es (map (fun P => k [*] P) es) (fun p =>
       voprf_tree (next (Evaluated (Ok (map (fun P => k [*] P) es, Some p)))))) =
     match n with
      | Datatypes.O => 0%nat
      | Datatypes.S n => made_up L scalars modeVOPRF pk es (map (fun P => k [*] P) es) O (fun p O' =>
          voprf_simulated L scalars pk (fun P => k [*] P) (voprf_server_evaluate CS (mkVoprfServer k pk)) n O' (next (Evaluated (Ok (map (fun P => k [*] P) es, Some p)))))
      end).
  { intros es. destruct n as [|n].
    - unfold prove_tree. rewrite zask_simc. reflexivity.
    - rewrite prove_simc by reflexivity. unfold made_up. apply sum_ext. intros c' _. apply sum_ext. intros s _. apply IH. }
  destruct c as [e|es|i]; cbn [voprf_tree voprf_simulated].
  - exact (P [e]).
  - destruct (65535 <? len es); [apply IH|apply P].
  - apply IH.
Qed.

Lemma voprf_tree_real D : forall a n O, spends voprf_proofs voprf_hashed a n D ->
  real modeVOPRF scalars n O (voprf_tree D) = count (fun rs => says O (voprf_answers k R O) D (draw rs)) (sequences n nonces).
Proof.
  induction D as [m t next IH|c next IH|b]; intros a n O H.
  - destruct H as [Ha H]. cbn [voprf_tree real says]. exact (IH _ _ _ _ (H (O m t))).
  - destruct H as (Ha & Hn & H).
    assert (P : forall es, voprf_proofs c = 1%nat ->
      (forall r rs, r <> zero_scalar G -> voprf_answers k R O c (draw (r :: rs))
        = (Evaluated (Ok (map (fun P => k [*] P) es, Some (the_proof modeVOPRF O k es (map (fun P => k [*] P) es) r))), draw rs)) ->
      real modeVOPRF scalars n O (prove_tree modeVOPRF k es (map (fun P => k [*] P) es) (fun p =>
       voprf_tree (next (Evaluated (Ok (map (fun P => k [*] P) es, Some p)))))) =
      count (fun rs => says O (voprf_answers k R O) (DCall c next) (draw rs)) (sequences n nonces)).
    { intros es Hc Hr. destruct n as [|n]; [lia|]. rewrite prove_real. cbn [sequences]. rewrite count_flat_map.
      apply sum_ext. intros r Hin. rewrite count_map. rewrite (IH _ (a - voprf_hashed c)%nat).
      - apply count_ext. intros rs _. cbn [says]. rewrite Hr by now apply nonces_nonzero. reflexivity.
      - specialize (H (Evaluated (Ok (map (fun P => k [*] P) es, Some (the_proof modeVOPRF O k es (map (fun P => k [*] P) es) r))))).
        rewrite Hc in H. replace (Datatypes.S n - 1)%nat with n in H by lia. exact H. }
    destruct c as [e|es|i].
    + cbn [voprf_tree]. apply (P [e]); auto. intros r rs Hr. rewrite voprf_single_answer, draws by exact Hr. reflexivity.
    + cbn [voprf_tree]. destruct (65535 <? len es) eqn:El.
      * apply N.ltb_lt in El. rewrite (IH _ a n).
        -- apply count_ext. intros rs _. cbn [says voprf_answers].
           rewrite (voprf_batch_err (CS := WO O)) by (rewrite len_map; exact El). reflexivity.
        -- apply (spends_mono _ _ _ (a - length es)%nat (n - 1)%nat); [lia|lia|]. apply H.
      * apply N.ltb_ge in El. apply P; auto. intros r rs Hr. rewrite voprf_batch_answer, draws by assumption. reflexivity.
    + cbn [voprf_tree]. specialize (H (Output (voprf_server_evaluate CS (mkVoprfServer k pk) i))).
      cbn [voprf_proofs voprf_hashed] in H. rewrite !Nat.sub_0_r in H. rewrite (IH _ _ _ _ H). apply count_ext. intros rs _.
      cbn [says voprf_answers]. now rewrite voprf_evaluate_answer.
  - cbn [voprf_tree real says]. destruct b; [now rewrite count_all, sequences_length|now rewrite count_none].
Qed.

(** *** POPRF *)
Definition tweak (m : S) : S := scalar_add G k m.
Lemma oracle_inv (O : oracle S) (a : S) : a <> zero_scalar G -> s_inv (group_laws (OL O)) a = s_inv GL a.
Proof.
  intros H. pose proof (invert_nonzero _ (group_laws (OL O)) a H) as H1.
  pose proof (invert_nonzero _ GL a H) as H2.
  assert (E : Ok (E := Error) (s_inv (group_laws (OL O)) a) = Ok (s_inv GL a)) by exact (eq_trans (eq_sym H1) H2).
  now injection E.
Qed.
Lemma oracle_tweak (O : oracle S) info :
  compute_tweak (WO O) k info =
  if 65535 <? len (info_or_default info) then Err EInfo
  else if is_zero_scalar G (tweak (info_hash O info)) then Err EProtocol else Ok (tweak (info_hash O info)).
Proof.
  destruct (65535 <? len (info_or_default info)) eqn:E.
  - apply N.ltb_lt in E. now apply compute_tweak_long.
  - apply N.ltb_ge in E. exact (compute_tweak_ok (OL O) k info E).
Qed.
Lemma oracle_no_tweak (O : oracle S) info e : compute_tweak (WO O) k info = Err e ->
  (forall b st, poprf_server_blind_evaluate (WO O) (mkPoprfServer (CS := WO O) k pk) R b info st = (Err e, st)) /\
  (forall bs st, poprf_server_batch_blind_evaluate (WO O) (mkPoprfServer (CS := WO O) k pk) R bs info st = (Err e, st)).
Proof.
  intros H. split; intros b st.
  - unfold poprf_server_blind_evaluate, poprf_server_batch_blind_evaluate_prepare, rbind, rret. cbn [poprf_sk]. now rewrite H.
  - unfold poprf_server_batch_blind_evaluate, poprf_server_batch_blind_evaluate_prepare, rbind, rret. cbn [poprf_sk]. now rewrite H.
Qed.

(** The functions the simulator is given. *)
Definition poprf_ev (m : S) (P : elem CS) : elem CS := s_inv GL (tweak m) [*] P.
Definition poprf_evaluate (m : S) (input : bytes) (info : option bytes) : res bytes :=
  let CS' := with_oracle CS (fun _ _ => m) in
  poprf_server_evaluate CS' (mkPoprfServer (CS := CS') k pk) input info.

Lemma poprf_evaluate_answer (O : oracle S) input info :
  poprf_server_evaluate (WO O) (mkPoprfServer (CS := WO O) k pk) input info
  = poprf_evaluate (info_hash O info) input info.
Proof.
  unfold poprf_evaluate. set (O' := fun _ _ => info_hash O info).
  refine (eq_trans (poprf_evaluate_cases (OL O) k pk input info) (eq_trans _ (eq_sym (poprf_evaluate_cases (OL O') k pk input info)))).
  change (tweaked_scalar (CS := WO O') (OL O') k (info_or_default info)) with (tweak (info_hash O info)).
  change (tweaked_scalar (CS := WO O) (OL O) k (info_or_default info)) with (tweak (info_hash O info)).
  change (is_identity_elem (CSGroup (WO O)) (H2G (OL O) modePOPRF input)) with (is_identity_elem G (H2G L modePOPRF input)).
  change (is_identity_elem (CSGroup (WO O')) (H2G (OL O') modePOPRF input)) with (is_identity_elem G (H2G L modePOPRF input)).
  change (is_zero_scalar (CSGroup (WO O))) with (is_zero_scalar G).
  change (is_zero_scalar (CSGroup (WO O'))) with (is_zero_scalar G).
  destruct (is_identity_elem G _); [reflexivity|]. destruct (65535 <? len (info_or_default info)); [reflexivity|].
  destruct (is_zero_scalar G _) eqn:Ez; [reflexivity|]. destruct (65535 <? len input); [reflexivity|].
  apply (is_zero_false GL) in Ez.
  pose proof (oracle_inv O _ Ez) as E1. pose proof (oracle_inv O' _ Ez) as E2.
  pose proof (eq_trans E1 (eq_sym E2)) as E3. rewrite E3. reflexivity.
Qed.

Lemma poprf_batch_result_oracle (O : oracle S) (t : S) es r : t <> zero_scalar G ->
  let res := poprf_batch_result (OL O) t (map (mkBlinded (CS := WO O)) es) r in
  let C := map (fun P => s_inv GL t [*] P) es in
  (map evaluation_value (poprf_batch_messages res), Some (proof_scalars (poprf_batch_proof res)))
  = (C, Some (the_proof modePOPRF O t C es r)).
Proof.
  intros Ht res C. unfold res, poprf_batch_result. cbn [poprf_batch_messages poprf_batch_proof].
  assert (E : map blinded_value (map (mkBlinded (CS := WO O)) es) = es) by (rewrite map_map; apply map_id).
  rewrite E, (oracle_inv O t Ht). f_equal.
  - rewrite map_map. apply map_id.
  - f_equal. exact (proof_with_oracle modePOPRF O t C es r).
Qed.

(** A call to evaluate [es], alone or as a batch. *)
Definition poprf_asks (c : poprf_call CS) (es : list (elem CS)) (info : option bytes) : Prop :=
  match c with
  | PBlindEvaluate e i => es = [e] /\ i = info
  | PBatch es' i => es = es' /\ i = info
  | PEvaluate _ _ => False
  end.

Lemma poprf_answer_info O c es info st : poprf_asks c es info -> (65535 <? len (info_or_default info)) = true ->
  poprf_answers k R O c st = (Evaluated (Err EInfo), st).
Proof.
  intros Hc Hl. pose proof (oracle_tweak O info) as T. rewrite Hl in T. pose proof (oracle_no_tweak O info _ T) as [T1 T2].
  destruct c as [e i|es' i|]; [| |contradiction]; destruct Hc as [-> ->]; cbn [poprf_answers].
  - rewrite T1. reflexivity.
  - rewrite T2. reflexivity.
Qed.
Lemma poprf_answer_protocol O c es info st : poprf_asks c es info -> (65535 <? len (info_or_default info)) = false ->
  is_zero_scalar G (tweak (info_hash O info)) = true ->
  poprf_answers k R O c st = (Evaluated (Err EProtocol), st).
Proof.
  intros Hc Hl Hz. pose proof (oracle_tweak O info) as T. rewrite Hl, Hz in T. pose proof (oracle_no_tweak O info _ T) as [T1 T2].
  destruct c as [e i|es' i|]; [| |contradiction]; destruct Hc as [-> ->]; cbn [poprf_answers].
  - rewrite T1. reflexivity.
  - rewrite T2. reflexivity.
Qed.
Lemma poprf_answer_long O c es info st : poprf_asks c es info -> (65535 <? len (info_or_default info)) = false ->
  is_zero_scalar G (tweak (info_hash O info)) = false -> (65535 <? len es) = true ->
  poprf_answers k R O c st = (Evaluated Panic, st).
Proof.
  intros Hc Hl Hz Hb. apply N.ltb_ge in Hl. apply (is_zero_false GL) in Hz.
  destruct c as [e i|es' i|]; [| |contradiction]; destruct Hc as [-> ->]; cbn [poprf_answers].
  - discriminate Hb.
  - apply N.ltb_lt in Hb.
    rewrite (poprf_batch_too_long (OL O)) by (exact Hl || exact Hz || (rewrite len_map; exact Hb)). reflexivity.
Qed.
Lemma poprf_answer_ok O c es info r rs : poprf_asks c es info -> (65535 <? len (info_or_default info)) = false ->
  is_zero_scalar G (tweak (info_hash O info)) = false -> (65535 <? len es) = false -> r <> zero_scalar G ->
  let m := info_hash O info in let C := map (poprf_ev m) es in
  poprf_answers k R O c (draw (r :: rs)) = (Evaluated (Ok (C, Some (the_proof modePOPRF O (tweak m) C es r))), draw rs).
Proof.
  intros Hc Hl Hz Hb Hr m C. apply N.ltb_ge in Hl. apply (is_zero_false GL) in Hz.
  destruct c as [e i|es' i|]; [| |contradiction]; destruct Hc as [-> ->]; cbn [poprf_answers].
  - rewrite (poprf_single_ok (OL O)) by (exact Hl || exact Hz).
    change (random_scalar (CSGroup (WO O)) R) with (random_scalar G R). rewrite draws by exact Hr.
    pose proof (poprf_batch_result_oracle O _ [e] r Hz) as F.
    exact (f_equal (fun X : list (elem CS) * option (S * S) => (Evaluated (E := elem CS) (S := S) (Ok X), draw rs)) F).
  - apply N.ltb_ge in Hb.
    rewrite (poprf_batch_ok (OL O)) by (exact Hl || exact Hz || (rewrite len_map; exact Hb)).
    change (random_scalar (CSGroup (WO O)) R) with (random_scalar G R). rewrite draws by exact Hr.
    pose proof (poprf_batch_result_oracle O _ es' r Hz) as F.
    exact (f_equal (fun X : list (elem CS) * option (S * S) => (Evaluated (E := elem CS) (S := S) (Ok X), draw rs)) F).
Qed.

Definition info_point (info : option bytes) : bytes := str "Info" ++ lv (info_or_default info).

Fixpoint poprf_tree (D : distinguisher S (poprf_call CS) (reply CS)) : ztree (CS := CS) :=
  match D with
  | DHash m t next => ZAsk m t (fun a => poprf_tree (next a))
  | DCall c next =>
    let proven es info := ZAsk (info_point info) (h2s_tag CS modePOPRF) (fun m =>
      let again r := poprf_tree (next (Evaluated r)) in
      if 65535 <? len (info_or_default info) then again (Err EInfo)
      else if is_zero_scalar G (tweak m) then again (Err EProtocol)
      else if 65535 <? len es then again Panic
      else let C := map (poprf_ev m) es in
      prove_tree modePOPRF (tweak m) C es (fun p => poprf_tree (next (Evaluated (Ok (C, Some p)))))) in
    match c with
    | PBlindEvaluate e info => proven [e] info
    | PBatch es info => proven es info
    | PEvaluate input info => ZAsk (info_point info) (h2s_tag CS modePOPRF) (fun m =>
        poprf_tree (next (Output (poprf_evaluate m input info))))
    end
  | DSay b => ZOut b
  end.

Lemma poprf_tree_steps D : forall a n, spends poprf_proofs poprf_hashed a n D -> steps a n (poprf_tree D).
Proof.
  induction D as [m t next IH|c next IH|b]; intros a n H; cbn [poprf_tree]; [| |exact I].
  - destruct H as [Ha H]. destruct a as [|a]; [lia|]. simpl. intros x. apply IH. specialize (H x).
    replace a with (Datatypes.S a - 1)%nat by lia. exact H.
  - destruct H as (Ha & Hn & H).
    assert (P : forall es info, poprf_proofs c = 1%nat -> poprf_hashed c = (1 + length es)%nat ->
      steps a n (ZAsk (info_point info) (h2s_tag CS modePOPRF) (fun m =>
        let again r := poprf_tree (next (Evaluated r)) in
        if 65535 <? len (info_or_default info) then again (Err EInfo)
        else if is_zero_scalar G (tweak m) then again (Err EProtocol)
        else if 65535 <? len es then again Panic
        else let C := map (poprf_ev m) es in
        prove_tree modePOPRF (tweak m) C es (fun p => poprf_tree (next (Evaluated (Ok (C, Some p)))))))).
    { intros es info Hp Hh. rewrite Hp, Hh in *. destruct a as [|a]; [lia|]. cbn [steps]. intros m. cbv zeta.
      assert (Hm : forall r, steps a n (poprf_tree (next r))).
      { intros r. apply IH. apply (spends_mono _ _ _ (Datatypes.S a - (1 + length es)) (n - 1)%nat); [lia|lia|apply H]. }
      destruct (65535 <? len (info_or_default info)); [apply Hm|].
      destruct (is_zero_scalar G (tweak m)); [apply Hm|]. destruct (65535 <? len es); [apply Hm|].
      replace a with (length es + (a - length es))%nat by lia. replace n with (1 + (n - 1))%nat by lia.
      apply prove_steps; [apply map_length|]. intros p. apply IH.
      replace (a - length es)%nat with (Datatypes.S a - (1 + length es))%nat by lia. apply H. }
    destruct c as [e info|es info|i info].
    + apply (P [e]); reflexivity.
    + apply P; reflexivity.
    + cbn [poprf_hashed poprf_proofs] in *. destruct a as [|a]; [lia|]. cbn [steps]. intros m. apply IH.
      specialize (H (Output (poprf_evaluate m i info))). replace (Datatypes.S a - 1)%nat with a in H by lia.
      now rewrite Nat.sub_0_r in H.
Qed.

Add Ring Szk : (F_R (scalar_field G GL)).
Lemma tweak_gen m : (m [*] A) [+] pk = tweak m [*] A.
Proof. unfold tweak. rewrite (add_mul GL). f_equal. ring. Qed.
Lemma tweak_identity m : is_identity_elem G (tweak m [*] A) = is_zero_scalar G (tweak m).
Proof.
  apply Bool.eq_iff_eq_true. rewrite (is_zero_spec G GL). unfold is_identity_elem. rewrite (elem_ct_eq_spec G GL).
  split; intros H.
  - symmetry in H. apply (mul_eq_id GL) in H as [H|H]; auto. now apply (base_not_identity G GL) in H.
  - rewrite H. symmetry. apply (elem_mul_zero G GL).
Qed.

Lemma poprf_tree_simc D : forall n O,
  simc modePOPRF scalars n O (poprf_tree D) = poprf_simulated L scalars pk poprf_ev poprf_evaluate n O D.
Proof.
  induction D as [m t next IH|c next IH|b]; intros n O; [apply IH| |reflexivity].
  assert (P : forall es info, simc modePOPRF scalars n O (ZAsk (info_point info) (h2s_tag CS modePOPRF) (fun m =>
        let again r := poprf_tree (next (Evaluated r)) in
        if 65535 <? len (info_or_default info) then again (Err EInfo)
        else if is_zero_scalar G (tweak m) then again (Err EProtocol)
        else if 65535 <? len es then again Panic
        else let C := map (poprf_ev m) es in
        prove_tree modePOPRF (tweak m) C es (fun p => poprf_tree (next (Evaluated (Ok (C, Some p)))))))
     = let m := info_hash O info in
      let B := elem_add G (elem_mul G (base_elem G) m) pk in
      let again r := poprf_simulated L scalars pk poprf_ev poprf_evaluate n O (next (Evaluated r)) in
      if 65535 <? len (info_or_default info) then again (Err EInfo)
      else if is_identity_elem G B then again (Err EProtocol)
      else if 65535 <? len es then again Panic
      else match n with
      | Datatypes.O => 0%nat
      | Datatypes.S n => made_up L scalars modePOPRF B (map (poprf_ev m) es) es O (fun p O' =>
          poprf_simulated L scalars pk poprf_ev poprf_evaluate n O' (next (Evaluated (Ok (map (poprf_ev m) es, Some p)))))
      end).
  { intros es info. cbn [simc]. change (O (info_point info) (h2s_tag CS modePOPRF)) with (info_hash O info).
    cbv zeta. set (m := info_hash O info). rewrite tweak_gen, tweak_identity.
    destruct (65535 <? len (info_or_default info)); [apply IH|].
    destruct (is_zero_scalar G (tweak m)) eqn:Ez; [apply IH|]. destruct (65535 <? len es); [apply IH|].
    destruct n as [|n].
    - unfold prove_tree. rewrite zask_simc. reflexivity.
    - rewrite prove_simc.
      + unfold made_up. apply sum_ext. intros c' _. apply sum_ext. intros s _. apply IH.
      + apply (is_zero_false GL) in Ez. rewrite map_map. rewrite <- (map_id es) at 1. apply map_ext. intros P.
        unfold poprf_ev. symmetry. now apply (mul_inv_cancel' GL). }
  destruct c as [e info|es info|i info]; cbn [poprf_tree poprf_simulated].
  - exact (P [e] info).
  - exact (P es info).
  - apply IH.
Qed.

Lemma poprf_tree_real D : forall a n O, spends poprf_proofs poprf_hashed a n D ->
  real modePOPRF scalars n O (poprf_tree D) = count (fun rs => says O (poprf_answers k R O) D (draw rs)) (sequences n nonces).
Proof.
  induction D as [m t next IH|c next IH|b]; intros a n O H.
  - destruct H as [Ha H]. cbn [poprf_tree real says]. exact (IH _ _ _ _ (H (O m t))).
  - destruct H as (Ha & Hn & H).
    assert (P : forall es info, poprf_asks c es info -> poprf_proofs c = 1%nat ->
      real modePOPRF scalars n O (ZAsk (info_point info) (h2s_tag CS modePOPRF) (fun m =>
        let again r := poprf_tree (next (Evaluated r)) in
        if 65535 <? len (info_or_default info) then again (Err EInfo)
        else if is_zero_scalar G (tweak m) then again (Err EProtocol)
        else if 65535 <? len es then again Panic
        else let C := map (poprf_ev m) es in
        prove_tree modePOPRF (tweak m) C es (fun p => poprf_tree (next (Evaluated (Ok (C, Some p)))))))
      = count (fun rs => says O (poprf_answers k R O) (DCall c next) (draw rs)) (sequences n nonces)).
    { intros es info Hc Hp. cbn [real]. change (O (info_point info) (h2s_tag CS modePOPRF)) with (info_hash O info). cbv zeta.
      assert (Hsame : forall x, (forall rs, poprf_answers k R O c (draw rs) = (x, draw rs)) ->
        real modePOPRF scalars n O (poprf_tree (next x))
        = count (fun rs => says O (poprf_answers k R O) (DCall c next) (draw rs)) (sequences n nonces)).
      { intros x Hx. rewrite (IH _ a n).
        - apply count_ext. intros rs _. cbn [says]. now rewrite Hx.
        - apply (spends_mono _ _ _ (a - poprf_hashed c)%nat (n - poprf_proofs c)%nat); [lia|lia|]. apply H. }
      destruct (65535 <? len (info_or_default info)) eqn:El.
      { apply Hsame. intros rs. now apply (poprf_answer_info O c es info). }
      destruct (is_zero_scalar G (tweak (info_hash O info))) eqn:Ez.
      { apply Hsame. intros rs. now apply (poprf_answer_protocol O c es info). }
      destruct (65535 <? len es) eqn:Eb.
      { apply Hsame. intros rs. now apply (poprf_answer_long O c es info). }
      destruct n as [|n]; [lia|]. rewrite prove_real. cbn [sequences]. rewrite count_flat_map.
      apply sum_ext. intros r Hin. rewrite count_map. rewrite (IH _ (a - poprf_hashed c)%nat).
      - apply count_ext. intros rs _. cbn [says].
        rewrite (poprf_answer_ok O c es info r rs Hc El Ez Eb (nonces_nonzero r Hin)). reflexivity.
      - match goal with |- spends _ _ _ _ (next ?x) => specialize (H x) end.
        rewrite Hp in H. replace (Datatypes.S n - 1)%nat with n in H by lia. exact H. }
    destruct c as [e info|es info|i info].
    + exact (P [e] info (conj eq_refl eq_refl) eq_refl).
    + exact (P es info (conj eq_refl eq_refl) eq_refl).
    + cbn [poprf_tree real]. change (O (info_point info) (h2s_tag CS modePOPRF)) with (info_hash O info).
      specialize (H (Output (poprf_evaluate (info_hash O info) i info))).
      cbn [poprf_proofs] in H. rewrite Nat.sub_0_r in H. rewrite (IH _ _ _ _ H). apply count_ext. intros rs _.
      cbn [says poprf_answers]. now rewrite poprf_evaluate_answer.
  - cbn [poprf_tree real says]. destruct b; [now rewrite count_all, sequences_length|now rewrite count_none].
Qed.

Lemma to_fractions a n T mode (f : oracle S -> nat) (g : oracle S -> nat) : steps a n T ->
  (forall O, real mode scalars n O T = f O) -> (forall O, simc mode scalars n O T = g O) ->
  exists needed, forall points O, NoDup points -> incl needed points ->
  let all := oracles scalars points O in
  differ_at_most (n * (a + n)) nq (sum f all) (length all * nq ^ n) (sum g all) (length all * (nq * q) ^ n).
Proof.
  intros Hs Hf Hg. destruct (zk_bound L mode scalars all_scalars nodup_scalars a n T Hs) as [needed HB].
  exists needed. intros points O Hp Hi all. specialize (HB points O Hp Hi). cbv zeta in HB. fold all in HB.
  rewrite (sum_ext (fun O => real mode scalars n O T) f) in HB by (intros; apply Hf).
  rewrite (sum_ext (fun O => simc mode scalars n O T) g) in HB by (intros; apply Hg).
  destruct HB as [H1 H2]. unfold differ_at_most. rewrite Nat.pow_mul_l in *.
  set (x := sum f all) in *. set (y := sum g all) in *. set (l := length all) in *. clearbody x y l.
  pose proof (Nat.mul_le_mono_l _ _ (l * nq ^ n) H1) as K1. pose proof (Nat.mul_le_mono_l _ _ (l * nq ^ n) H2) as K2.
  clear H1 H2. set (u := (nq ^ n)%nat) in *. set (v := (q ^ n)%nat) in *. clearbody u v.
  split.
  - replace (nq * (x * (l * (u * v))))%nat with (l * u * (nq * (v * x)))%nat by ring.
    etransitivity; [exact K1|]. apply Nat.eq_le_incl. ring.
  - replace (nq * (y * (l * u)))%nat with (l * u * (nq * y))%nat by ring.
    etransitivity; [exact K2|]. apply Nat.eq_le_incl. ring.
Qed.
End Zk.

(** ** C55 *)

(** An RNG, and states in which it draws the given scalars. *)
Definition yields (G : Group) (R : Rng) (draw : list (Scalar G) -> rng_state R) : Prop :=
  forall r rs, r <> zero_scalar G -> random_scalar G R (draw (r :: rs)) = (Ok r, draw rs).

(** A server draws a nonce for each proof.  Over all nonces and all hash
    functions, a program says yes to the server about as often as, over all
    made-up pairs and all hash functions, to the simulator: as fractions the
    two differ by at most n (Q + n) / (q - 1), where q - 1 is the number of
    nonces. *)
Theorem C55_voprf_zero_knowledge :
  forall (CS : CipherSuite) (L : SuiteLaws CS) (scalars : list (scalar CS)), enumerates scalars ->
  forall (R : Rng) (draw : list (scalar CS) -> rng_state R), yields (CSGroup CS) R draw ->
  forall (k : scalar CS) (Q n : nat) (D : distinguisher (scalar CS) (voprf_call CS) (reply CS)),
  spends voprf_proofs voprf_hashed Q n D ->
  let G := CSGroup CS in let pk := elem_mul G (base_elem G) k in
  let q := length scalars in let q1 := length (nonces scalars) in
  exists needed, forall points O, NoDup points -> incl needed points ->
  let all := oracles scalars points O in
  let real := sum (fun O => count (fun rs => says O (voprf_answers k R O) D (draw rs)) (sequences n (nonces scalars))) all in
  let simulated := sum (fun O =>
    voprf_simulated L scalars pk (fun P => elem_mul G P k) (voprf_server_evaluate CS (mkVoprfServer k pk)) n O D) all in
  differ_at_most (n * (Q + n)) q1 real (length all * q1 ^ n) simulated (length all * (q1 * q) ^ n).
Proof.
  intros CS L scalars [Hnd Hall] R draw Hd k Q n D HD G pk q q1.
  apply (to_fractions L scalars Hall Hnd Q n (voprf_tree k D) modeVOPRF).
  - now apply voprf_tree_steps.
  - intros O. apply (voprf_tree_real L scalars k R draw Hd D Q n O HD).
  - intros O. apply (voprf_tree_simc L scalars k D n O).
Qed.

Theorem C55_poprf_zero_knowledge :
  forall (CS : CipherSuite) (L : SuiteLaws CS) (scalars : list (scalar CS)), enumerates scalars ->
  forall (R : Rng) (draw : list (scalar CS) -> rng_state R), yields (CSGroup CS) R draw ->
  forall (k : scalar CS) (Q n : nat) (D : distinguisher (scalar CS) (poprf_call CS) (reply CS)),
  spends poprf_proofs poprf_hashed Q n D ->
  let G := CSGroup CS in let pk := elem_mul G (base_elem G) k in
  let q := length scalars in let q1 := length (nonces scalars) in
  exists needed, forall points O, NoDup points -> incl needed points ->
  let all := oracles scalars points O in
  let real := sum (fun O => count (fun rs => says O (poprf_answers k R O) D (draw rs)) (sequences n (nonces scalars))) all in
  let simulated := sum (fun O =>
    poprf_simulated L scalars pk
      (fun m P => elem_mul G P (s_inv (group_laws L) (scalar_add G k m)))      (* the inverse of the tweaked key *)
      (fun m input info => let CS' := with_oracle CS (fun _ _ => m) in         (* the server, when the info is hashed to m *)
         poprf_server_evaluate CS' (mkPoprfServer (CS := CS') k pk) input info) n O D) all in
  differ_at_most (n * (Q + n)) q1 real (length all * q1 ^ n) simulated (length all * (q1 * q) ^ n).
Proof.
  intros CS L scalars [Hnd Hall] R draw Hd k Q n D HD G pk q q1.
  apply (to_fractions L scalars Hall Hnd Q n (poprf_tree L k D) modePOPRF).
  - now apply poprf_tree_steps.
  - intros O. apply (poprf_tree_real L scalars k R draw Hd D Q n O HD).
  - intros O. apply (poprf_tree_simc L scalars k D n O).
Qed.

(** The simulator has q (q - 1) pairs to choose from for each proof, so the
    fractions above are out of the number of all its runs. *)
Theorem C55_choices :
  forall (CS : CipherSuite) (L : SuiteLaws CS) (scalars : list (scalar CS)), enumerates scalars ->
  let q := length scalars in let q1 := length (nonces scalars) in
  (forall B, sum (fun c => length (valid_responses scalars B c)) scalars = (q1 * q)%nat) /\
  (q1 + 1 = q)%nat.
Proof.
  intros CS L scalars [Hnd Hall] q q1. split.
  - intros B. rewrite (sum_ext _ (fun _ => q1)); [rewrite sum_const; unfold q; lia|].
    intros c _. destruct (elem_generated _ (group_laws L) B) as [t ->]. now apply (valid_responses_number L).
  - unfold q, q1, nonces. set (G := CSGroup CS).
    assert (Hp : Permutation.Permutation scalars (zero_scalar G :: filter (fun r => negb (is_zero_scalar G r)) scalars)).
    { apply Permutation.NoDup_Permutation; auto.
      - constructor; [|now apply NoDup_filter]. intros H. apply filter_In in H as [_ H].
        apply Bool.negb_true_iff in H. apply (is_zero_false (group_laws L)) in H. now apply H.
      - intros x. split; [|intros _; apply Hall]. intros _. destruct (is_zero_scalar G x) eqn:E.
        + left. symmetry. now apply (is_zero_spec _ (group_laws L)).
        + right. apply filter_In. rewrite E. auto. }
    apply Permutation.Permutation_length in Hp. cbn [length] in Hp. rewrite Nat.add_1_r. symmetry. exact Hp.
Qed.

(** The suites of the crate have such an RNG: one that reads a tape. *)
Theorem C55_tapes :
  (forall (C : Curve), CurveLaws C -> forall fuel,
     yields (CurveGroup C (S fuel)) PropUniform.TapeRng (fun rs => concat (map (PropUniform.enc C) rs))) /\
  (forall (D : Dalek) fuel,
     yields (RistrettoGroup D (S fuel)) PropUniform.TapeRng (fun rs => concat (map (fun r => le_bytes (fval r) 64) rs))).
Proof.
  split.
  - intros C CL fuel r rs Hr. cbn [map concat random_scalar CurveGroup ec_random_scalar field_random].
    rewrite (PropUniform.fill_cons C _ _ (PropUniform.enc_len C r)).
    assert (E : from_repr C (PropUniform.enc C r) = Some r).
    { unfold from_repr. rewrite (PropUniform.enc_val C CL r). pose proof (n_fval CL r) as Hn.
      rewrite (proj2 (Z.ltb_lt _ _)) by lia. apply (f_equal (Some (A := Fq (order C)))). apply Fq_eq. cbn [fval of_Z]. now apply Z.mod_small. }
    rewrite E. now rewrite (proj2 (feqb_zero r) Hr).
  - intros D fuel r rs Hr. cbn [map concat random_scalar RistrettoGroup ristretto_random_scalar].
    unfold dalek_scalar_random.
    assert (Hf : fill_bytes PropUniform.TapeRng (le_bytes (fval r) 64 ++ concat (map (fun r => le_bytes (fval r) 64) rs)) 64
      = (le_bytes (fval r) 64, concat (map (fun r => le_bytes (fval r) 64) rs))).
    { pose proof (le_bytes_length (fval r) 64) as Hl. set (b := le_bytes (fval r) 64) in *. set (rest := concat _). clearbody b rest.
      cbn [fill_bytes PropUniform.TapeRng]. rewrite firstn_app, skipn_app, app_length, <- Hl, Nat.sub_diag, firstn_all, skipn_all.
      replace (length b - (length b + length rest))%nat with 0%nat by lia. simpl. now rewrite !app_nil_r. }
    rewrite Hf.
    assert (E : from_bytes_mod_order_wide (le_bytes (fval r) 64) = r).
    { apply Fq_eq. unfold from_bytes_mod_order_wide. cbn [fval of_Z]. pose proof (ell_fval r). pose proof ell_32.
      assert (Hv : le_Z (le_bytes (fval r) 64) = fval r).
      { unfold le_Z, le_bytes. rewrite rev_involutive. apply be_Z_to_bytes.
        assert (256 ^ Z.of_nat 32 <= 256 ^ Z.of_nat 64)%Z by (apply Z.pow_le_mono_r; lia). lia. }
      rewrite Hv. now apply Z.mod_small. }
    rewrite E, (proj2 (feqb_f0 r) Hr). reflexivity.
Qed.

Lemma fsample_first q w R fuel st b st' s : fill_bytes R st w = (b, st') -> fdes q w b = Ok s -> fsample q w R (S fuel) st = (Ok s, st').
Proof. intros E1 E2. cbn [fsample]. unfold fsample. now rewrite E1, E2. Qed.

(** Cases: a program that asks for a batch, hashes the string a verifier
    hashes and compares, for the suite with 251 scalars. *)
Definition ex_tape (rs : list (scalar TS)) : bytes := concat (map (serialize_scalar (CSGroup TS)) rs).
Lemma ex_tape_yields : yields (CSGroup TS) PropUniform.TapeRng ex_tape.
Proof.
  intros r rs Hr. unfold ex_tape. cbn [map concat].
  pose proof (serialize_scalar_len _ (group_laws TL) r) as Hl.
  pose proof (deserialize_serialize_scalar _ (group_laws TL) r Hr) as Hs.
  set (rest := concat _). 
  assert (Hf : fill_bytes PropUniform.TapeRng (serialize_scalar (CSGroup TS) r ++ rest) (N.to_nat (scalar_len (CSGroup TS)))
    = (serialize_scalar (CSGroup TS) r, rest)).
  { set (b := serialize_scalar (CSGroup TS) r) in *. clearbody b rest. unfold len in Hl.
    rewrite <- Hl, Nat2N.id. cbn [fill_bytes PropUniform.TapeRng].
    rewrite firstn_app, skipn_app, app_length, Nat.sub_diag, firstn_all, skipn_all.
    replace (length b - (length b + length rest))%nat with 0%nat by lia. simpl. now rewrite !app_nil_r. }
  exact (fsample_first 251 1 PropUniform.TapeRng 4095 _ _ _ r Hf Hs).
Qed.

(* a program that gets a proof and accepts when its response is small *)
Definition ex_small {Call} (c : Call) : distinguisher (scalar TS) Call (reply TS) :=
  DHash (str "hello") (str "tag") (fun _ => DCall c (fun r =>
    match r with
    | Evaluated (Ok (_, Some (c, s))) => DSay (fval s <? 100)%Z
    | _ => DSay false
    end)).
Definition ex_first : oracle (scalar TS) := fun m t => ex_scalar (Z.of_nat (length m)).

Example C55_case :
  enumerates ex_scalars /\ yields (CSGroup TS) PropUniform.TapeRng ex_tape /\
  spends voprf_proofs voprf_hashed 3 1 (ex_small (VBatch [ex_elem 3; ex_elem 4])) /\
  spends poprf_proofs poprf_hashed 4 1 (ex_small (PBatch [ex_elem 3; ex_elem 4] (Some ex_info))) /\
  count (fun rs => says ex_first (voprf_answers (ex_scalar 42) PropUniform.TapeRng ex_first)
     (ex_small (VBatch [ex_elem 3; ex_elem 4])) (ex_tape rs)) (sequences 1 (nonces ex_scalars)) = 100%nat /\
  (* some of the simulator's runs: pairs of the first six scalars *)
  N.of_nat (voprf_simulated TL (firstn 6 ex_scalars) (elem_mul (CSGroup TS) (base_elem (CSGroup TS)) (ex_scalar 42))
    (fun P => elem_mul (CSGroup TS) P (ex_scalar 42)) (fun _ => Diverge) 1 ex_first
    (ex_small (VBatch [ex_elem 3; ex_elem 4]))) = 35.
Proof.
  split; [exact ex_scalars_all|]. split; [exact ex_tape_yields|].
  split. { split; [lia|]. intros _. split; [cbn; lia|]. split; [cbn; lia|]. intros [[[l [[c s]|]]| | |]|]; exact I. }
  split. { split; [lia|]. intros _. split; [cbn; lia|]. split; [cbn; lia|]. intros [[[l [[c s]|]]| | |]|]; exact I. }
  split; vm_compute; reflexivity.
Qed.
