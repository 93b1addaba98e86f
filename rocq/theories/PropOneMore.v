(** * C63: [m] evaluations give no more than [m] outputs.

    A client that ends with the outputs of more inputs than it had elements
    evaluated has, in the strings it hashed, the evaluated elements of more
    inputs than it had elements evaluated: it solves the one-more
    Diffie-Hellman problem.  The output hash is a random function. *)
From Verif Require Import Laws Spec BytesFacts GroupFacts CommonFacts OprfFacts VoprfFacts PoprfFacts PropEncoding
  PropCorrectness Oracle Guess PropUnpredict Zq.
From Coq Require Import Lia.
Open Scope N_scope.

(** ** What a client does with one key *)

(** A program that asks for elements to be multiplied by a key it does not
    know.  It gets nothing else. *)
Inductive solver (E Out : Type) : Type :=
| Multiply (e : E) (next : E -> solver E Out)
| Solved (out : Out).
Arguments Multiply {E Out} _ _.
Arguments Solved {E Out} _.

(** What it ends with, and how often it asked. *)
Fixpoint solve {E Out} (times_key : E -> E) (P : solver E Out) : Out * nat :=
  match P with
  | Multiply e next => let '(out, n) := solve times_key (next (times_key e)) in (out, Datatypes.S n)
  | Solved out => (out, 0%nat)
  end.

(** The number of different strings in a list. *)
Definition distinct (l : list bytes) : nat := length (nodup (list_eq_dec Byte.byte_eq_dec) l).

(** Reading [lv x] off the front of a string. *)
Definition read_lv (s : bytes) : list (bytes * bytes) :=
  match s with
  | a :: b :: r =>
      let n := N.to_nat (256 * Byte.to_N a + Byte.to_N b) in
      if Nat.leb n (length r) then [(firstn n r, skipn n r)] else []
  | _ => []
  end.

(** The input and the element in a string that the output hash is called on,
    if it has the form of one: [lv input ++ lv element ++ "Finalize"]. *)
Definition candidate {CS : CipherSuite} (s : bytes) : list (bytes * elem CS) :=
  flat_map (fun '(input, r) =>
    flat_map (fun '(e, r) =>
      if same_bytes r (str "Finalize") then
        match deserialize_elem (CSGroup CS) e with Ok e => [(input, e)] | _ => [] end
      else []) (read_lv r)) (read_lv s).

(** With an info string, the form is [lv input ++ lv info ++ lv element ++
    "Finalize"]; without one, as above.  Both are for the empty info string if
    it has no bytes. *)
Definition info_candidate {CS : CipherSuite} (info s : bytes) : list (bytes * elem CS) :=
  (if same_bytes info [] then candidate s else []) ++
  flat_map (fun '(input, r) =>
    flat_map (fun '(i, r) =>
      if same_bytes i info then
        flat_map (fun '(e, r) =>
          if same_bytes r (str "Finalize") then
            match deserialize_elem (CSGroup CS) e with Ok e => [(input, e)] | _ => [] end
          else []) (read_lv r)
      else []) (read_lv r)) (read_lv s).

(** ** Base mode: a solver of the one-more Diffie-Hellman problem *)

(** A client of the base mode: it hashes, and has elements evaluated. *)
Definition oprf_client (CS : CipherSuite) : Type := attack (elem CS) (elem CS) (list (bytes * bytes)).

(** The client as a caller of the server. *)
Fixpoint as_caller {CS : CipherSuite} (A : oprf_client CS) : attack (oprf_call CS) (reply_of (elem CS) (scalar CS)) (list (bytes * bytes)) :=
  match A with
  | Hash m next => Hash m (fun d => as_caller (next d))
  | Query e next => Query (OBlindEvaluate e) (fun r =>
      match r with
      | Evaluated (Ok ([e'], _)) => as_caller (next e')
      | _ => Name []
      end)
  | Name out => Name out
  end.

(** It ends with the right outputs of more inputs than it had elements
    evaluated. *)
Definition oprf_one_more {CS} (L : SuiteLaws CS) (k : scalar CS) (R : Rng) (st : rng_state R)
    (A : oprf_client CS) (O : oracle (output_digest CS)) : bool :=
  let '(claims, _, calls) := play (fun m => value (O m [])) (oprf_serves k R O) (as_caller A) st in
  Nat.ltb (length calls) (distinct (map fst (filter (fun '(input, out) =>
    returns_output (oprf_server_evaluate (with_digest CS O) (mkOprfServer (CS := with_digest CS O) k) input) out) claims))).

(** The solver made of the client and the output hash: it runs the client,
    has the elements multiplied, and keeps what the client hashes. *)
Fixpoint solver_of {CS : CipherSuite} (hash : bytes -> bytes) (A : oprf_client CS) (found : list (bytes * elem CS)) :
    solver (elem CS) (list (bytes * elem CS)) :=
  match A with
  | Hash m next => solver_of hash (next (hash m)) (found ++ candidate m)
  | Query e next => Multiply e (fun e' => solver_of hash (next e') found)
  | Name _ => Solved found
  end.

(** A solver ends with [H2G(input)] times the key for more inputs than it had
    elements multiplied. *)
Definition solves_one_more {CS} (L : SuiteLaws CS) (k : scalar CS) (P : solver (elem CS) (list (bytes * elem CS))) : bool :=
  let '(found, n) := solve (fun e => elem_mul (CSGroup CS) e k) P in
  Nat.ltb n (distinct (map fst (filter (fun '(input, e) =>
    elem_ct_eq (CSGroup CS) e (elem_mul (CSGroup CS) (H2G L modeOPRF input) k)) found))).

(** ** The other modes *)

(** The number of elements evaluated. *)
Definition voprf_evaluated {CS} (calls : list (voprf_call CS)) : nat :=
  fold_right (fun c n => match c with VBlindEvaluate _ => 1 | VBatch es => length es | VEvaluate _ => 0 end + n)%nat 0%nat calls.

(** More outputs, of inputs that the server has not evaluated in the clear,
    than evaluated elements. *)
Definition voprf_one_more {CS} (L : SuiteLaws CS) (k : scalar CS) (R : Rng) (st : rng_state R)
    (A : attack (voprf_call CS) (reply_of (elem CS) (scalar CS)) (list (bytes * bytes))) (O : oracle (output_digest CS)) : bool :=
  let '(claims, _, calls) := play (fun m => value (O m [])) (voprf_serves k R O) A st in
  Nat.ltb (voprf_evaluated calls) (distinct (map fst (filter (fun '(input, out) =>
    returns_output (voprf_server_evaluate (with_digest CS O)
      (mkVoprfServer (CS := with_digest CS O) k (elem_mul (CSGroup CS) (base_elem (CSGroup CS)) k)) input) out
    && negb (existsb (fun c => match c with VEvaluate i => same_bytes i input | _ => false end) calls)) claims))).

Definition voprf_solved {CS} (L : SuiteLaws CS) (k : scalar CS) (R : Rng) (st : rng_state R)
    (A : attack (voprf_call CS) (reply_of (elem CS) (scalar CS)) (list (bytes * bytes))) (O : oracle (output_digest CS)) : bool :=
  let '(_, hashed, calls) := play (fun m => value (O m [])) (voprf_serves k R O) A st in
  Nat.ltb (voprf_evaluated calls) (distinct (map fst (filter (fun '(input, e) =>
    elem_ct_eq (CSGroup CS) e (elem_mul (CSGroup CS) (H2G L modeVOPRF input) k)) (flat_map candidate hashed)))).

Definition bytes_of_info (info : option bytes) : bytes := match info with Some i => i | None => [] end.

(** The number of elements evaluated under an info string; no info string is
    the empty one. *)
Definition poprf_evaluated {CS} (info : bytes) (calls : list (poprf_call CS)) : nat :=
  fold_right (fun c n => match c with
    | PBlindEvaluate _ i => if same_bytes (bytes_of_info i) info then 1 else 0
    | PBatch es i => if same_bytes (bytes_of_info i) info then length es else 0
    | PEvaluate _ _ => 0 end + n)%nat 0%nat calls.

Definition poprf_one_more {CS} (L : SuiteLaws CS) (k : scalar CS) (R : Rng) (st : rng_state R)
    (A : attack (poprf_call CS) (reply_of (elem CS) (scalar CS)) (list (bytes * option bytes * bytes)))
    (O : oracle (output_digest CS)) (info : bytes) : bool :=
  let '(claims, _, calls) := play (fun m => value (O m [])) (poprf_serves k R O) A st in
  Nat.ltb (poprf_evaluated info calls) (distinct (map (fun c => fst (fst c)) (filter (fun '(input, i, out) =>
    same_bytes (bytes_of_info i) info &&
    returns_output (poprf_server_evaluate (with_digest CS O)
      (mkPoprfServer (CS := with_digest CS O) k (elem_mul (CSGroup CS) (base_elem (CSGroup CS)) k)) input i) out
    && negb (existsb (fun c => match c with PEvaluate x n => same_bytes x input && same_info n i | _ => false end) calls)) claims))).

Definition poprf_solved {CS} (L : SuiteLaws CS) (k : scalar CS) (R : Rng) (st : rng_state R)
    (A : attack (poprf_call CS) (reply_of (elem CS) (scalar CS)) (list (bytes * option bytes * bytes)))
    (O : oracle (output_digest CS)) (info : bytes) : bool :=
  let '(_, hashed, calls) := play (fun m => value (O m [])) (poprf_serves k R O) A st in
  Nat.ltb (poprf_evaluated info calls) (distinct (map fst (filter (fun '(input, e) =>
    elem_ct_eq (CSGroup CS) e
      (elem_mul (CSGroup CS) (H2G L modePOPRF input) (s_inv (group_laws L) (tweaked_scalar L k info))))
    (flat_map (info_candidate info) hashed)))).

(** The info strings of what the client names. *)
Definition named_infos {CS} (k : scalar CS) (R : Rng) (st : rng_state R)
    (A : attack (poprf_call CS) (reply_of (elem CS) (scalar CS)) (list (bytes * option bytes * bytes)))
    (O : oracle (output_digest CS)) : list bytes :=
  let '(claims, _, _) := play (fun m => value (O m [])) (poprf_serves k R O) A st in
  map (fun c => bytes_of_info (snd (fst c))) claims.

(** ** Proofs *)

Lemma chance_mono {S} (scalars : list S) n (f g : oracle S -> bool) :
  (forall O, g O = true -> f O = true) -> chance_at_most scalars n f -> chance_at_most scalars n g.
Proof.
  intros H (needed & Hf). exists needed. intros points O Hnd Hi. specialize (Hf points O Hnd Hi).
  etransitivity; [|exact Hf]. apply Nat.mul_le_mono_r. apply count_mono. auto.
Qed.

Lemma distinct_le (l l' : list bytes) : (forall x, In x l -> In x l') -> (distinct l <= distinct l')%nat.
Proof.
  intros H. apply NoDup_incl_length; [apply NoDup_nodup|]. intros x Hx. apply nodup_In in Hx. apply nodup_In. auto.
Qed.

Lemma to_N_of_N n : n < 256 -> Byte.to_N (match Byte.of_N n with Some b => b | None => x00 end) = n.
Proof.
  intros H. destruct (Byte.of_N n) eqn:E; [now apply Byte.to_of_N|]. apply Byte.of_N_None_iff in E. lia.
Qed.

Lemma read_lv_app (x r : bytes) : len x <= 65535 -> read_lv (lv x ++ r) = [(x, r)].
Proof.
  intros H. unfold lv. cbn [I2OSP app]. unfold read_lv. unfold len in H.
  rewrite !to_N_of_N by (apply N.mod_lt; lia).
  replace (N.to_nat _) with (length x).
  - rewrite app_length, (proj2 (Nat.leb_le _ _)) by lia. rewrite firstn_app, skipn_app, Nat.sub_diag, firstn_all, skipn_all.
    cbn [firstn skipn app]. now rewrite app_nil_r.
  - rewrite (N.mod_small (N.of_nat (length x) / 256)) by (apply N.div_lt_upper_bound; lia).
    rewrite <- N.div_mod by lia. lia.
Qed.

Section Proofs.
Context {CS : CipherSuite} (L : SuiteLaws CS).
Local Notation G := (CSGroup CS).
Local Notation GL := (group_laws L).

Lemma elem_string_short (e : elem CS) : len (serialize_elem G e) <= 65535.
Proof. rewrite (serialize_elem_len _ GL). apply (elem_len_bound _ GL). Qed.

Lemma candidate_ok (input : bytes) (e : elem CS) : len input <= 65535 -> e <> identity_elem G ->
  candidate (lv input ++ lv (serialize_elem G e) ++ str "Finalize") = [(input, e)].
Proof.
  intros Hi He. unfold candidate. rewrite read_lv_app by auto. cbn [flat_map].
  rewrite read_lv_app by apply elem_string_short. cbn [flat_map].
  rewrite (proj2 (same_bytes_spec _ _) eq_refl), (deserialize_serialize_elem _ GL e He). reflexivity.
Qed.

Lemma info_candidate_ok (input : bytes) (info : option bytes) (e : elem CS) :
  len input <= 65535 -> len (bytes_of_info info) <= 65535 -> e <> identity_elem G ->
  In (input, e) (info_candidate (bytes_of_info info)
    (lv input ++ (match info with Some i => lv i | None => [] end) ++ lv (serialize_elem G e) ++ str "Finalize")).
Proof.
  intros Hi Hn He. unfold info_candidate. apply in_app_iff. destruct info as [i|]; cbn [bytes_of_info] in *.
  - right. rewrite read_lv_app by auto. cbn [flat_map]. rewrite read_lv_app by auto. cbn [flat_map].
    rewrite (proj2 (same_bytes_spec _ _) eq_refl). rewrite read_lv_app by apply elem_string_short. cbn [flat_map].
    rewrite (proj2 (same_bytes_spec _ _) eq_refl), (deserialize_serialize_elem _ GL e He). now left.
  - left. cbn [app]. rewrite (proj2 (same_bytes_spec [] []) eq_refl), candidate_ok by auto. now left.
Qed.

Lemma elem_mul_nonidentity (e : elem CS) (s : scalar CS) : e <> identity_elem G -> s <> zero_scalar G ->
  elem_mul G e s <> identity_elem G.
Proof.
  intros He Hs E. apply He. rewrite <- (elem_mul_one _ GL e), <- (inv_r GL s Hs), <- (elem_mul_mul _ GL), E. apply (id_mul GL).
Qed.
End Proofs.

Section Oprf.
Context {CS : CipherSuite} (L : SuiteLaws CS) (k : scalar CS) (R : Rng).
Local Notation G := (CSGroup CS).

Lemma as_caller_names n (A : oprf_client CS) : names_at_most n A -> names_at_most n (as_caller A).
Proof.
  induction A as [m next IH|e next IH|out]; simpl; auto.
  intros H [[[[|e' [|]] p]| | |]|]; simpl; try lia. auto.
Qed.

Lemma caller_solves (O : oracle (output_digest CS)) (A : oprf_client CS) : forall st found claims hashed calls,
  play (fun m => value (O m [])) (oprf_serves k R O) (as_caller A) st = (claims, hashed, calls) ->
  solve (fun e => elem_mul G e k) (solver_of (fun m => value (O m [])) A found) =
    (found ++ flat_map candidate hashed, length calls) /\
  (forall c, In c calls -> exists e, c = OBlindEvaluate e).
Proof.
  induction A as [m next IH|e next IH|out]; intros st found claims hashed calls H; cbn [as_caller play solver_of solve] in *.
  - destruct (play _ _ (as_caller (next _)) st) as [[cl h] cs] eqn:E. injection H as <- <- <-.
    destruct (IH _ _ (found ++ candidate m) _ _ _ E) as [IH1 IH2]. split; [|exact IH2].
    rewrite IH1. cbn [flat_map]. now rewrite app_assoc.
  - cbn [oprf_serves] in H.
    change (evaluation_value _) with (elem_mul G e k) in H.
    destruct (play _ _ (as_caller (next (elem_mul G e k))) st) as [[cl h] cs] eqn:E. injection H as <- <- <-.
    destruct (IH _ _ found _ _ _ E) as [IH1 IH2]. rewrite IH1. split; [reflexivity|].
    intros c [<-|Hc]; eauto.
  - injection H as <- <- <-. split; [|intros c []]. cbn [flat_map length]. now rewrite app_nil_r.
Qed.
End Oprf.

(** For all but [n] in [256 ^ Nh] of the output hash functions, a client of the
    base mode that ends with the outputs of more inputs than it had elements
    evaluated gives a solver that ends with the evaluated elements of more
    inputs than it had elements multiplied. *)
Theorem C63_oprf_one_more :
  forall (CS : CipherSuite) (L : SuiteLaws CS) (k : scalar CS) (R : Rng) (st : rng_state R) (A : oprf_client CS) (n : nat),
  k <> zero_scalar (CSGroup CS) -> names_at_most n A ->
  N.of_nat (length (all_digests (output_size (CSHash CS)))) = 256 ^ output_size (CSHash CS) /\
  chance_at_most (all_digests (output_size (CSHash CS))) n (fun O =>
    oprf_one_more L k R st A O && negb (solves_one_more L k (solver_of (fun m => value (O m [])) A []))).
Proof.
  intros CS L k R st A n Hk Hn. split; [apply all_digests_number|].
  refine (chance_mono _ n (oprf_guessed L k R st (as_caller A)) _ _ (proj2 (C54_oprf_unpredictable CS L k R st (as_caller A) n (as_caller_names n A Hn)))).
  intros O Hw. apply andb_prop in Hw as [Hw Hs]. apply Bool.negb_true_iff in Hs.
  destruct (oprf_guessed L k R st (as_caller A) O) eqn:Hg; auto. exfalso.
  unfold oprf_one_more in Hw. unfold oprf_guessed in Hg. unfold solves_one_more in Hs.
  destruct (play _ _ (as_caller A) st) as [[claims hashed] calls] eqn:E.
  destruct (caller_solves k R O A st [] _ _ _ E) as [Es Hc]. rewrite Es in Hs. cbn [app] in Hs.
  apply Nat.ltb_lt in Hw. apply Nat.ltb_ge in Hs.
  enough (Hle : (distinct (map fst (filter (fun '(input, out) =>
    returns_output (oprf_server_evaluate (with_digest CS O) (mkOprfServer (CS := with_digest CS O) k) input) out) claims)) <=
    distinct (map fst (filter (fun '(input, e) => elem_ct_eq (CSGroup CS) e (elem_mul (CSGroup CS) (H2G L modeOPRF input) k))
      (flat_map candidate hashed))))%nat) by lia.
  apply distinct_le. intros input Hin. apply in_map_iff in Hin as ([input' out] & Ei & Hin). cbn [fst] in Ei. subst input'.
  apply filter_In in Hin as [Hin Hr].
  assert (Hh : existsb (same_bytes (lv input ++ lv (serialize_elem (CSGroup CS) (elem_mul (CSGroup CS) (H2G L modeOPRF input) k))
                                  ++ str "Finalize")) hashed = true).
  { destruct (existsb (same_bytes _) hashed) eqn:Eh; auto.
    enough (Hx : false = true) by discriminate. rewrite <- Hg. apply existsb_exists. exists (input, out). split; [exact Hin|].
    cbv beta iota. rewrite Hr, Eh. cbn [negb andb]. apply Bool.negb_true_iff.
    destruct (existsb _ calls) eqn:Ec; auto. apply existsb_exists in Ec as (c & Hcin & Hc').
    destruct (Hc c Hcin) as (e & ->). discriminate. }
  apply existsb_exists in Hh as (s & Hs1 & Hs2). apply same_bytes_spec in Hs2. subst s.
  apply returns_output_spec in Hr. rewrite (oprf_evaluate_form L k) in Hr.
  destruct (65535 <? len input) eqn:El; [discriminate|]. apply N.ltb_ge in El. cbn [orb] in Hr.
  destruct (is_identity_elem _ _) eqn:Eid; [discriminate|]. apply (is_identity_false (group_laws L)) in Eid.
  apply in_map_iff. eexists (input, _). split; [reflexivity|]. apply filter_In. split.
  - apply in_flat_map. eexists. split; [exact Hs1|]. rewrite (candidate_ok L); [now left|exact El|].
    now apply (elem_mul_nonidentity L).
  - cbv beta iota. now apply (elem_ct_eq_spec _ (group_laws L)).
Qed.

(** The solver asks for as many multiplications as the client for evaluations,
    and finds at most one element in a string the client hashes. *)
Theorem C63_solver_work :
  forall (CS : CipherSuite) (k : scalar CS) (R : Rng) (st : rng_state R) (A : oprf_client CS) (O : oracle (output_digest CS)),
  let '(_, hashed, calls) := play (fun m => value (O m [])) (oprf_serves k R O) (as_caller A) st in
  let '(found, n) := solve (fun e => elem_mul (CSGroup CS) e k) (solver_of (fun m => value (O m [])) A []) in
  n = length calls /\ (length found <= length hashed)%nat.
Proof.
  intros CS k R st A O. destruct (play _ _ (as_caller A) st) as [[claims hashed] calls] eqn:E.
  destruct (caller_solves k R O A st [] _ _ _ E) as [Es _]. rewrite Es. split; [reflexivity|]. cbn [app].
  clear. induction hashed as [|s hashed IH]; simpl; auto. rewrite app_length.
  enough (Hc : (length (candidate (CS := CS) s) <= 1)%nat) by lia.
  assert (Hr : forall s, (length (read_lv s) <= 1)%nat).
  { clear. intros [|a [|b r]]; simpl; try lia. destruct (Nat.leb _ _); simpl; lia. }
  unfold candidate. pose proof (Hr s) as H1. destruct (read_lv s) as [|[i r] [|]]; simpl in *; try lia.
  pose proof (Hr r) as H2. destruct (read_lv r) as [|[e r'] [|]]; simpl in *; try lia.
  destruct (same_bytes _ _); simpl; [|lia]. destruct (deserialize_elem _ _); simpl; lia.
Qed.

Theorem C63_voprf_one_more :
  forall (CS : CipherSuite) (L : SuiteLaws CS) (k : scalar CS) (R : Rng) (st : rng_state R)
         (A : attack (voprf_call CS) (reply_of (elem CS) (scalar CS)) (list (bytes * bytes))) (n : nat),
  k <> zero_scalar (CSGroup CS) -> names_at_most n A ->
  N.of_nat (length (all_digests (output_size (CSHash CS)))) = 256 ^ output_size (CSHash CS) /\
  chance_at_most (all_digests (output_size (CSHash CS))) n (fun O =>
    voprf_one_more L k R st A O && negb (voprf_solved L k R st A O)).
Proof.
  intros CS L k R st A n Hk Hn. split; [apply all_digests_number|].
  refine (chance_mono _ n (voprf_guessed L k R st A) _ _ (proj2 (C54_voprf_unpredictable CS L k R st A n Hn))).
  intros O Hw. apply andb_prop in Hw as [Hw Hs]. apply Bool.negb_true_iff in Hs.
  destruct (voprf_guessed L k R st A O) eqn:Hg; auto. exfalso.
  unfold voprf_one_more in Hw. unfold voprf_guessed in Hg. unfold voprf_solved in Hs.
  destruct (play _ _ A st) as [[claims hashed] calls] eqn:E.
  apply Nat.ltb_lt in Hw. apply Nat.ltb_ge in Hs. revert Hw. apply Nat.le_ngt. etransitivity; [|exact Hs].
  apply distinct_le. intros input Hin. apply in_map_iff in Hin as ([input' out] & Ei & Hin). cbn [fst] in Ei. subst input'.
  apply filter_In in Hin as [Hin Hr]. apply andb_prop in Hr as [Hr Hc].
  assert (Hh : existsb (same_bytes (lv input ++ lv (serialize_elem (CSGroup CS) (elem_mul (CSGroup CS) (H2G L modeVOPRF input) k))
                                  ++ str "Finalize")) hashed = true).
  { destruct (existsb (same_bytes _) hashed) eqn:Eh; auto.
    enough (Hx : false = true) by discriminate. rewrite <- Hg. apply existsb_exists. exists (input, out). split; [exact Hin|].
    cbv beta iota. rewrite Hr, Eh, Hc. reflexivity. }
  apply existsb_exists in Hh as (s & Hs1 & Hs2). apply same_bytes_spec in Hs2. subst s.
  apply returns_output_spec in Hr. rewrite (voprf_evaluate_form L k) in Hr.
  destruct (65535 <? len input) eqn:El; [discriminate|]. apply N.ltb_ge in El. cbn [orb] in Hr.
  destruct (is_identity_elem _ _) eqn:Eid; [discriminate|]. apply (is_identity_false (group_laws L)) in Eid.
  apply in_map_iff. eexists (input, _). split; [reflexivity|]. apply filter_In. split.
  - apply in_flat_map. eexists. split; [exact Hs1|]. rewrite (candidate_ok L); [now left|exact El|].
    now apply (elem_mul_nonidentity L).
  - cbv beta iota. now apply (elem_ct_eq_spec _ (group_laws L)).
Qed.

Theorem C63_poprf_one_more :
  forall (CS : CipherSuite) (L : SuiteLaws CS) (k : scalar CS) (R : Rng) (st : rng_state R)
         (A : attack (poprf_call CS) (reply_of (elem CS) (scalar CS)) (list (bytes * option bytes * bytes))) (n : nat),
  names_at_most n A ->
  N.of_nat (length (all_digests (output_size (CSHash CS)))) = 256 ^ output_size (CSHash CS) /\
  chance_at_most (all_digests (output_size (CSHash CS))) n (fun O =>
    existsb (fun info => poprf_one_more L k R st A O info && negb (poprf_solved L k R st A O info))
      (named_infos k R st A O)).
Proof.
  intros CS L k R st A n Hn. split; [apply all_digests_number|].
  refine (chance_mono _ n (poprf_guessed L k R st A) _ _ (proj2 (C54_poprf_unpredictable CS L k R st A n Hn))).
  intros O Hw. apply existsb_exists in Hw as (info & _ & Hw). apply andb_prop in Hw as [Hw Hs]. apply Bool.negb_true_iff in Hs.
  destruct (poprf_guessed L k R st A O) eqn:Hg; auto. exfalso.
  unfold poprf_one_more in Hw. unfold poprf_guessed in Hg. unfold poprf_solved in Hs.
  destruct (play _ _ A st) as [[claims hashed] calls] eqn:E.
  apply Nat.ltb_lt in Hw. apply Nat.ltb_ge in Hs. revert Hw. apply Nat.le_ngt. etransitivity; [|exact Hs].
  apply distinct_le. intros input Hin. apply in_map_iff in Hin as ([[input' i] out] & Ei & Hin). cbn [fst] in Ei. subst input'.
  apply filter_In in Hin as [Hin Hr]. apply andb_prop in Hr as [Hr Hc]. apply andb_prop in Hr as [Hinfo Hr].
  apply same_bytes_spec in Hinfo.
  assert (Hh : existsb (same_bytes
         (lv input ++ (match i with Some i => lv i | None => [] end)
          ++ lv (serialize_elem (CSGroup CS) (elem_mul (CSGroup CS) (H2G L modePOPRF input)
                   (s_inv (group_laws L) (tweaked_scalar L k (bytes_of_info i)))))
          ++ str "Finalize")) hashed = true).
  { destruct (existsb (same_bytes _) hashed) eqn:Eh; auto.
    enough (Hx : false = true) by discriminate. rewrite <- Hg. apply existsb_exists. exists (input, i, out). split; [exact Hin|].
    cbv beta iota. rewrite Hr. unfold bytes_of_info in Eh. rewrite Eh, Hc. reflexivity. }
  apply existsb_exists in Hh as (s & Hs1 & Hs2). apply same_bytes_spec in Hs2. subst s.
  apply returns_output_spec in Hr. rewrite (poprf_evaluate_form L k) in Hr.
  destruct (is_identity_elem _ _) eqn:Eid; [discriminate|]. apply (is_identity_false (group_laws L)) in Eid.
  change (info_or_default i) with (bytes_of_info i) in Hr.
  destruct (65535 <? len (bytes_of_info i)) eqn:En; [discriminate|]. apply N.ltb_ge in En.
  destruct (is_zero_scalar _ _) eqn:Ez; [discriminate|]. apply (is_zero_false (group_laws L)) in Ez.
  destruct (65535 <? len input) eqn:El; [discriminate|]. apply N.ltb_ge in El. rewrite Hinfo in *.
  apply in_map_iff. eexists (input, _). split; [reflexivity|]. apply filter_In. split.
  - apply in_flat_map. eexists. split; [exact Hs1|]. rewrite <- Hinfo at 1. apply (info_candidate_ok L); auto; [congruence|].
    apply (elem_mul_nonidentity L); auto. now apply (inv_neq_zero (group_laws L)).
  - cbv beta iota. now apply (elem_ct_eq_spec _ (group_laws L)).
Qed.

(** Cases: the key is 42.  A client that knows the key has the outputs of two
    inputs with one evaluation, and its solver has the two elements with one
    multiplication; a client that runs the protocol for one input has no more
    than one; a client that names outputs without hashing is right for the
    function with that value only, and its solver finds nothing. *)
Definition ex_string (input : bytes) (e : elem TS) : bytes :=
  lv input ++ lv (serialize_elem (CSGroup TS) e) ++ str "Finalize".
Definition ex_insider : oprf_client TS :=
  let G := CSGroup TS in
  Query (H2G TL modeOPRF ex_input) (fun e =>
  Hash (ex_string ex_input e) (fun d =>
  Hash (ex_string ex_input2 (elem_mul G (H2G TL modeOPRF ex_input2) (ex_scalar 42))) (fun d' =>
  Name [(ex_input, d); (ex_input2, d')]))).
Definition ex_client : oprf_client TS :=
  let G := CSGroup TS in
  Query (elem_mul G (H2G TL modeOPRF ex_input) (ex_scalar 9)) (fun e =>
  Hash (ex_string ex_input (elem_mul G e (s_inv (group_laws TL) (ex_scalar 9)))) (fun d => Name [(ex_input, d)])).
Definition ex_solved (A : oprf_client TS) (O : oracle (output_digest TS)) : list bool :=
  [oprf_one_more TL (ex_scalar 42) CtrRng 17 A O;
   solves_one_more TL (ex_scalar 42) (solver_of (fun m => value (O m [])) A [])].
Definition ex_poprf_named {Call Reply} : attack Call Reply (list (bytes * option bytes * bytes)) :=
  Name [(ex_input, None, repeat x00 4)].
Definition ex_poprf_insider : attack (poprf_call TS) (reply_of (elem TS) (scalar TS)) (list (bytes * option bytes * bytes)) :=
  let G := CSGroup TS in
  let e info := elem_mul G (H2G TL modePOPRF ex_input) (s_inv (group_laws TL) (tweaked_scalar TL (ex_scalar 42) info)) in
  Hash (ex_string ex_input (e [])) (fun d =>
  Hash (lv ex_input ++ lv ex_info ++ lv (serialize_elem G (e ex_info)) ++ str "Finalize") (fun d' =>
  Name [(ex_input, None, d); (ex_input, Some ex_info, d')])).

Example C63_case :
  names_at_most 2 ex_insider /\ names_at_most 2 ex_client /\
  ex_solved ex_insider ex_digest = [true; true] /\
  ex_solved ex_client ex_digest = [false; false] /\
  ex_solved (Name [(ex_input, repeat x00 4)]) ex_value = [true; false] /\
  [voprf_one_more TL (ex_scalar 42) CtrRng 17 (Query (VBatch []) (fun _ => ex_blind_guess)) ex_value;
   voprf_solved TL (ex_scalar 42) CtrRng 17 (Query (VBatch []) (fun _ => ex_blind_guess)) ex_value;
   voprf_one_more TL (ex_scalar 42) CtrRng 17 (Query (VBatch [ex_elem 3]) (fun _ => ex_blind_guess)) ex_value] =
  [true; false; false] /\
  [poprf_one_more TL (ex_scalar 42) CtrRng 17 ex_poprf_named ex_value [];
   poprf_solved TL (ex_scalar 42) CtrRng 17 ex_poprf_named ex_value []] = [true; false] /\
  [poprf_one_more TL (ex_scalar 42) CtrRng 17 ex_poprf_insider ex_digest [];
   poprf_solved TL (ex_scalar 42) CtrRng 17 ex_poprf_insider ex_digest [];
   poprf_one_more TL (ex_scalar 42) CtrRng 17 ex_poprf_insider ex_digest ex_info;
   poprf_solved TL (ex_scalar 42) CtrRng 17 ex_poprf_insider ex_digest ex_info] = [true; true; true; true] /\
  map (@length N) (map (map (fun _ => 0)) [named_infos (ex_scalar 42) CtrRng 17 ex_poprf_insider ex_digest]) = [2%nat].
Proof.
  split; [simpl; lia|]. split; [simpl; lia|].
  split; [vm_compute; reflexivity|]. split; [vm_compute; reflexivity|]. split; [vm_compute; reflexivity|].
  split; [vm_compute; reflexivity|]. split; [vm_compute; reflexivity|]. split; vm_compute; reflexivity.
Qed.
