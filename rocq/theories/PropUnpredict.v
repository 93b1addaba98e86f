(** * C54: an output can only be known by hashing the evaluated element.

    The output hash is a random function; hash to group and hash to scalar are
    any functions.  An attacker that calls the server as it likes, and hashes
    as it likes, names outputs. *)
From Verif Require Import Laws Spec BytesFacts GroupFacts CommonFacts OprfFacts VoprfFacts PoprfFacts PropEncoding
  PropCorrectness Oracle Guess Zq.
From Verif Require PropUniform.
From Coq Require Import Lia.
Open Scope N_scope.

(** All digests of a length. *)
Definition all_digests (n : N) : list (digest_of n) :=
  flat_map (to_digest n) (PropUniform.strings (N.to_nat n)).

Lemma to_digest_in n d a : In a (to_digest n d) <-> value a = d.
Proof.
  unfold to_digest. destruct (N.eq_dec (len d) n) as [E|E]; simpl.
  - split.
    + intros [<-|[]]. reflexivity.
    + intros H. left. apply value_inj. now rewrite H.
  - split; [intros []|]. intros <-. apply E. exact (proj2_sig a).
Qed.
Lemma all_digests_all n a : In a (all_digests n).
Proof.
  apply in_flat_map. exists (value a). split; [|now apply to_digest_in].
  apply PropUniform.strings_in. pose proof (proj2_sig a) as H. unfold value, len in *. lia.
Qed.
Lemma all_digests_nodup n : NoDup (all_digests n).
Proof.
  unfold all_digests. pose proof (PropUniform.strings_nodup (N.to_nat n)) as Hnd.
  induction (PropUniform.strings (N.to_nat n)) as [|d l IH]; simpl; [constructor|].
  inversion Hnd; subst. specialize (IH H2).
  assert (Hd : forall a, In a (to_digest n d) -> ~ In a (flat_map (to_digest n) l)).
  { intros a Ha Hin. apply to_digest_in in Ha. apply in_flat_map in Hin as (d' & Hd' & Hin). apply to_digest_in in Hin.
    congruence. }
  unfold to_digest in *. destruct (N.eq_dec (len d) n); simpl; auto. constructor; auto. apply Hd. now left.
Qed.
Lemma all_digests_number n : N.of_nat (length (all_digests n)) = 256 ^ n.
Proof.
  unfold all_digests. rewrite length_flat_map.
  assert (Hl : forall d, In d (PropUniform.strings (N.to_nat n)) -> length (to_digest n d) = 1%nat).
  { intros d Hd. apply PropUniform.strings_in in Hd. unfold to_digest. destruct (N.eq_dec (len d) n) as [|E]; auto.
    exfalso. apply E. unfold len. lia. }
  rewrite (sum_ext _ (fun _ => 1%nat)) by auto. rewrite sum_const, Nat.mul_1_r.
  assert (Hn : forall k, N.of_nat (length (PropUniform.strings k)) = 256 ^ N.of_nat k).
  { induction k as [|k IH]; [reflexivity|]. cbn [PropUniform.strings]. rewrite length_flat_map.
    rewrite (sum_ext _ (fun _ => length (PropUniform.strings k))) by (intros; apply map_length).
    rewrite sum_const, Nat2N.inj_mul, IH, Nat2N.inj_succ, N.pow_succ_r'. reflexivity. }
  rewrite Hn. f_equal. lia.
Qed.

Section Laws.
Context {CS : CipherSuite}.
Definition digest_group_laws {G : Group} (GL : GroupLaws G) (H : HashFn) : GroupLaws (digest_group G H).
Proof. destruct GL. econstructor; eassumption. Defined.

Definition digest_laws (L : SuiteLaws CS) (O : oracle (output_digest CS)) : SuiteLaws (with_digest CS O).
Proof.
  refine {| group_laws := digest_group_laws (group_laws L) (CSHash CS) : GroupLaws (CSGroup (with_digest CS O));
            HashToGroup := (HashToGroup L : bytes -> bytes -> elem (with_digest CS O));
            HashToScalar := (HashToScalar L : bytes -> bytes -> scalar (with_digest CS O)) |}.
  - exact (hash_to_curve_spec _ L).
  - exact (hash_to_scalar_spec _ L).
  - intros m. exact (proj2_sig (O m [])).
  - exact (output_size_bound _ L).
  - exact (id_bound _ L).
Defined.
End Laws.

(** ** From an attack to a program *)
Section Compile.
Context {n : N} {Call Reply Claim St : Type}.
Local Notation S := (digest_of n).
Context (serve : oracle S -> Call -> St -> Reply * St).
(* the string the server hashes for a call, if any *)
Context (hashes : Call -> option bytes) (O0 : oracle S).
Context (serve_dep : forall O O' c st, (forall m, hashes c = Some m -> O m [] = O' m []) -> serve O c st = serve O' c st).
Context (points : Claim -> list (point * S)).

Definition serve_program (c : Call) (st : St) : program S (Reply * St) :=
  match hashes c with
  | Some m => Ask m [] (fun a => Done (serve (fun _ _ => a) c st))
  | None => Done (serve O0 c st)
  end.
Lemma serve_run O c st : run O (serve_program c st) = serve O c st.
Proof.
  unfold serve_program. destruct (hashes c) as [m|] eqn:E; simpl.
  - apply serve_dep. intros m' E'. rewrite E in E'. now injection E' as <-.
  - apply serve_dep. intros m' E'. congruence.
Qed.

Fixpoint compile (A : attack Call Reply (list Claim)) (st : St) : program S (list (point * S)) :=
  match A with
  | Hash m next => Ask m [] (fun a => compile (next (value a)) st)
  | Query c next => andthen (serve_program c st) (fun rs => compile (next (fst rs)) (snd rs))
  | Name out => Done (flat_map points out)
  end.

Lemma compile_names k A st : (forall c, (length (points c) <= 1)%nat) -> names_at_most k A -> names k (compile A st).
Proof.
  intros Hp. revert st. induction A as [m next IH|c next IH|out]; intros st H; simpl in *; auto.
  - apply names_andthen. auto.
  - rewrite length_flat_map. etransitivity; [|exact H]. clear H.
    induction out as [|c out IH]; simpl; auto. specialize (Hp c). lia.
Qed.

Lemma asked_cons_false (x y : point) (a : S) h : x <> y -> asked x h = false -> asked x ((y, a) :: h) = false.
Proof.
  intros Hn Hh. destruct (asked x ((y, a) :: h)) eqn:E; auto. apply asked_spec in E as (b & [E|E]).
  - injection E as <- _. now destruct Hn.
  - rewrite <- Hh. symmetry. apply asked_spec. eauto.
Qed.

Lemma compile_guesses O A : forall st h out hashed calls cl x a,
  play (fun m => value (O m [])) (serve O) A st = (out, hashed, calls) ->
  In cl out -> In (x, a) (points cl) -> O (fst x) (snd x) = a -> asked x h = false ->
  (forall m, In m hashed -> x <> (m, [])) ->
  (forall c m, In c calls -> hashes c = Some m -> x <> (m, [])) ->
  guesses (digest_dec n) O h (compile A st) = true.
Proof.
  induction A as [m next IH|c next IH|out']; intros st h out hashed calls cl x a Hplay Hcl Hx Ha Hh Hm Hc; simpl in *.
  - destruct (play _ _ (next (value (O m []))) st) as [[out1 hashed1] calls1] eqn:E. injection Hplay as <- <- <-.
    eapply IH; eauto.
    + apply asked_cons_false; [|exact Hh]. apply Hm. now left.
    + intros m' Hm'. apply Hm. now right.
  - rewrite guesses_final, final_andthen, run_andthen, serve_run, <- guesses_final.
    destruct (serve O c st) as [r st'] eqn:Es. simpl.
    destruct (play _ _ (next r) st') as [[out1 hashed1] calls1] eqn:E. injection Hplay as <- <- <-.
    eapply IH; eauto.
    + unfold serve_program. destruct (hashes c) as [m|] eqn:Eh; cbn [final]; [|exact Hh].
      apply asked_cons_false; [|exact Hh]. exact (Hc c m (or_introl eq_refl) Eh).
    + intros c' m' Hc'. apply Hc. now right.
  - injection Hplay as <- <- <-. apply existsb_exists. exists (x, a). split.
    + apply in_flat_map. eauto.
    + cbn [fst]. rewrite Hh. simpl. now apply right_at_spec.
Qed.

(** The general bound: [wins] needs a right claim at a string that neither the
    attacker nor the server has hashed. *)
Lemma chance_of_claims (k : nat) A st (wins : oracle S -> bool) :
  (forall c, (length (points c) <= 1)%nat) -> names_at_most k A ->
  (forall O out hashed calls,
    play (fun m => value (O m [])) (serve O) A st = (out, hashed, calls) -> wins O = true ->
    exists cl x a, In cl out /\ In (x, a) (points cl) /\ O (fst x) (snd x) = a /\
      (forall m, In m hashed -> x <> (m, [])) /\ (forall c m, In c calls -> hashes c = Some m -> x <> (m, []))) ->
  chance_at_most (all_digests n) k wins.
Proof.
  intros Hp Hk Hw. apply (chance_of_guess (digest_dec n) (all_digests n) k wins (compile A st)).
  - apply all_digests_nodup.
  - apply all_digests_all.
  - now apply compile_names.
  - intros O HO. destruct (play (fun m => value (O m [])) (serve O) A st) as [[out hashed] calls] eqn:E.
    destruct (Hw O out hashed calls E HO) as (cl & x & a & H1 & H2 & H3 & H4 & H5).
    eapply compile_guesses; eauto.
Qed.
End Compile.

(** ** What the theorems say *)

Definition same_bytes (a b : bytes) : bool := if list_eq_dec Byte.byte_eq_dec a b then true else false.
Lemma same_bytes_spec a b : same_bytes a b = true <-> a = b.
Proof. unfold same_bytes. destruct (list_eq_dec _ _ _); split; auto; discriminate. Qed.

Definition returns_output (r : res bytes) (out : bytes) : bool :=
  match r with Ok o => same_bytes o out | _ => false end.
Lemma returns_output_spec r out : returns_output r out = true <-> r = Ok out.
Proof.
  unfold returns_output. destruct r as [o| | |]; try (split; [discriminate|congruence]).
  rewrite same_bytes_spec. split; congruence.
Qed.

(** The calls an attacker makes to a server: evaluation of any elements it
    chooses, and of inputs in the clear. *)
Inductive oprf_call (CS : CipherSuite) : Type :=
| OBlindEvaluate (blinded : elem CS)
| OEvaluate (input : bytes).
Arguments OBlindEvaluate {CS} _.
Arguments OEvaluate {CS} _.
Inductive voprf_call (CS : CipherSuite) : Type :=
| VBlindEvaluate (blinded : elem CS)
| VBatch (blinded : list (elem CS))
| VEvaluate (input : bytes).
Arguments VBlindEvaluate {CS} _.
Arguments VBatch {CS} _.
Arguments VEvaluate {CS} _.
Inductive poprf_call (CS : CipherSuite) : Type :=
| PBlindEvaluate (blinded : elem CS) (info : option bytes)
| PBatch (blinded : list (elem CS)) (info : option bytes)
| PEvaluate (input : bytes) (info : option bytes).
Arguments PBlindEvaluate {CS} _ _.
Arguments PBatch {CS} _ _.
Arguments PEvaluate {CS} _ _.

(** What it gets: elements with a proof, or an output. *)
Inductive reply_of (E S : Type) : Type :=
| Evaluated (r : res (list E * option (S * S)))
| Output (r : res bytes).
Arguments Evaluated {E S} _.
Arguments Output {E S} _.
Notation reply CS := (reply_of (elem CS) (scalar CS)).

Definition map_ok {A B} (f : A -> B) (r : res A) : res B :=
  match r with Ok a => Ok (f a) | Err e => Err e | Panic => Panic | Diverge => Diverge end.

Section Servers.
Context {CS : CipherSuite} (k : scalar CS) (R : Rng).
Local Notation G := (CSGroup CS).
Local Notation pk := (elem_mul G (base_elem G) k).

Definition oprf_serves (O : oracle (output_digest CS)) (c : oprf_call CS) (st : rng_state R) : reply CS * rng_state R :=
  let CS' := with_digest CS O in
  let server := mkOprfServer (CS := CS') k in
  match c with
  | OBlindEvaluate e =>
      (Evaluated (Ok ([evaluation_value (oprf_server_blind_evaluate CS' server (mkBlinded (CS := CS') e))], None)), st)
  | OEvaluate input => (Output (oprf_server_evaluate CS' server input), st)
  end.

Definition proof_scalars {CS'} (p : Proof CS') : scalar CS' * scalar CS' := (c_scalar p, s_scalar p).

Definition voprf_serves (O : oracle (output_digest CS)) (c : voprf_call CS) (st : rng_state R) : reply CS * rng_state R :=
  let CS' := with_digest CS O in
  let server := mkVoprfServer (CS := CS') k pk in
  match c with
  | VBlindEvaluate e =>
      let '(r, st') := voprf_server_blind_evaluate CS' server R (mkBlinded (CS := CS') e) st in
      (Evaluated (map_ok (fun r => ([evaluation_value (voprf_eval_message r)], Some (proof_scalars (voprf_eval_proof r)))) r), st')
  | VBatch es =>
      let '(r, st') := voprf_server_batch_blind_evaluate CS' server R (map (mkBlinded (CS := CS')) es) st in
      (Evaluated (map_ok (fun r => (map evaluation_value (voprf_batch_messages r), Some (proof_scalars (voprf_batch_proof r)))) r), st')
  | VEvaluate input => (Output (voprf_server_evaluate CS' server input), st)
  end.

Definition poprf_serves (O : oracle (output_digest CS)) (c : poprf_call CS) (st : rng_state R) : reply CS * rng_state R :=
  let CS' := with_digest CS O in
  let server := mkPoprfServer (CS := CS') k pk in
  match c with
  | PBlindEvaluate e info =>
      let '(r, st') := poprf_server_blind_evaluate CS' server R (mkBlinded (CS := CS') e) info st in
      (Evaluated (map_ok (fun r => ([evaluation_value (poprf_eval_message r)], Some (proof_scalars (poprf_eval_proof r)))) r), st')
  | PBatch es info =>
      let '(r, st') := poprf_server_batch_blind_evaluate CS' server R (map (mkBlinded (CS := CS')) es) info st in
      (Evaluated (map_ok (fun r => (map evaluation_value (poprf_batch_messages r), Some (proof_scalars (poprf_batch_proof r)))) r), st')
  | PEvaluate input info => (Output (poprf_server_evaluate CS' server input info), st)
  end.
End Servers.

(** The attacker names the output of some input, has not hashed a string with
    the input and the evaluated element in it, and has not had the server
    evaluate the input. *)
Definition oprf_guessed {CS} (L : SuiteLaws CS) (k : scalar CS) (R : Rng) (st : rng_state R)
    (A : attack (oprf_call CS) (reply CS) (list (bytes * bytes))) (O : oracle (output_digest CS)) : bool :=
  let '(claims, hashed, calls) := play (fun m => value (O m [])) (oprf_serves k R O) A st in
  existsb (fun '(input, out) =>
    returns_output (oprf_server_evaluate (with_digest CS O) (mkOprfServer (CS := with_digest CS O) k) input) out
    && negb (existsb (same_bytes (lv input ++ lv (serialize_elem (CSGroup CS) (elem_mul (CSGroup CS) (H2G L modeOPRF input) k))
                                  ++ str "Finalize")) hashed)
    && negb (existsb (fun c => match c with OEvaluate i => same_bytes i input | _ => false end) calls)) claims.

Definition voprf_guessed {CS} (L : SuiteLaws CS) (k : scalar CS) (R : Rng) (st : rng_state R)
    (A : attack (voprf_call CS) (reply CS) (list (bytes * bytes))) (O : oracle (output_digest CS)) : bool :=
  let '(claims, hashed, calls) := play (fun m => value (O m [])) (voprf_serves k R O) A st in
  existsb (fun '(input, out) =>
    returns_output (voprf_server_evaluate (with_digest CS O) (mkVoprfServer (CS := with_digest CS O) k (elem_mul (CSGroup CS) (base_elem (CSGroup CS)) k)) input) out
    && negb (existsb (same_bytes (lv input ++ lv (serialize_elem (CSGroup CS) (elem_mul (CSGroup CS) (H2G L modeVOPRF input) k))
                                  ++ str "Finalize")) hashed)
    && negb (existsb (fun c => match c with VEvaluate i => same_bytes i input | _ => false end) calls)) claims.

Definition same_info (a b : option bytes) : bool :=
  match a, b with Some a, Some b => same_bytes a b | None, None => true | _, _ => false end.

Definition poprf_guessed {CS} (L : SuiteLaws CS) (k : scalar CS) (R : Rng) (st : rng_state R)
    (A : attack (poprf_call CS) (reply CS) (list (bytes * option bytes * bytes))) (O : oracle (output_digest CS)) : bool :=
  let '(claims, hashed, calls) := play (fun m => value (O m [])) (poprf_serves k R O) A st in
  existsb (fun '(input, info, out) =>
    returns_output (poprf_server_evaluate (with_digest CS O) (mkPoprfServer (CS := with_digest CS O) k (elem_mul (CSGroup CS) (base_elem (CSGroup CS)) k)) input info) out
    && negb (existsb (same_bytes
         (lv input ++ (match info with Some i => lv i | None => [] end)
          ++ lv (serialize_elem (CSGroup CS) (elem_mul (CSGroup CS) (H2G L modePOPRF input)
                   (s_inv (group_laws L) (tweaked_scalar L k (match info with Some i => i | None => [] end)))))
          ++ str "Finalize")) hashed)
    && negb (existsb (fun c => match c with PEvaluate i n => same_bytes i input && same_info n info | _ => false end) calls)) claims.

(** The outcome of a POPRF evaluation, by cases. *)
Lemma poprf_evaluate_cases {CS} (L : SuiteLaws CS) sk pk input info :
  let G := CSGroup CS in
  poprf_server_evaluate CS (mkPoprfServer sk pk) input info =
  if is_identity_elem G (H2G L modePOPRF input) then Err EInput
  else if 65535 <? len (info_or_default info) then Err EInfo
  else if is_zero_scalar G (tweaked_scalar L sk (info_or_default info)) then Err EProtocol
  else if 65535 <? len input then Err EInput
  else Ok (digest (CSHash CS) (lv input ++ (match info with Some i => lv i | None => [] end)
    ++ lv (serialize_elem G (elem_mul G (H2G L modePOPRF input)
             (s_inv (group_laws L) (tweaked_scalar L sk (info_or_default info))))) ++ str "Finalize")).
Proof.
  intros G. destruct (is_identity_elem G (H2G L modePOPRF input)) eqn:Hid.
  { unfold poprf_server_evaluate. rewrite (hash_to_group_ok L). cbn [bind mode_id]. fold G. now rewrite Hid. }
  destruct (65535 <? len (info_or_default info)) eqn:Hn.
  { apply N.ltb_lt in Hn. unfold poprf_server_evaluate. rewrite (hash_to_group_ok L). cbn [bind mode_id]. fold G. rewrite Hid.
    cbn [poprf_sk]. now rewrite (compute_tweak_long sk info Hn). }
  apply N.ltb_ge in Hn.
  destruct (is_zero_scalar G _) eqn:Hz.
  { unfold poprf_server_evaluate. rewrite (hash_to_group_ok L). cbn [bind mode_id]. fold G. rewrite Hid.
    cbn [poprf_sk]. rewrite (compute_tweak_ok L sk info Hn). fold G. now rewrite Hz. }
  destruct (65535 <? len input) eqn:Hi.
  { apply N.ltb_lt in Hi. unfold poprf_server_evaluate. rewrite (hash_to_group_ok L). cbn [bind mode_id]. fold G. rewrite Hid.
    cbn [poprf_sk]. rewrite (compute_tweak_ok L sk info Hn). fold G. rewrite Hz. cbn [bind].
    apply (is_zero_false (group_laws L)) in Hz. unfold G. rewrite (invert_nonzero _ (group_laws L) _ Hz). cbn [bind].
    now apply server_evaluate_hash_input_long. }
  apply N.ltb_ge in Hi. apply (is_zero_false (group_laws L)) in Hz. apply (is_identity_false (group_laws L)) in Hid.
  destruct info as [i|]; cbn [info_or_default] in *.
  - rewrite (poprf_evaluate_some L sk pk input i Hi Hn Hid Hz). reflexivity.
  - rewrite (poprf_evaluate_none L sk pk input Hi Hid Hz). reflexivity.
Qed.

(** ** The servers *)
Section Proofs.
Context {CS : CipherSuite} (L : SuiteLaws CS) (k : scalar CS) (R : Rng).
Local Notation G := (CSGroup CS).
Local Notation S := (output_digest CS).
Local Notation DL := (digest_laws L).
Local Notation pk := (elem_mul G (base_elem G) k).
Local Notation WD := (with_digest CS).

Definition any_digest : S := exist _ (digest (CSHash CS) []) (digest_len CS L []).

Lemma oprf_evaluate_form (O : oracle S) input :
  oprf_server_evaluate (WD O) (mkOprfServer (CS := WD O) k) input =
  if (65535 <? len input) || is_identity_elem G (H2G L modeOPRF input) then Err EInput
  else Ok (value (O (finalize_string input (elem_mul G (H2G L modeOPRF input) k)) [])).
Proof.
  destruct (65535 <? len input) eqn:El; cbn [orb].
  { apply N.ltb_lt in El. exact (oprf_evaluate_err (DL O) k input (or_introl El)). }
  apply N.ltb_ge in El. destruct (is_identity_elem G (H2G L modeOPRF input)) eqn:Ei.
  - apply (proj1 (elem_ct_eq_spec _ (group_laws L) _ _)) in Ei. symmetry in Ei. exact (oprf_evaluate_err (DL O) k input (or_intror Ei)).
  - apply (is_identity_false (group_laws L)) in Ei. exact (oprf_evaluate_ok (DL O) k input El Ei).
Qed.

Lemma voprf_evaluate_form (O : oracle S) input :
  voprf_server_evaluate (WD O) (mkVoprfServer (CS := WD O) k pk) input =
  if (65535 <? len input) || is_identity_elem G (H2G L modeVOPRF input) then Err EInput
  else Ok (value (O (finalize_string input (elem_mul G (H2G L modeVOPRF input) k)) [])).
Proof.
  destruct (65535 <? len input) eqn:El; cbn [orb].
  { apply N.ltb_lt in El. exact (voprf_evaluate_err (DL O) (mkVoprfServer (CS := WD O) k pk) input (or_introl El)). }
  apply N.ltb_ge in El. destruct (is_identity_elem G (H2G L modeVOPRF input)) eqn:Ei.
  - apply (proj1 (elem_ct_eq_spec _ (group_laws L) _ _)) in Ei. symmetry in Ei. exact (voprf_evaluate_err (DL O) (mkVoprfServer (CS := WD O) k pk) input (or_intror Ei)).
  - apply (is_identity_false (group_laws L)) in Ei. exact (voprf_evaluate_ok (DL O) k pk input El Ei).
Qed.

(** The element an input and an info are evaluated to, and the string that is
    hashed. *)
Definition poprf_element (input : bytes) (info : option bytes) : elem CS :=
  elem_mul G (H2G L modePOPRF input) (s_inv (group_laws L) (tweaked_scalar L k (info_or_default info))).
Definition poprf_string (input : bytes) (info : option bytes) : bytes :=
  lv input ++ (match info with Some i => lv i | None => [] end)
  ++ lv (serialize_elem G (poprf_element input info)) ++ str "Finalize".

Lemma digest_inv (O : oracle S) (a : scalar CS) : a <> zero_scalar G ->
  s_inv (group_laws (DL O)) a = s_inv (group_laws L) a.
Proof.
  intros H. pose proof (invert_nonzero _ (group_laws (DL O)) a H) as H1.
  pose proof (invert_nonzero _ (group_laws L) a H) as H2.
  assert (E : Ok (E := Error) (s_inv (group_laws (DL O)) a) = Ok (s_inv (group_laws L) a)) by exact (eq_trans (eq_sym H1) H2).
  now injection E.
Qed.

Lemma poprf_evaluate_form (O : oracle S) input info :
  poprf_server_evaluate (WD O) (mkPoprfServer (CS := WD O) k pk) input info =
  if is_identity_elem G (H2G L modePOPRF input) then Err EInput
  else if 65535 <? len (info_or_default info) then Err EInfo
  else if is_zero_scalar G (tweaked_scalar L k (info_or_default info)) then Err EProtocol
  else if 65535 <? len input then Err EInput
  else Ok (value (O (poprf_string input info) [])).
Proof.
  refine (eq_trans (poprf_evaluate_cases (DL O) k pk input info) _).
  change (is_identity_elem (CSGroup (WD O)) (H2G (DL O) modePOPRF input)) with (is_identity_elem G (H2G L modePOPRF input)).
  change (is_zero_scalar (CSGroup (WD O)) (tweaked_scalar (DL O) k (info_or_default info)))
    with (is_zero_scalar G (tweaked_scalar L k (info_or_default info))).
  destruct (is_identity_elem G _); [reflexivity|]. destruct (65535 <? len (info_or_default info)); [reflexivity|].
  destruct (is_zero_scalar G _) eqn:Ez; [reflexivity|]. destruct (65535 <? len input); [reflexivity|].
  apply (is_zero_false (group_laws L)) in Ez. pose proof (digest_inv O _ Ez) as Einv.
  unfold poprf_string, poprf_element. rewrite <- Einv. reflexivity.
Qed.
(** ** Batches: the only digest is the seed *)
Definition seed_string (mode : N) (B : elem CS) : bytes :=
  lv (serialize_elem G B) ++ lv (str "Seed-" ++ contextString (CS := CS) mode).

Definition voprf_reply (sd : bytes) (C : list (elem CS)) (r : scalar CS) : list (elem CS) * option (scalar CS * scalar CS) :=
  let D := map (fun P => elem_mul G P k) C in
  let M := lincomb (weights_from L modeVOPRF sd 0 (combine C D)) C in
  let c := challenge L modeVOPRF pk M (elem_mul G M k) (elem_mul G (base_elem G) r) (elem_mul G M r) in
  (D, Some (c, scalar_sub G r (scalar_mul G c k))).

Lemma map_mkBlinded (O : oracle S) (es : list (elem CS)) : map blinded_value (map (mkBlinded (CS := WD O)) es) = es.
Proof. rewrite map_map. apply map_id. Qed.
Lemma map_mkEvaluation (O : oracle S) (es : list (elem CS)) : map evaluation_value (map (mkEvaluation (CS := WD O)) es) = es.
Proof. rewrite map_map. apply map_id. Qed.

Lemma voprf_batch_form (O : oracle S) es st : len es <= 65535 ->
  voprf_serves k R O (VBatch es) st =
  match random_scalar G R st with
  | (Ok r, st') => (Evaluated (Ok (voprf_reply (value (O (seed_string modeVOPRF pk) [])) es r)), st')
  | (Err e, st') => (Evaluated (Err e), st')
  | (Panic, st') => (Evaluated Panic, st')
  | (Diverge, st') => (Evaluated Diverge, st')
  end.
Proof.
  intros Hl. unfold voprf_serves.
  rewrite (voprf_batch_ok (DL O)) by (rewrite len_map; exact Hl).
  change (random_scalar (CSGroup (WD O)) R st) with (random_scalar G R st).
  destruct (random_scalar G R st) as [[r|e| |] st']; try reflexivity.
  unfold voprf_batch_result. cbn [map_ok voprf_batch_messages voprf_batch_proof voprf_sk voprf_pk].
  rewrite map_mkBlinded, map_mkEvaluation. reflexivity.
Qed.

Lemma voprf_single_form (O : oracle S) e st :
  voprf_serves k R O (VBlindEvaluate e) st =
  match random_scalar G R st with
  | (Ok r, st') => (Evaluated (Ok (voprf_reply (value (O (seed_string modeVOPRF pk) [])) [e] r)), st')
  | (Err _, st') => (Evaluated Panic, st')
  | (Panic, st') => (Evaluated Panic, st')
  | (Diverge, st') => (Evaluated Diverge, st')
  end.
Proof.
  unfold voprf_serves. rewrite (voprf_single_ok (DL O)).
  change (random_scalar (CSGroup (WD O)) R st) with (random_scalar G R st).
  destruct (random_scalar G R st) as [[r|err| |] st']; reflexivity.
Qed.

Definition voprf_hashes (c : voprf_call CS) : option bytes :=
  match c with
  | VBlindEvaluate _ | VBatch _ => Some (seed_string modeVOPRF pk)
  | VEvaluate i => if 65535 <? len i then None else Some (finalize_string i (elem_mul G (H2G L modeVOPRF i) k))
  end.
Definition oprf_hashes (c : oprf_call CS) : option bytes :=
  match c with
  | OBlindEvaluate _ => None
  | OEvaluate i => if 65535 <? len i then None else Some (finalize_string i (elem_mul G (H2G L modeOPRF i) k))
  end.

Lemma oprf_dep O O' c st : (forall m, oprf_hashes c = Some m -> O m [] = O' m []) -> oprf_serves k R O c st = oprf_serves k R O' c st.
Proof.
  intros H. destruct c as [e|i]; [reflexivity|]. unfold oprf_serves. rewrite !oprf_evaluate_form.
  unfold oprf_hashes in H. destruct (65535 <? len i); [reflexivity|]. rewrite (H _ eq_refl). reflexivity.
Qed.

Lemma voprf_dep O O' c st : (forall m, voprf_hashes c = Some m -> O m [] = O' m []) -> voprf_serves k R O c st = voprf_serves k R O' c st.
Proof.
  intros H. destruct c as [e|es|i].
  - rewrite !voprf_single_form. now rewrite (H _ eq_refl).
  - destruct (N.le_gt_cases (len es) 65535) as [Hl|Hl].
    + rewrite !voprf_batch_form by exact Hl. now rewrite (H _ eq_refl).
    + unfold voprf_serves. rewrite !voprf_batch_err by (rewrite len_map; exact Hl). reflexivity.
  - unfold voprf_serves. rewrite !voprf_evaluate_form.
    unfold voprf_hashes in H. destruct (65535 <? len i); [reflexivity|]. rewrite (H _ eq_refl). reflexivity.
Qed.

Definition poprf_reply (t : scalar CS) (sd : bytes) (D : list (elem CS)) (r : scalar CS)
  : list (elem CS) * option (scalar CS * scalar CS) :=
  let B := elem_mul G (base_elem G) t in
  let C := map (fun P => elem_mul G P (s_inv (group_laws L) t)) D in
  let M := lincomb (weights_from L modePOPRF sd 0 (combine C D)) C in
  let c := challenge L modePOPRF B M (elem_mul G M t) (elem_mul G (base_elem G) r) (elem_mul G M r) in
  (C, Some (c, scalar_sub G r (scalar_mul G c t))).

Lemma poprf_batch_result_form (O : oracle S) t es r : t <> zero_scalar G ->
  let res := poprf_batch_result (DL O) t (map (mkBlinded (CS := WD O)) es) r in
  (map evaluation_value (poprf_batch_messages res), Some (proof_scalars (poprf_batch_proof res)))
  = poprf_reply t (value (O (seed_string modePOPRF (elem_mul G (base_elem G) t)) [])) es r.
Proof.
  intros Ht res. unfold res, poprf_batch_result. cbn [poprf_batch_messages poprf_batch_proof].
  rewrite map_mkBlinded, map_mkEvaluation, (digest_inv O t Ht). reflexivity.
Qed.
Local Notation tweak info := (tweaked_scalar L k (info_or_default info)).

Definition poprf_hashes (c : poprf_call CS) : option bytes :=
  match c with
  | PBlindEvaluate _ info | PBatch _ info => Some (seed_string modePOPRF (elem_mul G (base_elem G) (tweak info)))
  | PEvaluate i info => if (65535 <? len i) || (65535 <? len (info_or_default info)) then None else Some (poprf_string i info)
  end.

(** Without a usable tweak the replies do not depend on the hash. *)
Lemma poprf_no_tweak (O : oracle S) info e : compute_tweak (WD O) k info = Err e ->
  (forall b st, poprf_server_blind_evaluate (WD O) (mkPoprfServer (CS := WD O) k pk) R b info st = (Err e, st)) /\
  (forall bs st, poprf_server_batch_blind_evaluate (WD O) (mkPoprfServer (CS := WD O) k pk) R bs info st = (Err e, st)).
Proof.
  intros H. split; intros b st.
  - unfold poprf_server_blind_evaluate, poprf_server_batch_blind_evaluate_prepare, rbind, rret. cbn [poprf_sk]. now rewrite H.
  - unfold poprf_server_batch_blind_evaluate, poprf_server_batch_blind_evaluate_prepare, rbind, rret. cbn [poprf_sk]. now rewrite H.
Qed.

Lemma poprf_tweak_form (O : oracle S) info :
  compute_tweak (WD O) k info =
  if 65535 <? len (info_or_default info) then Err EInfo
  else if is_zero_scalar G (tweak info) then Err EProtocol else Ok (tweak info).
Proof.
  destruct (65535 <? len (info_or_default info)) eqn:E.
  - apply N.ltb_lt in E. now apply compute_tweak_long.
  - apply N.ltb_ge in E. exact (compute_tweak_ok (DL O) k info E).
Qed.

Lemma poprf_dep O O' c st : (forall m, poprf_hashes c = Some m -> O m [] = O' m []) -> poprf_serves k R O c st = poprf_serves k R O' c st.
Proof.
  intros H. destruct c as [e info|es info|i info].
  - unfold poprf_serves. pose proof (poprf_tweak_form O info) as T. pose proof (poprf_tweak_form O' info) as T'.
    destruct (65535 <? len (info_or_default info)) eqn:En.
    { rewrite (proj1 (poprf_no_tweak O info _ T)), (proj1 (poprf_no_tweak O' info _ T')). reflexivity. }
    destruct (is_zero_scalar G (tweak info)) eqn:Ez.
    { rewrite (proj1 (poprf_no_tweak O info _ T)), (proj1 (poprf_no_tweak O' info _ T')). reflexivity. }
    apply N.ltb_ge in En. apply (is_zero_false (group_laws L)) in Ez.
    rewrite (poprf_single_ok (DL O)) by (exact En || exact Ez).
    rewrite (poprf_single_ok (DL O')) by (exact En || exact Ez).
    change (random_scalar (CSGroup (WD O)) R st) with (random_scalar G R st).
    change (random_scalar (CSGroup (WD O')) R st) with (random_scalar G R st).
    destruct (random_scalar G R st) as [[r|err| |] st']; try reflexivity.
    cbn [map_ok poprf_eval_message poprf_eval_proof evaluation_value blinded_value].
    pose proof (poprf_batch_result_form O _ [e] r Ez) as F. pose proof (poprf_batch_result_form O' _ [e] r Ez) as F'.
    rewrite <- (H _ eq_refl) in F'. 
    assert (E2 : forall (X : list (elem CS)) (p p' : option (scalar CS * scalar CS)), p = p' ->
       (Evaluated (E := elem CS) (S := scalar CS) (Ok (X, p)), st') = (Evaluated (Ok (X, p')), st')) by (intros; now subst).
    pose proof (f_equal snd (eq_trans F (eq_sym F'))) as E3. cbn [snd] in E3.
    pose proof (f_equal fst (eq_trans F (eq_sym F'))) as E4.
    unfold poprf_batch_result at 1 in E4. unfold poprf_batch_result in E4. cbn [fst map poprf_batch_messages evaluation_value blinded_value] in E4.
    refine (eq_trans (E2 _ _ _ E3) _).
    refine (f_equal (fun X : list (elem CS) => (Evaluated (E := elem CS) (S := scalar CS) (Ok (X, _)), st')) E4).
  - unfold poprf_serves. pose proof (poprf_tweak_form O info) as T. pose proof (poprf_tweak_form O' info) as T'.
    destruct (65535 <? len (info_or_default info)) eqn:En.
    { rewrite (proj2 (poprf_no_tweak O info _ T)), (proj2 (poprf_no_tweak O' info _ T')). reflexivity. }
    destruct (is_zero_scalar G (tweak info)) eqn:Ez.
    { rewrite (proj2 (poprf_no_tweak O info _ T)), (proj2 (poprf_no_tweak O' info _ T')). reflexivity. }
    apply N.ltb_ge in En. apply (is_zero_false (group_laws L)) in Ez.
    destruct (N.le_gt_cases (len es) 65535) as [Hl|Hl].
    + rewrite (poprf_batch_ok (DL O)) by (exact En || exact Ez || (rewrite len_map; exact Hl)).
      rewrite (poprf_batch_ok (DL O')) by (exact En || exact Ez || (rewrite len_map; exact Hl)).
      change (random_scalar (CSGroup (WD O)) R st) with (random_scalar G R st).
      change (random_scalar (CSGroup (WD O')) R st) with (random_scalar G R st).
      destruct (random_scalar G R st) as [[r|err| |] st']; try reflexivity.
      pose proof (poprf_batch_result_form O _ es r Ez) as F. pose proof (poprf_batch_result_form O' _ es r Ez) as F'.
      rewrite <- (H _ eq_refl) in F'.
      exact (f_equal (fun X : list (elem CS) * option (scalar CS * scalar CS) =>
        (Evaluated (E := elem CS) (S := scalar CS) (Ok X), st')) (eq_trans F (eq_sym F'))).
    + rewrite (poprf_batch_too_long (DL O)) by (exact En || exact Ez || (rewrite len_map; exact Hl)).
      rewrite (poprf_batch_too_long (DL O')) by (exact En || exact Ez || (rewrite len_map; exact Hl)).
      reflexivity.
  - unfold poprf_serves. rewrite !poprf_evaluate_form.
    unfold poprf_hashes in H. destruct (is_identity_elem G _); [reflexivity|].
    destruct (65535 <? len (info_or_default info)); [reflexivity|]. destruct (is_zero_scalar G _); [reflexivity|].
    destruct (65535 <? len i); [reflexivity|]. rewrite (H _ eq_refl). reflexivity.
Qed.

(** ** The strings differ *)
Lemma seed_label_len mode : len (str "Seed-" ++ contextString (CS := CS) mode) <= 65535.
Proof.
  pose proof (id_bound _ L) as H. unfold contextString, len in *. rewrite !app_length, I2OSP_length. cbn [str String.list_byte_of_string].
  cbn [length List.length]. simpl. lia.
Qed.

Lemma finalize_not_seed mode B i E : len i <= 65535 -> finalize_string (CS := CS) i E <> seed_string mode B.
Proof.
  intros Hi X. unfold finalize_string, seed_string in X.
  apply lv_app_inj in X as [_ X]; auto; try apply (ser_len L).
  rewrite <- (app_nil_r (lv (str "Seed-" ++ _))) in X.
  apply lv_app_inj in X as [_ X]; try apply (ser_len L); try apply seed_label_len. discriminate.
Qed.
Lemma poprf_string_not_seed mode B i info : len i <= 65535 -> len (info_or_default info) <= 65535 ->
  poprf_string i info <> seed_string mode B.
Proof.
  intros Hi Hn X. destruct info as [n|]; unfold poprf_string in X.
  - unfold seed_string in X. apply lv_app_inj in X as [_ X]; auto; try apply (ser_len L).
    rewrite <- (app_nil_r (lv (str "Seed-" ++ _))) in X.
    apply lv_app_inj in X as [_ X]; auto; try apply seed_label_len.
    apply (f_equal (@length byte)) in X. unfold lv in X. rewrite !app_length, I2OSP_length in X. cbn in X. lia.
  - exact (finalize_not_seed mode B i _ Hi X).
Qed.
Lemma poprf_string_inj i info i' info' : len i <= 65535 -> len (info_or_default info) <= 65535 ->
  len i' <= 65535 -> len (info_or_default info') <= 65535 ->
  poprf_string i info = poprf_string i' info' -> i = i' /\ info = info'.
Proof.
  intros H1 H2 H3 H4 X. destruct info as [n|], info' as [n'|].
  - destruct (finalize_info_string_inj L i n (poprf_element i (Some n)) i' n' (poprf_element i' (Some n')) H1 H3 H2 H4 X) as (-> & -> & _). auto.
  - exfalso. exact (finalize_strings_disjoint L i' (poprf_element i' None) i n (poprf_element i (Some n)) H3 H1 H2 (eq_sym X)).
  - exfalso. exact (finalize_strings_disjoint L i (poprf_element i None) i' n' (poprf_element i' (Some n')) H1 H3 H4 X).
  - destruct (finalize_string_inj L i (poprf_element i None) i' (poprf_element i' None) H1 H3 X). auto.
Qed.
End Proofs.

(** ** C54 *)

Lemma to_digest_short n d : (length (to_digest n d) <= 1)%nat.
Proof. unfold to_digest. destruct (N.eq_dec _ _); simpl; auto. Qed.

Lemma not_existsb {A} (f : A -> bool) l : negb (existsb f l) = true -> forall a, In a l -> f a = false.
Proof.
  intros H a Ha. apply Bool.negb_true_iff in H. destruct (f a) eqn:E; auto.
  rewrite <- H. symmetry. apply existsb_exists. eauto.
Qed.
Lemma same_bytes_false a b : same_bytes a b = false -> a <> b.
Proof. intros H E. apply same_bytes_spec in E. congruence. Qed.

(** The string of an input, once. *)
Definition point_of (n : N) (m out : bytes) : list (point * digest_of n) := map (fun a => (m, [], a)) (to_digest n out).
Lemma point_of_value n (O : oracle (digest_of n)) m out : value (O m []) = out -> In (m, [], O m []) (point_of n m out).
Proof. intros E. unfold point_of. apply in_map_iff. exists (O m []). split; auto. now apply to_digest_in. Qed.

(** An attacker that names [n] outputs of the OPRF is right, at an input that
    the server has not evaluated in the clear and for which it has not hashed
    the evaluated element, for at most [n] in [256 ^ Nh] of the output hash
    functions, however often it calls the server and the hash. *)
Theorem C54_oprf_unpredictable :
  forall (CS : CipherSuite) (L : SuiteLaws CS) (k : scalar CS) (R : Rng) (st : rng_state R)
         (A : attack (oprf_call CS) (reply CS) (list (bytes * bytes))) (n : nat),
  names_at_most n A ->
  N.of_nat (length (all_digests (output_size (CSHash CS)))) = 256 ^ output_size (CSHash CS) /\
  chance_at_most (all_digests (output_size (CSHash CS))) n (oprf_guessed L k R st A).
Proof.
  intros CS L k R st A n Hn. split; [apply all_digests_number|].
  apply (chance_of_claims (oprf_serves k R) (oprf_hashes L k) (fun _ _ => any_digest L)
    (fun O O' c st => oprf_dep L k R O O' c st)
    (fun '(input, out) => if 65535 <? len input then []
       else point_of _ (finalize_string input (elem_mul (CSGroup CS) (H2G L modeOPRF input) k)) out)
    n A st); auto.
  { intros [i out]. destruct (65535 <? len i); simpl; [lia|]. unfold point_of. rewrite map_length. apply to_digest_short. }
  intros O out hashed calls Hp Hw. unfold oprf_guessed in Hw. rewrite Hp in Hw.
  apply existsb_exists in Hw as ([i o] & Hin & Hw). apply andb_prop in Hw as [Hw Hc]. apply andb_prop in Hw as [Hw Hh].
  apply returns_output_spec in Hw. rewrite (oprf_evaluate_form L) in Hw.
  destruct (65535 <? len i) eqn:Ei; [discriminate|]. cbn [orb] in Hw.
  destruct (is_identity_elem _ _); [discriminate|]. injection Hw as Hv.
  exists (i, o), (finalize_string i (elem_mul (CSGroup CS) (H2G L modeOPRF i) k), []). eexists.
  split; [exact Hin|]. split. { cbv beta iota. rewrite Ei. exact (point_of_value _ O _ _ Hv). } split; [reflexivity|].
  apply N.ltb_ge in Ei. split.
  - intros m Hm E. apply (f_equal fst) in E. cbn [fst] in E.
    exact (same_bytes_false _ _ (not_existsb _ _ Hh m Hm) E).
  - intros c m Hcin Em E. apply (f_equal fst) in E. cbn [fst] in E. subst m.
    pose proof (not_existsb _ _ Hc c Hcin) as Hf. destruct c as [e|i']; [discriminate|]. unfold oprf_hashes in Em.
    destruct (65535 <? len i') eqn:Ei'; [discriminate|]. apply N.ltb_ge in Ei'. apply (f_equal (fun o => match o with Some x => x | None => [] end)) in Em.
    apply (finalize_string_inj L) in Em as [<- _]; auto. cbn in Hf. exact (same_bytes_false _ _ Hf eq_refl).
Qed.

Theorem C54_voprf_unpredictable :
  forall (CS : CipherSuite) (L : SuiteLaws CS) (k : scalar CS) (R : Rng) (st : rng_state R)
         (A : attack (voprf_call CS) (reply CS) (list (bytes * bytes))) (n : nat),
  names_at_most n A ->
  N.of_nat (length (all_digests (output_size (CSHash CS)))) = 256 ^ output_size (CSHash CS) /\
  chance_at_most (all_digests (output_size (CSHash CS))) n (voprf_guessed L k R st A).
Proof.
  intros CS L k R st A n Hn. split; [apply all_digests_number|].
  apply (chance_of_claims (voprf_serves k R) (voprf_hashes L k) (fun _ _ => any_digest L)
    (fun O O' c st => voprf_dep L k R O O' c st)
    (fun '(input, out) => if 65535 <? len input then []
       else point_of _ (finalize_string input (elem_mul (CSGroup CS) (H2G L modeVOPRF input) k)) out)
    n A st); auto.
  { intros [i out]. destruct (65535 <? len i); simpl; [lia|]. unfold point_of. rewrite map_length. apply to_digest_short. }
  intros O out hashed calls Hp Hw. unfold voprf_guessed in Hw. rewrite Hp in Hw.
  apply existsb_exists in Hw as ([i o] & Hin & Hw). apply andb_prop in Hw as [Hw Hc]. apply andb_prop in Hw as [Hw Hh].
  apply returns_output_spec in Hw. rewrite (voprf_evaluate_form L) in Hw.
  destruct (65535 <? len i) eqn:Ei; [discriminate|]. cbn [orb] in Hw.
  destruct (is_identity_elem _ _); [discriminate|]. injection Hw as Hv.
  exists (i, o), (finalize_string i (elem_mul (CSGroup CS) (H2G L modeVOPRF i) k), []). eexists.
  split; [exact Hin|]. split. { cbv beta iota. rewrite Ei. exact (point_of_value _ O _ _ Hv). } split; [reflexivity|].
  apply N.ltb_ge in Ei. split.
  - intros m Hm E. apply (f_equal fst) in E. cbn [fst] in E.
    exact (same_bytes_false _ _ (not_existsb _ _ Hh m Hm) E).
  - intros c m Hcin Em E. apply (f_equal fst) in E. cbn [fst] in E. subst m.
    pose proof (not_existsb _ _ Hc c Hcin) as Hf. destruct c as [e|es|i'].
    + apply (f_equal (fun o => match o with Some x => x | None => [] end)) in Em. exact (finalize_not_seed L _ _ _ _ Ei (eq_sym Em)).
    + apply (f_equal (fun o => match o with Some x => x | None => [] end)) in Em. exact (finalize_not_seed L _ _ _ _ Ei (eq_sym Em)).
    + unfold voprf_hashes in Em. destruct (65535 <? len i') eqn:Ei'; [discriminate|]. apply N.ltb_ge in Ei'. apply (f_equal (fun o => match o with Some x => x | None => [] end)) in Em.
      apply (finalize_string_inj L) in Em as [<- _]; auto. cbn in Hf. exact (same_bytes_false _ _ Hf eq_refl).
Qed.

Theorem C54_poprf_unpredictable :
  forall (CS : CipherSuite) (L : SuiteLaws CS) (k : scalar CS) (R : Rng) (st : rng_state R)
         (A : attack (poprf_call CS) (reply CS) (list (bytes * option bytes * bytes))) (n : nat),
  names_at_most n A ->
  N.of_nat (length (all_digests (output_size (CSHash CS)))) = 256 ^ output_size (CSHash CS) /\
  chance_at_most (all_digests (output_size (CSHash CS))) n (poprf_guessed L k R st A).
Proof.
  intros CS L k R st A n Hn. split; [apply all_digests_number|].
  apply (chance_of_claims (poprf_serves k R) (poprf_hashes L k) (fun _ _ => any_digest L)
    (fun O O' c st => poprf_dep L k R O O' c st)
    (fun '(input, info, out) => if (65535 <? len input) || (65535 <? len (info_or_default info)) then []
       else point_of _ (poprf_string L k input info) out)
    n A st); auto.
  { intros [[i info] out]. destruct (_ || _); simpl; [lia|]. unfold point_of. rewrite map_length. apply to_digest_short. }
  intros O out hashed calls Hp Hw. unfold poprf_guessed in Hw. rewrite Hp in Hw.
  apply existsb_exists in Hw as ([[i info] o] & Hin & Hw). apply andb_prop in Hw as [Hw Hc]. apply andb_prop in Hw as [Hw Hh].
  apply returns_output_spec in Hw. rewrite (poprf_evaluate_form L) in Hw.
  destruct (is_identity_elem _ _); [discriminate|].
  destruct (65535 <? len (info_or_default info)) eqn:En; [discriminate|].
  destruct (is_zero_scalar _ _); [discriminate|].
  destruct (65535 <? len i) eqn:Ei; [discriminate|]. injection Hw as Hv.
  exists (i, info, o), (poprf_string L k i info, []). eexists.
  split; [exact Hin|]. split. { cbv beta iota. rewrite Ei, En. exact (point_of_value _ O _ _ Hv). } split; [reflexivity|].
  apply N.ltb_ge in Ei. apply N.ltb_ge in En. split.
  - intros m Hm E. apply (f_equal fst) in E. cbn [fst] in E.
    exact (same_bytes_false _ _ (not_existsb _ _ Hh m Hm) E).
  - intros c m Hcin Em E. apply (f_equal fst) in E. cbn [fst] in E. subst m.
    pose proof (not_existsb _ _ Hc c Hcin) as Hf. destruct c as [e n'|es n'|i' n'].
    + apply (f_equal (fun o => match o with Some x => x | None => [] end)) in Em. exact (poprf_string_not_seed L k _ _ _ _ Ei En (eq_sym Em)).
    + apply (f_equal (fun o => match o with Some x => x | None => [] end)) in Em. exact (poprf_string_not_seed L k _ _ _ _ Ei En (eq_sym Em)).
    + unfold poprf_hashes in Em. destruct (65535 <? len i') eqn:Ei'; [discriminate|].
      destruct (65535 <? len (info_or_default n')) eqn:En'; [discriminate|]. apply N.ltb_ge in Ei', En'. cbn [orb] in Em.
      apply (f_equal (fun o => match o with Some x => x | None => [] end)) in Em.
      apply (poprf_string_inj L k) in Em as [<- <-]; auto.
      assert (Hs : same_info n' n' = true) by (destruct n'; cbn; auto; now apply same_bytes_spec).
      rewrite Hs, (proj2 (same_bytes_spec i' i') eq_refl) in Hf. discriminate.
Qed.

(** Cases.  An attacker that names an output without hashing is right for the
    function with that value; one that runs the protocol is right, and has
    hashed the evaluated element. *)
Definition ex_digest : oracle (output_digest TS) := fun m _ => exist _ (digest (CSHash TS) m) (digest_len TS TL m).
Definition ex_value : oracle (output_digest TS) := fun m _ => exist _ (repeat x00 4) eq_refl.

Definition ex_blind_guess {Call Reply} : attack Call Reply (list (bytes * bytes)) := Name [(ex_input, repeat x00 4)].
Definition ex_protocol : attack (oprf_call TS) (reply TS) (list (bytes * bytes)) :=
  let G := CSGroup TS in
  Query (OBlindEvaluate (elem_mul G (H2G TL modeOPRF ex_input) (ex_scalar 9))) (fun r =>
    match r with
    | Evaluated (Ok ([e], _)) =>
        Hash (lv ex_input ++ lv (serialize_elem G (elem_mul G e (s_inv (group_laws TL) (ex_scalar 9)))) ++ str "Finalize")
          (fun d => Name [(ex_input, d)])
    | _ => Name []
    end).
Definition ex_named {Call} (p : list (bytes * bytes) * list bytes * list Call) : list (bytes * bytes) := fst (fst p).

Example C54_case :
  names_at_most 1 (ex_blind_guess (Call := oprf_call TS) (Reply := reply TS)) /\ names_at_most 1 ex_protocol /\
  oprf_guessed TL (ex_scalar 42) CtrRng 17 ex_blind_guess ex_value = true /\
  voprf_guessed TL (ex_scalar 42) CtrRng 17 (Query (VBatch [ex_elem 3; ex_elem 4]) (fun _ => ex_blind_guess)) ex_value = true /\
  poprf_guessed TL (ex_scalar 42) CtrRng 17 (Query (PEvaluate ex_input (Some ex_info)) (fun _ =>
     Name [(ex_input, None, repeat x00 4)])) ex_value = true /\
  oprf_guessed TL (ex_scalar 42) CtrRng 17 ex_protocol ex_digest = false /\
  (let named := ex_named (play (fun m => value (ex_digest m [])) (oprf_serves (ex_scalar 42) CtrRng ex_digest) ex_protocol 17) in
   map (fun '(i, out) => returns_output (oprf_server_evaluate (with_digest TS ex_digest) (mkOprfServer (CS := with_digest TS ex_digest) (ex_scalar 42)) i) out) named = [true]).
Proof.
  split; [simpl; lia|]. split.
  { simpl. intros [[[[|e [|]] p]| | |]|]; simpl; try lia. }
  split; [vm_compute; reflexivity|]. split; [vm_compute; reflexivity|]. split; [vm_compute; reflexivity|].
  split; vm_compute; reflexivity.
Qed.
