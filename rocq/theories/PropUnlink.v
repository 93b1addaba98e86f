(** * C59: sessions cannot be linked to outputs.

    Clients open sessions on some inputs.  A server sees their messages and
    answers as it likes.  Later it sees all outputs, in shuffled order.  If its
    answers were all made with one key, it learns nothing about which session
    had which input: any verdict is reached exactly as often, over all blinding
    factors, if the inputs are dealt to the sessions in any other order. *)
From Verif Require Import Laws Spec BytesFacts GroupFacts CommonFacts OprfFacts VoprfFacts PoprfFacts
  PropCorrectness PropSimulation Oracle ZkFacts PropUnpredict PropRom PropZk PropOblivious PropIters Zq.
From Verif Require PropUniform.
From Coq Require Import Lia Permutation.
Open Scope N_scope.

(** ** The game *)

(** Clients open sessions one after the other; each is kept with its input and
    its message. *)
Fixpoint open_all {E C St} (blind : bytes -> St -> res (C * E) * St) (xs : list bytes) (st : St) : list (bytes * (C * E)) :=
  match xs with
  | [] => []
  | x :: xs =>
      match blind x st with
      | (Ok session, st') => (x, session) :: open_all blind xs st'
      | (_, st') => open_all blind xs st'
      end
  end.
Definition input_of {C E} (s : bytes * (C * E)) : bytes := fst s.
Definition client_of {C E} (s : bytes * (C * E)) : C := fst (snd s).
Definition message_of {C E} (s : bytes * (C * E)) : E := snd (snd s).

(** The answers are the messages times one scalar. *)
Fixpoint all_times {CS} (t : scalar CS) (messages answers : list (elem CS)) : bool :=
  match messages, answers with
  | [], [] => true
  | m :: messages, a :: answers => elem_ct_eq (CSGroup CS) a (elem_mul (CSGroup CS) m t) && all_times t messages answers
  | _, _ => false
  end.

(** A verdict on the messages and the outputs that does not depend on the
    order of the outputs. *)
Definition shuffles {E} (judge : list E -> res (list (res bytes)) -> bool) : Prop :=
  forall messages a b, Permutation a b -> judge messages (Ok a) = judge messages (Ok b).

(** The clients' outputs. *)
Definition oprf_gets {CS} (sessions : list (bytes * (OprfClient CS * elem CS))) (answers : list (elem CS)) : res (list (res bytes)) :=
  Ok (map (fun '(s, a) => oprf_client_finalize CS (client_of s) (input_of s) (mkEvaluation a)) (combine sessions answers)).
Definition voprf_gets {CS} (pk : elem CS) (sessions : list (bytes * (VoprfClient CS * elem CS))) (answers : list (elem CS))
    (proof : Proof CS) : res (list (res bytes)) :=
  voprf_client_batch_finalize CS (map input_of sessions) (map client_of sessions) (map mkEvaluation answers) proof pk.
Definition poprf_gets {CS} (pk : elem CS) (info : option bytes) (sessions : list (bytes * (PoprfClient CS * elem CS)))
    (answers : list (elem CS)) (proof : Proof CS) : res (list (res bytes)) :=
  poprf_client_batch_finalize CS (map input_of sessions) (map client_of sessions) (map mkEvaluation answers) proof pk info.

(** One run: [server] answers the messages; the run counts if all answers are
    made with [t] and the judge says yes. *)
Definition linking {CS} {C P : Type} (t : scalar CS) (server : list (elem CS) -> list (elem CS) * P)
    (gets : list (bytes * (C * elem CS)) -> list (elem CS) -> P -> res (list (res bytes)))
    (judge : list (elem CS) -> res (list (res bytes)) -> bool) (sessions : list (bytes * (C * elem CS))) : bool :=
  let messages := map message_of sessions in
  let '(answers, proof) := server messages in
  all_times t messages answers && judge messages (gets sessions answers proof).

(** ** Proofs *)
Section Unlink.
Context {CS : CipherSuite} (L : SuiteLaws CS).
Context (scalars : list (scalar CS)) (all_scalars : forall a, In a scalars) (nodup_scalars : NoDup scalars).
Local Notation G := (CSGroup CS).
Local Notation GL := (group_laws L).
Local Notation S := (scalar CS).
Local Notation nonces := (nonces scalars).
Local Notation "k [*] P" := (elem_mul G P k) (at level 40).
Add Field scalar_field_u : (scalar_field G GL).

Fixpoint times (rs : list S) (hs : list (elem CS)) : list (elem CS) :=
  match rs, hs with r :: rs, h :: hs => (r [*] h) :: times rs hs | _, _ => [] end.

Lemma count_messages hs : forall hs' (g : list (elem CS) -> bool),
  length hs = length hs' ->
  Forall (fun h => h <> identity_elem G) hs -> Forall (fun h => h <> identity_elem G) hs' ->
  count (fun rs => g (times rs hs)) (sequences (length hs) nonces)
  = count (fun rs => g (times rs hs')) (sequences (length hs) nonces).
Proof.
  induction hs as [|h hs IH]; intros [|h' hs'] g Hl H H'; try discriminate; [reflexivity|].
  injection Hl as Hl. inversion H as [|? ? H0 Ht]; subst. inversion H' as [|? ? H0' Ht']; subst.
  cbn [length sequences]. rewrite !PropZk.count_flat_map.
  destruct (elem_generated_by GL h h' H0) as [u Hu].
  assert (Hu0 : u <> zero_scalar G) by (intros ->; rewrite (elem_mul_zero G GL) in Hu; contradiction).
  match goal with |- sum ?f nonces = _ =>
    rewrite <- (sum_perm f _ _ (scale_perm L scalars all_scalars nodup_scalars u Hu0)), (sum_map f) end.
  apply sum_ext. intros r _. rewrite !PropZk.count_map. cbn [times].
  assert (E : scalar_mul G r u [*] h = r [*] h').
  { rewrite Hu, (elem_mul_mul G GL). f_equal. ring. }
  rewrite E. exact (IH hs' (fun l => g (r [*] h' :: l)) Hl Ht Ht').
Qed.

Lemma sequences_spec n l rs : In rs (sequences n l) -> length rs = n /\ Forall (fun r : S => In r l) rs.
Proof.
  revert rs. induction n as [|n IH]; intros rs H; cbn [sequences] in H.
  - destruct H as [<-|[]]. auto.
  - apply in_flat_map in H as (r & Hr & H). apply in_map_iff in H as (rs' & <- & H). apply IH in H as [H1 H2].
    split; [simpl; lia|]. now constructor.
Qed.

Section Generic.
Context {C P St : Type} (blind : bytes -> St -> res (C * elem CS) * St) (draw : list S -> St) (mode : N) (client : S -> elem CS -> C).
Context (gets : list (bytes * (C * elem CS)) -> list (elem CS) -> P -> res (list (res bytes))).
Context (blind_draws : forall x r rs, r <> zero_scalar G ->
  blind x (draw (r :: rs)) = (Ok (client r (r [*] H2G L mode x), r [*] H2G L mode x), draw rs)).
Context (t : S) (F : bytes -> res bytes) (check : list (elem CS) -> list (elem CS) -> P -> res unit).

Fixpoint opened (xs : list bytes) (rs : list S) : list (bytes * (C * elem CS)) :=
  match xs, rs with
  | x :: xs, r :: rs => (x, (client r (r [*] H2G L mode x), r [*] H2G L mode x)) :: opened xs rs
  | _, _ => []
  end.
Context (gets_ok : forall xs rs answers proof, length rs = length xs -> Forall (fun r => r <> zero_scalar G) rs ->
  all_times t (map message_of (opened xs rs)) answers = true ->
  gets (opened xs rs) answers proof
  = bind (check (map message_of (opened xs rs)) answers proof) (fun _ => Ok (map F xs))).

Lemma open_all_opened xs : forall rs, length rs = length xs -> Forall (fun r => r <> zero_scalar G) rs ->
  open_all blind xs (draw rs) = opened xs rs.
Proof.
  induction xs as [|x xs IH]; intros [|r rs] Hl Hr; try discriminate; auto. injection Hl as Hl.
  inversion Hr; subst. cbn [open_all opened]. rewrite blind_draws by auto. f_equal. auto.
Qed.
Lemma messages_opened xs : forall rs, map message_of (opened xs rs) = times rs (map (H2G L mode) xs).
Proof. induction xs as [|x xs IH]; intros [|r rs]; cbn [opened map times]; auto. now rewrite IH. Qed.

Lemma unlinkable_generic server judge xs ys : shuffles judge -> Permutation xs ys ->
  Forall (fun x => H2G L mode x <> identity_elem G) xs ->
  count (fun rs => linking t server gets judge (open_all blind xs (draw rs))) (sequences (length xs) nonces)
  = count (fun rs => linking t server gets judge (open_all blind ys (draw rs))) (sequences (length xs) nonces).
Proof.
  intros Hj Hp Hx.
  pose (g := fun outs ms => let '(answers, proof) := server ms in
     all_times t ms answers && judge ms (bind (check ms answers proof) (fun _ => Ok outs))).
  assert (Hg : forall zs, length zs = length xs ->
    count (fun rs => linking t server gets judge (open_all blind zs (draw rs))) (sequences (length xs) nonces)
    = count (fun rs => g (map F zs) (times rs (map (H2G L mode) zs))) (sequences (length xs) nonces)).
  { intros zs Hz. apply count_ext. intros rs Hrs. apply sequences_spec in Hrs as [Hl Hr].
    assert (Hr' : Forall (fun r => r <> zero_scalar G) rs).
    { eapply Forall_impl; [|exact Hr]. intros r H. now apply (nonce_iff L scalars all_scalars) in H. }
    rewrite open_all_opened by (auto; congruence). unfold linking, g. rewrite <- messages_opened.
    destruct (server (map message_of (opened zs rs))) as [answers proof].
    destruct (all_times t (map message_of (opened zs rs)) answers) eqn:Ea; [|reflexivity]. cbn [andb].
    now rewrite gets_ok by (auto; congruence). }
  rewrite (Hg xs eq_refl), (Hg ys) by (now rewrite (Permutation_length Hp)).
  rewrite (count_ext (fun rs => g (map F ys) _) (fun rs => g (map F xs) (times rs (map (H2G L mode) ys)))).
  2: { intros rs _. unfold g. destruct (server _) as [answers proof]. f_equal.
       destruct (check _ answers proof) as [[]|e| |]; cbn [bind]; auto. apply Hj. apply Permutation_map. now symmetry. }
  pose proof (count_messages (map (H2G L mode) xs) (map (H2G L mode) ys) (g (map F xs))) as E.
  rewrite !map_length in E. apply E.
  - now apply Permutation_length.
  - apply Forall_map. exact Hx.
  - apply Forall_map. eapply Permutation_Forall; eauto.
Qed.
End Generic.

Lemma unblind (t r : S) (h : elem CS) : r <> zero_scalar G -> s_inv GL r [*] (t [*] (r [*] h)) = t [*] h.
Proof. intros Hr. rewrite (mul_comm2 GL h t r). now apply (mul_inv_cancel GL). Qed.

Lemma all_times_spec t : forall ms es, @all_times CS t ms es = true -> es = map (fun m => t [*] m) ms.
Proof.
  induction ms as [|m ms IH]; intros [|e es] H; try discriminate; auto. cbn [all_times] in H.
  apply andb_prop in H as [H1 H2]. apply (elem_ct_eq_spec G GL) in H1 as ->. cbn [map]. now rewrite <- (IH es H2).
Qed.

Lemma oprf_item t x r : r <> zero_scalar G ->
  oprf_client_finalize CS (mkOprfClient r) x (mkEvaluation (t [*] (r [*] H2G L modeOPRF x)))
  = oprf_finalize_one CS x (t [*] H2G L modeOPRF x).
Proof.
  intros Hr. unfold oprf_client_finalize. cbn [oprf_blind]. rewrite (invert_nonzero G GL) by auto.
  cbn [bind next_unwrap oprf_finalize_after_unblind map evaluation_value]. now rewrite unblind.
Qed.
Lemma voprf_item t x r m : r <> zero_scalar G ->
  voprf_output (x, (mkVoprfClient r m, mkEvaluation (t [*] (r [*] H2G L modeVOPRF x))))
  = voprf_finalize_one CS x (t [*] H2G L modeVOPRF x).
Proof.
  intros Hr. unfold voprf_output, voprf_unblind_one. cbn [fst snd voprf_blind]. rewrite (invert_nonzero G GL) by auto.
  cbn [bind evaluation_value]. now rewrite unblind.
Qed.
Lemma poprf_item t x r m info : r <> zero_scalar G ->
  poprf_output info (x, (mkPoprfClient r m, mkEvaluation (t [*] (r [*] H2G L modePOPRF x))))
  = poprf_finalize_one CS (t [*] H2G L modePOPRF x) x (info_or_default info).
Proof.
  intros Hr. unfold poprf_output, poprf_unblind_one. cbn [fst snd poprf_blind]. rewrite (invert_nonzero G GL) by auto.
  cbn [bind evaluation_value]. now rewrite unblind.
Qed.

Lemma clients_opened {C} mode (client : S -> elem CS -> C) (part : C -> elem CS) : (forall r m, part (client r m) = m) ->
  forall xs rs, map part (map client_of (opened mode client xs rs)) = map message_of (opened mode client xs rs).
Proof. intros H xs. induction xs as [|x xs IH]; intros [|r rs]; cbn [opened map]; auto. unfold client_of at 1, message_of at 1. cbn [fst snd]. now rewrite H, IH. Qed.
Lemma inputs_opened {C} mode (client : S -> elem CS -> C) : forall xs rs, length rs = length xs ->
  map input_of (opened mode client xs rs) = xs.
Proof. induction xs as [|x xs IH]; intros [|r rs] H; try discriminate; auto. injection H as H. cbn [opened map]. now rewrite IH. Qed.
Lemma length_opened {C} mode (client : S -> elem CS -> C) : forall xs rs, length rs = length xs ->
  length (opened mode client xs rs) = length xs.
Proof. induction xs as [|x xs IH]; intros [|r rs] H; try discriminate; auto. injection H as H. cbn [opened length]. now rewrite IH. Qed.

Lemma evaluations l : map evaluation_value (map (@mkEvaluation CS) l) = l.
Proof. rewrite map_map. apply map_id. Qed.
End Unlink.

(** ** C59 *)

(** Base mode: the answers come without proof. *)
Theorem C59_oprf_unlinkable :
  forall (CS : CipherSuite) (L : SuiteLaws CS) (scalars : list (scalar CS)), enumerates scalars ->
  forall (R : Rng) (draw : list (scalar CS) -> rng_state R), yields (CSGroup CS) R draw ->
  forall (t : scalar CS) (server : list (elem CS) -> list (elem CS) * unit)
         (judge : list (elem CS) -> res (list (res bytes)) -> bool) (xs ys : list bytes),
  shuffles judge -> Permutation xs ys ->
  Forall (fun x => H2G L modeOPRF x <> identity_elem (CSGroup CS)) xs ->
  let linked zs rs := linking t server (fun sessions answers _ => oprf_gets sessions answers) judge
                        (open_all (oprf_opens CS R) zs (draw rs)) in
  count (linked xs) (sequences (length xs) (nonces scalars))
  = count (linked ys) (sequences (length xs) (nonces scalars)).
Proof.
  intros CS L scalars [Hd Ha] R draw Hy t server judge xs ys Hj Hp Hx. cbv zeta.
  apply (unlinkable_generic L scalars Ha Hd (oprf_opens CS R) draw modeOPRF (fun r _ => mkOprfClient r)) with
    (F := fun x => oprf_finalize_one CS x (elem_mul (CSGroup CS) (H2G L modeOPRF x) t)) (check := fun _ _ _ => Ok tt); auto.
  - intros x r rs Hr. unfold oprf_opens. rewrite (oprf_blind_ok L), (Hy r rs Hr). reflexivity.
  - intros zs rs answers [] Hl Hr Ht. apply (all_times_spec L) in Ht as ->. cbn [bind]. unfold oprf_gets. f_equal.
    clear Hp. revert rs Hl Hr. induction zs as [|z zs IH]; intros [|r rs] Hl Hr; try discriminate; auto.
    injection Hl as Hl. inversion Hr; subst. cbn [opened map combine]. f_equal; [|now apply IH].
    unfold client_of, input_of, message_of. cbn [fst snd]. now apply oprf_item.
Qed.

(** Verifiable mode: the outputs are those of the batch call with the server's
    proof; what the judge sees is the failure, if that call fails. *)
Theorem C59_voprf_unlinkable :
  forall (CS : CipherSuite) (L : SuiteLaws CS) (scalars : list (scalar CS)), enumerates scalars ->
  forall (R : Rng) (draw : list (scalar CS) -> rng_state R), yields (CSGroup CS) R draw ->
  forall (pk : elem CS) (t : scalar CS) (server : list (elem CS) -> list (elem CS) * Proof CS)
         (judge : list (elem CS) -> res (list (res bytes)) -> bool) (xs ys : list bytes),
  shuffles judge -> Permutation xs ys ->
  Forall (fun x => H2G L modeVOPRF x <> identity_elem (CSGroup CS)) xs ->
  let linked zs rs := linking t server (voprf_gets pk) judge (open_all (voprf_opens CS R) zs (draw rs)) in
  count (linked xs) (sequences (length xs) (nonces scalars))
  = count (linked ys) (sequences (length xs) (nonces scalars)).
Proof.
  intros CS L scalars [Hd Ha] R draw Hy pk t server judge xs ys Hj Hp Hx. cbv zeta.
  apply (unlinkable_generic L scalars Ha Hd (voprf_opens CS R) draw modeVOPRF mkVoprfClient) with
    (F := fun x => voprf_finalize_one CS x (elem_mul (CSGroup CS) (H2G L modeVOPRF x) t))
    (check := fun ms answers proof => verify_proof CS (base_elem (CSGroup CS)) pk ms answers proof Voprf); auto.
  - intros x r rs Hr. unfold voprf_opens. rewrite (voprf_blind_ok L), (Hy r rs Hr). reflexivity.
  - intros zs rs answers proof Hl Hr Ht. unfold voprf_gets. rewrite voprf_list_form, evaluations.
    rewrite (clients_opened L modeVOPRF mkVoprfClient voprf_blinded_element) by reflexivity.
    destruct (verify_proof _ _ _ _ _ _ _) as [[]|e| |]; auto. cbn [bind]. f_equal.
    apply (all_times_spec L) in Ht as ->. rewrite (inputs_opened L modeVOPRF mkVoprfClient) by auto.
    clear Hp. revert rs Hl Hr. induction zs as [|z zs IH]; intros [|r rs] Hl Hr; try discriminate; auto.
    injection Hl as Hl. inversion Hr; subst. cbn [opened map combine]. f_equal; [|now apply IH].
    unfold client_of, input_of, message_of. cbn [fst snd]. now apply voprf_item.
Qed.

(** Partially-oblivious mode, for one public info. *)
Theorem C59_poprf_unlinkable :
  forall (CS : CipherSuite) (L : SuiteLaws CS) (scalars : list (scalar CS)), enumerates scalars ->
  forall (R : Rng) (draw : list (scalar CS) -> rng_state R), yields (CSGroup CS) R draw ->
  forall (pk : elem CS) (info : option bytes) (t : scalar CS) (server : list (elem CS) -> list (elem CS) * Proof CS)
         (judge : list (elem CS) -> res (list (res bytes)) -> bool) (xs ys : list bytes),
  shuffles judge -> Permutation xs ys ->
  Forall (fun x => H2G L modePOPRF x <> identity_elem (CSGroup CS)) xs ->
  let linked zs rs := linking t server (poprf_gets pk info) judge (open_all (poprf_opens CS R) zs (draw rs)) in
  count (linked xs) (sequences (length xs) (nonces scalars))
  = count (linked ys) (sequences (length xs) (nonces scalars)).
Proof.
  intros CS L scalars [Hd Ha] R draw Hy pk info t server judge xs ys Hj Hp Hx. cbv zeta.
  apply (unlinkable_generic L scalars Ha Hd (poprf_opens CS R) draw modePOPRF mkPoprfClient) with
    (F := fun x => poprf_finalize_one CS (elem_mul (CSGroup CS) (H2G L modePOPRF x) t) x (info_or_default info))
    (check := fun ms answers proof =>
       bind (compute_tweaked_key CS pk (Some (info_or_default info))) (fun tk =>
         verify_proof CS (base_elem (CSGroup CS)) tk answers ms proof Poprf)); auto.
  - intros x r rs Hr. unfold poprf_opens. rewrite (poprf_blind_ok L), (Hy r rs Hr). reflexivity.
  - intros zs rs answers proof Hl Hr Ht. unfold poprf_gets. rewrite poprf_list_form, evaluations.
    rewrite (clients_opened L modePOPRF mkPoprfClient poprf_blinded_element) by reflexivity.
    destruct (compute_tweaked_key _ _ _) as [tk|e| |]; auto. cbn [bind].
    destruct (verify_proof _ _ _ _ _ _ _) as [[]|e| |]; auto. cbn [bind].
    apply (all_times_spec L) in Ht as ->. rewrite (inputs_opened L modePOPRF mkPoprfClient) by auto.
    replace (N.min _ _ =? len zs) with true.
    2: { symmetry. apply N.eqb_eq. unfold len. rewrite !map_length, (length_opened L) by auto. lia. }
    cbn [negb]. f_equal.
    clear Hp. revert rs Hl Hr. induction zs as [|z zs IH]; intros [|r rs] Hl Hr; try discriminate; auto.
    injection Hl as Hl. inversion Hr; subst. cbn [opened map combine]. f_equal; [|now apply IH].
    unfold client_of, input_of, message_of. cbn [fst snd]. now apply poprf_item.
Qed.

(** Cases, for the suite with 251 scalars: two sessions, a server with one key
    and a judge that looks at the first message and all outputs.  It says yes
    in one run and no in another. *)
Definition ex_inputs : list bytes := [ex_input; ex_input2].
Definition ex_swapped : list bytes := [ex_input2; ex_input].
Definition ex_serve {P} (p : P) (keys : list (scalar TS)) (messages : list (elem TS)) : list (elem TS) * P :=
  (map (fun '(m, k) => elem_mul (CSGroup TS) m k) (combine messages keys), p).
Definition ex_got (out : bytes) (outputs : res (list (res bytes))) : bool :=
  match outputs with
  | Ok l => existsb (fun r => match r with Ok o => same_bytes o out | _ => false end) l
  | _ => false
  end.
Definition ex_wanted : bytes := FinalizeHash (CS := TS) ex_input (elem_mul (CSGroup TS) (H2G TL modeOPRF ex_input) (ex_scalar 3)).
Definition ex_judge (messages : list (elem TS)) (outputs : res (list (res bytes))) : bool :=
  (match messages with m :: _ => fval (q := 251) m <? 50 | _ => false end)%Z && ex_got ex_wanted outputs.
Definition ex_run (keys : list (scalar TS)) (xs : list bytes) (rs : list (scalar TS)) : bool :=
  linking (ex_scalar 3) (ex_serve tt keys) (fun sessions answers _ => oprf_gets sessions answers) ex_judge
    (open_all (oprf_opens TS PropUniform.TapeRng) xs (ex_tape rs)).
Lemma ex_judge_shuffles : shuffles ex_judge.
Proof.
  intros ms a b H. unfold ex_judge, ex_got. f_equal. induction H; cbn [existsb]; auto.
  - now rewrite IHPermutation.
  - now rewrite !Bool.orb_assoc, (Bool.orb_comm (match y with Ok _ => _ | _ => _ end)).
  - congruence.
Qed.

Example C59_case :
  enumerates ex_scalars /\ yields (CSGroup TS) PropUniform.TapeRng ex_tape /\
  shuffles ex_judge /\ Permutation ex_inputs ex_swapped /\
  (forall mode, In mode [modeOPRF; modeVOPRF; modePOPRF] ->
     Forall (fun x => H2G TL mode x <> identity_elem (CSGroup TS)) ex_inputs) /\
  count (ex_run [ex_scalar 3; ex_scalar 3] ex_inputs) [[ex_scalar 1; ex_scalar 5]; [ex_scalar 250; ex_scalar 5]] = 1%nat.
Proof.
  split; [exact ex_scalars_all|]. split; [exact ex_tape_yields|]. split; [exact ex_judge_shuffles|]. split; [apply perm_swap|].
  split; [|vm_compute; reflexivity].
  intros mode Hm. destruct Hm as [<-|[<-|[<-|[]]]]; repeat constructor; vm_compute; discriminate.
Qed.

(** With a key per session, a server can link: from the output for one key and
    one input it sees which session had this input. *)
Definition ex_links (xs : list bytes) (rs : list (scalar TS)) : bool :=
  let sessions := open_all (oprf_opens TS PropUniform.TapeRng) xs (ex_tape rs) in
  ex_got ex_wanted (oprf_gets sessions (fst (ex_serve tt [ex_scalar 3; ex_scalar 4] (map message_of sessions)))).
Example C59_two_keys_case :
  map (ex_links ex_inputs) [[ex_scalar 1; ex_scalar 5]; [ex_scalar 250; ex_scalar 7]] = [true; true] /\
  map (ex_links ex_swapped) [[ex_scalar 1; ex_scalar 5]; [ex_scalar 250; ex_scalar 7]] = [false; false].
Proof. vm_compute. auto. Qed.

(** In the verifiable modes the sessions end with outputs, if the server is
    honest. *)
Definition ex_proves (k : scalar TS) (messages : list (elem TS)) : list (elem TS) * Proof TS :=
  let answers := map (fun m => elem_mul (CSGroup TS) m k) messages in
  match fst (generate_proof TS CtrRng k (base_elem (CSGroup TS)) (elem_mul (CSGroup TS) (base_elem (CSGroup TS)) k) messages answers Voprf 0) with
  | Ok p => (answers, p)
  | _ => (answers, mkProof k k)
  end.
Example C59_voprf_case :
  count (fun rs => linking (ex_scalar 3) (ex_proves (ex_scalar 3)) (voprf_gets (elem_mul (CSGroup TS) (base_elem (CSGroup TS)) (ex_scalar 3)))
      (fun _ outputs => match outputs with Ok _ => true | _ => false end)
      (open_all (voprf_opens TS PropUniform.TapeRng) ex_inputs (ex_tape rs)))
    [[ex_scalar 1; ex_scalar 5]; [ex_scalar 250; ex_scalar 7]] = 2%nat.
Proof. vm_compute. reflexivity. Qed.
