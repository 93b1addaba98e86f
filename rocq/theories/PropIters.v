(** * C58: the batch functions and the collections they are given.

    With collections that yield the same items each time and know their number
    the functions are those of the other properties.  In general the proof
    covers the items yielded within the claimed number, on the traversal made
    for the proof. *)
From Verif Require Import Laws Spec BytesFacts GroupFacts CommonFacts OprfFacts VoprfFacts PoprfFacts PropBatch PropCorrectness Iters Zq.
From Coq Require Import Lia.
Open Scope N_scope.

(** ** Proofs *)
Section Facts.
Context {CS : CipherSuite}.
Local Notation G := (CSGroup CS).

(** The number of pairs that go into the proof. *)
Definition covered {A B} (c : Traversal A) (d : Traversal B) : nat :=
  Nat.min (N.to_nat (claims c)) (Nat.min (length (items c)) (length (items d))).
(** The batch is refused. *)
Definition refused {A B} (c : Traversal A) (d : Traversal B) : bool :=
  negb (claims c =? claims d) || (65535 <? claims c).

Lemma combine_firstn {A B} n (l : list A) (l' : list B) : combine (firstn n l) (firstn n l') = firstn n (combine l l').
Proof. revert l l'. induction n as [|n IH]; intros [|a l] [|b l']; simpl; auto. now rewrite IH. Qed.
Lemma combine_min {A B} n (l : list A) (l' : list B) : (length l' <= n)%nat -> combine (firstn n l) l' = combine l l'.
Proof. revert l l'. induction n as [|n IH]; intros [|a l] [|b l'] H; simpl in *; auto; try lia. rewrite IH; auto. lia. Qed.
Lemma seq_firstn n m i : firstn n (seq i m) = seq i (Nat.min n m).
Proof. revert m i. induction n as [|n IH]; intros [|m] i; simpl; auto. now rewrite IH. Qed.
Lemma range_combine {A B} n (c : list A) (d : list B) :
  let v := Nat.min (N.to_nat n) (Nat.min (length c) (length d)) in
  combine (u16_range n) (combine c d) = combine (u16_range (N.of_nat v)) (combine (firstn v c) (firstn v d)).
Proof.
  intros v. rewrite combine_firstn. unfold u16_range. rewrite Nnat.Nat2N.id.
  replace (seq 0 v) with (firstn v (seq 0 (N.to_nat n))) by (rewrite seq_firstn; f_equal; unfold v; lia).
  rewrite <- firstn_map, combine_firstn.
  symmetry. apply firstn_all2. rewrite combine_length, map_length, seq_length, combine_length. unfold v. lia.
Qed.

Lemma len_firstn {A} v (l : list A) : (v <= length l)%nat -> len (firstn v l) = N.of_nat v.
Proof. intros H. unfold len. rewrite firstn_length. f_equal. lia. Qed.

Lemma composites_it k b (c d : Traversal (elem CS)) mode :
  compute_composites_it CS k b c d mode =
  if refused c d then Err EBatch
  else compute_composites CS k b (firstn (covered c d) (items c)) (firstn (covered c d) (items d)) mode.
Proof.
  unfold compute_composites_it, compute_composites, refused.
  destruct (claims c =? claims d) eqn:E; [|reflexivity]. cbn [negb orb]. unfold u16_max.
  rewrite N.ltb_antisym. destruct (claims c <=? 65535) eqn:El; [|reflexivity]. cbn [negb].
  assert (Hc : (covered c d <= length (items c))%nat) by (unfold covered; lia).
  assert (Hd : (covered c d <= length (items d))%nat) by (unfold covered; lia).
  rewrite !len_firstn by auto. rewrite N.eqb_refl. cbn [negb].
  apply N.leb_le in El. rewrite (proj2 (N.leb_le (N.of_nat (covered c d)) 65535)) by (unfold covered; lia). cbn [negb].
  rewrite (range_combine (claims c) (items c) (items d)). reflexivity.
Qed.
Lemma verify_it a b (c d : Traversal (elem CS)) proof mode :
  verify_proof_it CS a b c d proof mode =
  if refused c d then Err EBatch
  else verify_proof CS a b (firstn (covered c d) (items c)) (firstn (covered c d) (items d)) proof mode.
Proof. unfold verify_proof_it. rewrite composites_it. destruct (refused c d); reflexivity. Qed.
Lemma generate_it R k a b (c d : Traversal (elem CS)) mode st :
  generate_proof_it CS R k a b c d mode st =
  if refused c d then (Err EBatch, st)
  else generate_proof CS R k a b (firstn (covered c d) (items c)) (firstn (covered c d) (items d)) mode st.
Proof. unfold generate_proof_it. rewrite composites_it. destruct (refused c d); reflexivity. Qed.

Lemma covered_exact {A B} (l : list A) (l' : list B) : length l = length l' -> covered (exact l) (exact l') = length l.
Proof. intros H. unfold covered, exact. cbn [claims items]. unfold len. lia. Qed.
Lemma generate_exact R k a b (l l' : list (elem CS)) mode st :
  generate_proof_it CS R k a b (exact l) (exact l') mode st = generate_proof CS R k a b l l' mode st.
Proof. reflexivity. Qed.
Lemma tmap_exact {A B} (f : A -> B) l : tmap f (exact l) = exact (map f l).
Proof. unfold tmap, exact. cbn [claims items]. now rewrite len_map. Qed.
End Facts.

(** ** C58 *)

(** Collections that yield the same items each time and claim their number. *)
Theorem C58_exact_collections :
  forall (CS : CipherSuite),
  (forall inputs clients messages proof pk,
     voprf_client_batch_finalize_it CS (exact inputs) (exact clients) (exact clients) (exact messages) (exact messages) proof pk
     = voprf_client_batch_finalize CS inputs clients messages proof pk) /\
  (forall inputs clients messages proof pk info,
     poprf_client_batch_finalize_it CS (exact inputs) (exact clients) (exact clients) (exact messages) (exact messages) proof pk info
     = poprf_client_batch_finalize CS inputs clients messages proof pk info) /\
  (forall server R blinded prepared st,
     voprf_server_batch_blind_evaluate_finish_it CS server R (exact blinded) (exact prepared) (exact prepared) st
     = voprf_server_batch_blind_evaluate_finish CS server R blinded prepared st) /\
  (forall server R blinded st,
     voprf_server_batch_blind_evaluate_it CS server R (exact blinded) (exact blinded) st
     = voprf_server_batch_blind_evaluate CS server R blinded st) /\
  (forall R blinded prepared tweak st,
     poprf_server_batch_blind_evaluate_finish_it CS R (exact blinded) (exact prepared) (exact prepared) tweak st
     = poprf_server_batch_blind_evaluate_finish CS R blinded prepared tweak st) /\
  (forall server R blinded info st,
     poprf_server_batch_blind_evaluate_it CS server R (exact blinded) (exact blinded) info st
     = poprf_server_batch_blind_evaluate CS server R blinded info st).
Proof.
  intros CS.
  assert (V : forall a b (l l' : list (elem CS)) proof mode, verify_proof_it CS a b (exact l) (exact l') proof mode = verify_proof CS a b l l' proof mode)
    by reflexivity.
  split.
  { intros. unfold voprf_client_batch_finalize_it, voprf_client_batch_finalize, verifiable_unblind_it, verifiable_unblind.
    rewrite !tmap_exact, V. reflexivity. }
  split.
  { intros. unfold poprf_client_batch_finalize_it, poprf_client_batch_finalize, poprf_unblind_it, poprf_unblind.
    destruct (compute_tweaked_key CS pk _) as [tk|e| |]; try reflexivity. cbn [bind].
    rewrite !tmap_exact, V. destruct (verify_proof _ _ _ _ _ _ _) as [[]|e| |]; try reflexivity. cbn [bind].
    unfold poprf_finalize_after_unblind_it, poprf_finalize_after_unblind, exact. cbn [claims items].
    replace (N.min (len (map poprf_blind clients)) (len messages))
      with (len (map (fun '(blind, x) => poprf_unblind_one CS blind x) (combine (map poprf_blind clients) messages))); [reflexivity|].
    unfold len. rewrite map_length, combine_length. lia. }
  assert (V1 : forall server R blinded prepared st,
     voprf_server_batch_blind_evaluate_finish_it CS server R (exact blinded) (exact prepared) (exact prepared) st
     = voprf_server_batch_blind_evaluate_finish CS server R blinded prepared st).
  { intros. unfold voprf_server_batch_blind_evaluate_finish_it, voprf_server_batch_blind_evaluate_finish.
    rewrite !tmap_exact. reflexivity. }
  assert (V2 : forall R blinded prepared tweak st,
     poprf_server_batch_blind_evaluate_finish_it CS R (exact blinded) (exact prepared) (exact prepared) tweak st
     = poprf_server_batch_blind_evaluate_finish CS R blinded prepared tweak st).
  { intros. unfold poprf_server_batch_blind_evaluate_finish_it, poprf_server_batch_blind_evaluate_finish.
    rewrite !tmap_exact. reflexivity. }
  split; [exact V1|]. split.
  { intros. unfold voprf_server_batch_blind_evaluate_it, voprf_server_batch_blind_evaluate. unfold rbind at 1 2.
    now rewrite V1. }
  split; [exact V2|].
  intros. unfold poprf_server_batch_blind_evaluate_it, poprf_server_batch_blind_evaluate. cbn [items exact].
  unfold rbind at 1 4. unfold rret at 1 5.
  destruct (poprf_server_batch_blind_evaluate_prepare CS server blinded info) as [p|e| |]; try reflexivity.
  unfold rbind at 1 3. unfold rret at 1 3. destruct (collect (poprf_prepared_elements p)) as [ps|e| |]; try reflexivity.
  unfold rbind at 1 2. unfold runwrap. now rewrite V2.
Qed.

(** What one output is made of: the input, the client's blind, the message. *)
Definition voprf_output {CS} (item : bytes * (VoprfClient CS * EvaluationElement CS)) : res bytes :=
  bind (voprf_unblind_one CS (voprf_blind (fst (snd item))) (snd (snd item))) (voprf_finalize_one CS (fst item)).
Definition poprf_output {CS} (info : option bytes) (item : bytes * (PoprfClient CS * EvaluationElement CS)) : res bytes :=
  bind (poprf_unblind_one CS (poprf_blind (fst (snd item))) (snd (snd item)))
       (fun e => poprf_finalize_one CS e (fst item) (info_or_default info)).

Lemma voprf_outputs {CS} (inputs : list bytes) (clients : list (VoprfClient CS)) messages :
  voprf_finalize_after_unblind CS (combine inputs (map (fun '(blind, x) => voprf_unblind_one CS blind x) (combine (map voprf_blind clients) messages)))
  = map voprf_output (combine inputs (combine clients messages)).
Proof.
  unfold voprf_finalize_after_unblind. revert clients messages. induction inputs as [|i inputs IH]; intros clients messages; auto.
  destruct clients as [|c clients]; auto. destruct messages as [|m messages]; auto. cbn [map combine]. now rewrite IH.
Qed.
Lemma poprf_outputs {CS} (inputs : list bytes) (clients : list (PoprfClient CS)) messages info :
  map (fun '((unblinded_element, input), info) => bind unblinded_element (fun e => poprf_finalize_one CS e input info))
    (combine (combine (map (fun '(blind, x) => poprf_unblind_one CS blind x) (combine (map poprf_blind clients) messages)) inputs)
       (repeat (info_or_default info)
          (length (combine (map (fun '(blind, x) => poprf_unblind_one CS blind x) (combine (map poprf_blind clients) messages)) inputs))))
  = map (poprf_output info) (combine inputs (combine clients messages)).
Proof.
  revert clients messages. induction inputs as [|i inputs IH]; intros clients messages.
  - now destruct (map _ (combine (map poprf_blind clients) messages)).
  - destruct clients as [|c clients]; auto. destruct messages as [|m messages]; auto.
    cbn [map combine length repeat]. now rewrite IH.
Qed.

Lemma covered_tmap {A B C D} (f : A -> C) (g : B -> D) c d : covered (tmap f c) (tmap g d) = covered c d.
Proof. unfold covered, tmap. cbn [claims items]. now rewrite !map_length. Qed.
Lemma covered_sym {A B} (c : Traversal A) (d : Traversal B) : claims c = claims d -> covered c d = covered d c.
Proof. intros H. unfold covered. rewrite H. lia. Qed.
Lemma refused_spec {A B} (c : Traversal A) (d : Traversal B) : refused c d = false <-> claims c = claims d /\ claims c <= 65535.
Proof. unfold refused. rewrite Bool.orb_false_iff, Bool.negb_false_iff, N.eqb_eq, N.ltb_ge. tauto. Qed.

(** All of it: the proof is checked for the first [n] clients and messages of
    the traversals made for the proof; the outputs come from the others. *)
Lemma voprf_it_form {CS} inputs (clients0 clients1 : Traversal (VoprfClient CS)) messages0 messages1 proof pk :
  let n := covered clients1 messages0 in
  voprf_client_batch_finalize_it CS inputs clients0 clients1 messages0 messages1 proof pk =
  if refused clients1 messages0 then Err EBatch
  else bind (verify_proof CS (base_elem (CSGroup CS)) pk (map voprf_blinded_element (firstn n (items clients1)))
              (map evaluation_value (firstn n (items messages0))) proof Voprf)
         (fun _ => Ok (map voprf_output (combine (items inputs) (combine (items clients0) (items messages1))))).
Proof.
  intros n. unfold voprf_client_batch_finalize_it, verifiable_unblind_it. rewrite verify_it, covered_tmap. fold n.
  change (refused (tmap voprf_blinded_element clients1) (tmap evaluation_value messages0)) with (refused clients1 messages0).
  destruct (refused clients1 messages0); [reflexivity|]. cbn [items tmap]. rewrite !firstn_map.
  destruct (verify_proof _ _ _ _ _ _ _) as [[]|e| |]; try reflexivity. cbn [bind]. now rewrite voprf_outputs.
Qed.
Lemma poprf_it_form {CS} inputs (clients0 clients1 : Traversal (PoprfClient CS)) messages0 messages1 proof pk info :
  let n := covered messages0 clients1 in
  poprf_client_batch_finalize_it CS inputs clients0 clients1 messages0 messages1 proof pk info =
  bind (compute_tweaked_key CS pk (Some (info_or_default info))) (fun tk =>
  if refused messages0 clients1 then Err EBatch
  else bind (verify_proof CS (base_elem (CSGroup CS)) tk (map evaluation_value (firstn n (items messages0)))
              (map poprf_blinded_element (firstn n (items clients1))) proof Poprf)
         (fun _ => if negb (N.min (claims clients0) (claims messages1) =? claims inputs) then Err EBatch
                   else Ok (map (poprf_output info) (combine (items inputs) (combine (items clients0) (items messages1)))))).
Proof.
  intros n. unfold poprf_client_batch_finalize_it, poprf_unblind_it.
  destruct (compute_tweaked_key CS pk _) as [tk|e| |]; try reflexivity. cbn [bind].
  rewrite verify_it, covered_tmap. fold n.
  change (refused (tmap evaluation_value messages0) (tmap poprf_blinded_element clients1)) with (refused messages0 clients1).
  destruct (refused messages0 clients1); [reflexivity|]. cbn [items tmap]. rewrite !firstn_map.
  destruct (verify_proof _ _ _ _ _ _ _) as [[]|e| |]; try reflexivity. cbn [bind claims].
  unfold poprf_finalize_after_unblind_it. cbn [claims items]. rewrite poprf_outputs. reflexivity.
Qed.

Lemma voprf_list_form {CS} inputs (clients : list (VoprfClient CS)) messages proof pk :
  voprf_client_batch_finalize CS inputs clients messages proof pk =
  bind (verify_proof CS (base_elem (CSGroup CS)) pk (map voprf_blinded_element clients) (map evaluation_value messages) proof Voprf)
    (fun _ => Ok (map voprf_output (combine inputs (combine clients messages)))).
Proof.
  unfold voprf_client_batch_finalize, verifiable_unblind. destruct (verify_proof _ _ _ _ _ _ _) as [[]|e| |]; try reflexivity.
  cbn [bind]. now rewrite voprf_outputs.
Qed.
Lemma poprf_list_form {CS} inputs (clients : list (PoprfClient CS)) messages proof pk info :
  poprf_client_batch_finalize CS inputs clients messages proof pk info =
  bind (compute_tweaked_key CS pk (Some (info_or_default info))) (fun tk =>
  bind (verify_proof CS (base_elem (CSGroup CS)) tk (map evaluation_value messages) (map poprf_blinded_element clients) proof Poprf)
    (fun _ => if negb (N.min (len clients) (len messages) =? len inputs) then Err EBatch
              else Ok (map (poprf_output info) (combine inputs (combine clients messages))))).
Proof.
  unfold poprf_client_batch_finalize, poprf_unblind. destruct (compute_tweaked_key CS pk _) as [tk|e| |]; try reflexivity. cbn [bind].
  destruct (verify_proof _ _ _ _ _ _ _) as [[]|e| |]; try reflexivity. cbn [bind].
  unfold poprf_finalize_after_unblind. rewrite poprf_outputs.
  replace (len (map _ (combine (map poprf_blind clients) messages))) with (N.min (len clients) (len messages)); [reflexivity|].
  unfold len. rewrite map_length, combine_length, map_length. lia.
Qed.

Lemma nth_combine {A B} (l : list A) (l' : list B) i :
  nth_error (combine l l') i = match nth_error l i, nth_error l' i with Some a, Some b => Some (a, b) | _, _ => None end.
Proof.
  revert l l'. induction i as [|i IH]; intros [|a l] [|b l']; cbn [combine nth_error]; auto.
  now destruct (nth_error l i).
Qed.
Lemma nth_firstn {A} (l : list A) n i : (i < n)%nat -> nth_error (firstn n l) i = nth_error l i.
Proof. revert l i. induction n as [|n IH]; intros [|a l] [|i] H; simpl; auto; try lia. apply IH. lia. Qed.
Lemma same_item {A B C D} (f : A * (B * C) -> D) la lb lc la' lb' lc' i :
  nth_error la i = nth_error la' i -> nth_error lb i = nth_error lb' i -> nth_error lc i = nth_error lc' i ->
  nth_error (map f (combine la (combine lb lc))) i = nth_error (map f (combine la' (combine lb' lc'))) i.
Proof. intros H1 H2 H3. now rewrite !nth_error_map, !nth_combine, H1, H2, H3. Qed.

(** Whatever the collections do: if batch_finalize succeeds then the clients
    and messages yielded within the claimed number, on the traversals made for
    the proof, pass as a batch of their own; and every output within that
    number whose client and message were yielded again is the output of that
    batch.  So C12 to C14, C52 and C53 apply to these outputs. *)
Theorem C58_voprf_covered_outputs :
  forall (CS : CipherSuite) inputs (clients0 clients1 : Traversal (VoprfClient CS)) messages0 messages1 proof pk outs,
  voprf_client_batch_finalize_it CS inputs clients0 clients1 messages0 messages1 proof pk = Ok outs ->
  let n := Nat.min (N.to_nat (claims clients1)) (Nat.min (length (items clients1)) (length (items messages0))) in
  claims clients1 = claims messages0 /\ claims clients1 <= 65535 /\
  forall inputs', length inputs' = n ->
  exists outs',
    voprf_client_batch_finalize CS inputs' (firstn n (items clients1)) (firstn n (items messages0)) proof pk = Ok outs' /\
    forall i, (i < n)%nat ->
      nth_error (items inputs) i = nth_error inputs' i ->
      nth_error (items clients0) i = nth_error (items clients1) i ->
      nth_error (items messages1) i = nth_error (items messages0) i ->
      nth_error outs i = nth_error outs' i.
Proof.
  intros CS inputs clients0 clients1 messages0 messages1 proof pk outs E n. rewrite voprf_it_form in E.
  destruct (refused clients1 messages0) eqn:Er; [discriminate|]. apply refused_spec in Er as [E1 E2].
  split; auto. split; auto. intros inputs' Hl. rewrite voprf_list_form.
  change (covered clients1 messages0) with n in E.
  destruct (verify_proof _ _ _ _ _ _ _) as [[]|e| |]; try discriminate. cbn [bind] in *. injection E as <-.
  eexists. split; [reflexivity|]. intros i Hi H1 H2 H3. apply same_item; auto.
  - now rewrite H2, nth_firstn.
  - now rewrite H3, nth_firstn.
Qed.
Theorem C58_poprf_covered_outputs :
  forall (CS : CipherSuite) inputs (clients0 clients1 : Traversal (PoprfClient CS)) messages0 messages1 proof pk info outs,
  poprf_client_batch_finalize_it CS inputs clients0 clients1 messages0 messages1 proof pk info = Ok outs ->
  let n := Nat.min (N.to_nat (claims clients1)) (Nat.min (length (items clients1)) (length (items messages0))) in
  claims clients1 = claims messages0 /\ claims clients1 <= 65535 /\
  claims inputs = N.min (claims clients0) (claims messages1) /\
  forall inputs', length inputs' = n ->
  exists outs',
    poprf_client_batch_finalize CS inputs' (firstn n (items clients1)) (firstn n (items messages0)) proof pk info = Ok outs' /\
    forall i, (i < n)%nat ->
      nth_error (items inputs) i = nth_error inputs' i ->
      nth_error (items clients0) i = nth_error (items clients1) i ->
      nth_error (items messages1) i = nth_error (items messages0) i ->
      nth_error outs i = nth_error outs' i.
Proof.
  intros CS inputs clients0 clients1 messages0 messages1 proof pk info outs E n. rewrite poprf_it_form in E.
  destruct (compute_tweaked_key CS pk _) as [tk|e| |] eqn:Et; try discriminate. cbn [bind] in E.
  destruct (refused messages0 clients1) eqn:Er; [discriminate|]. apply refused_spec in Er as [E1 E2].
  rewrite (covered_sym _ _ E1) in E. change (covered clients1 messages0) with n in E.
  destruct (verify_proof _ _ _ _ _ _ _) as [[]|e| |] eqn:Ev; try discriminate. cbn [bind] in E.
  destruct (N.eqb_spec (N.min (claims clients0) (claims messages1)) (claims inputs)) as [Hi|]; [|discriminate].
  cbn [negb] in E. injection E as <-. split; auto. split; [now rewrite <- E1|]. split; auto.
  intros inputs' Hl. rewrite poprf_list_form, Et. cbn [bind]. rewrite Ev. cbn [bind].
  replace (N.min _ _ =? len inputs') with true.
  2: { symmetry. apply N.eqb_eq. unfold len. rewrite !firstn_length, Hl. unfold n. lia. }
  cbn [negb]. eexists. split; [reflexivity|]. intros i Hi' H1 H2 H3. apply same_item; auto.
  - now rewrite H2, nth_firstn.
  - now rewrite H3, nth_firstn.
Qed.

(** No more than that: behind the claimed number, and on the second traversal
    of the messages, anything goes.  If a batch passes, it passes with any
    further clients and messages that are not claimed, and the outputs are
    made from the messages yielded later. *)
Definition claiming {A} (l more : list A) : Traversal A := mkTraversal (len l) (l ++ more).

Theorem C58_voprf_uncovered_outputs :
  forall (CS : CipherSuite) inputs (clients : list (VoprfClient CS)) messages proof pk outs,
  voprf_client_batch_finalize CS inputs clients messages proof pk = Ok outs ->
  forall inputs' more_clients more_messages later_messages,
  voprf_client_batch_finalize_it CS inputs' (claiming clients more_clients) (claiming clients more_clients)
    (claiming messages more_messages) later_messages proof pk
  = Ok (map (fun '(input, (client, message)) =>
               bind (voprf_unblind_one CS (voprf_blind client) message) (voprf_finalize_one CS input))
            (combine (items inputs') (combine (clients ++ more_clients) (items later_messages)))).
Proof.
  intros CS inputs clients messages proof pk outs E inputs' mc mm later. rewrite voprf_list_form in E. rewrite voprf_it_form.
  assert (Hb : len clients = len messages /\ len clients <= 65535).
  { destruct (N.eq_dec (len clients) (len messages)) as [He|Hne].
    - split; auto. destruct (N.le_gt_cases (len clients) 65535); auto.
      rewrite verify_proof_err in E; [discriminate|]. right. now rewrite len_map.
    - rewrite verify_proof_err in E; [discriminate|]. left. now rewrite !len_map. }
  destruct Hb as [Hb1 Hb2].
  rewrite (proj2 (refused_spec _ _)) by (unfold claiming; cbn [claims]; auto).
  replace (covered (claiming clients mc) (claiming messages mm)) with (length clients).
  2: { unfold covered, claiming. cbn [claims items]. rewrite !app_length. unfold len in *. lia. }
  unfold claiming. cbn [items]. rewrite !firstn_app, firstn_all, Nat.sub_diag.
  assert (Hl : length messages = length clients) by (unfold len in Hb1; lia).
  rewrite <- Hl, firstn_all, Nat.sub_diag. cbn [firstn]. rewrite !app_nil_r.
  destruct (verify_proof _ _ _ _ _ _ _) as [[]|e| |]; try discriminate. cbn [bind]. f_equal.
  apply map_ext. intros [i [c m]]. reflexivity.
Qed.
Theorem C58_poprf_uncovered_outputs :
  forall (CS : CipherSuite) inputs (clients : list (PoprfClient CS)) messages proof pk info outs,
  poprf_client_batch_finalize CS inputs clients messages proof pk info = Ok outs ->
  forall inputs' more_clients more_messages later_messages,
  claims inputs' = N.min (len clients) (claims later_messages) ->
  poprf_client_batch_finalize_it CS inputs' (claiming clients more_clients) (claiming clients more_clients)
    (claiming messages more_messages) later_messages proof pk info
  = Ok (map (fun '(input, (client, message)) =>
               bind (poprf_unblind_one CS (poprf_blind client) message)
                    (fun e => poprf_finalize_one CS e input (match info with Some i => i | None => [] end)))
            (combine (items inputs') (combine (clients ++ more_clients) (items later_messages)))).
Proof.
  intros CS inputs clients messages proof pk info outs E inputs' mc mm later Hin. rewrite poprf_list_form in E. rewrite poprf_it_form.
  destruct (compute_tweaked_key CS pk _) as [tk|e| |]; try discriminate. cbn [bind] in *.
  assert (Hb : len messages = len clients /\ len messages <= 65535).
  { destruct (N.eq_dec (len messages) (len clients)) as [He|Hne].
    - split; auto. destruct (N.le_gt_cases (len messages) 65535); auto.
      rewrite verify_proof_err in E; [discriminate|]. right. now rewrite len_map.
    - rewrite verify_proof_err in E; [discriminate|]. left. now rewrite !len_map. }
  destruct Hb as [Hb1 Hb2].
  rewrite (proj2 (refused_spec _ _)) by (unfold claiming; cbn [claims]; auto).
  replace (covered (claiming messages mm) (claiming clients mc)) with (length clients).
  2: { unfold covered, claiming. cbn [claims items]. rewrite !app_length. unfold len in *. lia. }
  unfold claiming. cbn [items claims]. rewrite !firstn_app, firstn_all, Nat.sub_diag.
  assert (Hl : length messages = length clients) by (unfold len in Hb1; lia).
  rewrite <- Hl, firstn_all, Nat.sub_diag. cbn [firstn]. rewrite !app_nil_r.
  destruct (verify_proof _ _ _ _ _ _ _) as [[]|e| |]; try discriminate. cbn [bind].
  rewrite Hin, N.eqb_refl. cbn [negb]. f_equal. apply map_ext. intros [i [c m]]. reflexivity.
Qed.

(** The servers: if the second traversal of the blinded elements claims
    another number than the first yielded, or more than 65535, the VOPRF
    server returns [Error::Batch] and the POPRF server panics. *)
Theorem C58_servers_two_traversals :
  forall (CS : CipherSuite) (L : SuiteLaws CS) (R : Rng) (st : rng_state R) (blinded0 blinded1 : Traversal (BlindedElement CS)),
  claims blinded1 <> N.of_nat (length (items blinded0)) \/ 65535 < claims blinded1 ->
  (forall server, voprf_server_batch_blind_evaluate_it CS server R blinded0 blinded1 st = (Err EBatch, st)) /\
  (forall server info,
     let i := match info with Some i => i | None => [] end in
     len i <= 65535 -> tweaked_scalar L (poprf_sk server) i <> zero_scalar (CSGroup CS) ->
     poprf_server_batch_blind_evaluate_it CS server R blinded0 blinded1 info st = (Panic, st)).
Proof.
  intros CS L R st b0 b1 H. split.
  - intros server. unfold voprf_server_batch_blind_evaluate_it, voprf_server_batch_blind_evaluate_finish_it.
    unfold rbind at 1 2. rewrite generate_it. unfold refused. cbn [tmap claims exact].
    replace (len (voprf_server_batch_blind_evaluate_prepare CS server (items b0))) with (N.of_nat (length (items b0))).
    2: { unfold voprf_server_batch_blind_evaluate_prepare, len. rewrite map_length, combine_length, repeat_length. lia. }
    destruct (N.eqb_spec (claims b1) (N.of_nat (length (items b0)))) as [He|Hne]; [|reflexivity].
    destruct H as [H|H]; [contradiction|]. now rewrite (proj2 (N.ltb_lt _ _) H).
  - intros server info i Hi Ht. unfold poprf_server_batch_blind_evaluate_it. change i with (info_or_default info) in *.
    rewrite (poprf_prepare_ok L) by auto. unfold rbind at 1, rret at 1. cbn [poprf_prepared_elements poprf_prepared_tweak].
    rewrite collect_map_ok. unfold rbind at 1, rret at 1. unfold rbind at 1, runwrap.
    unfold poprf_server_batch_blind_evaluate_finish_it. unfold rbind at 1. rewrite generate_it. unfold refused. cbn [tmap claims exact].
    set (l := map _ (items b0)). replace (len l) with (N.of_nat (length (items b0))) by (unfold l, len; now rewrite map_length).
    destruct (N.eqb_spec (N.of_nat (length (items b0))) (claims b1)) as [He|Hne]; [|reflexivity].
    destruct H as [H|H]; [congruence|]. rewrite He, (proj2 (N.ltb_lt _ _) H). reflexivity.
Qed.

(** The clients never panic, whatever the collections. *)
Lemma verify_no_panic {CS} (L : SuiteLaws CS) a b C D proof mode :
  verify_proof CS a b C D proof mode = Ok tt \/ exists e, verify_proof CS a b C D proof mode = Err e.
Proof.
  destruct (N.eq_dec (len C) (len D)) as [He|Hne]; [|right; exists EBatch; apply verify_proof_err; auto].
  destruct (N.le_gt_cases (len C) 65535) as [Hl|Hl]; [|right; exists EBatch; apply verify_proof_err; auto].
  unfold verify_proof. rewrite (compute_composites_ok L) by auto. cbn [bind].
  rewrite (dst_new_ok L) by (vm_compute; discriminate). cbn [bind]. rewrite (challenge_input_ok L). cbn [unwrap bind].
  destruct (scalar_ct_eq _ _ _); eauto.
Qed.
Theorem C58_clients_no_panic :
  forall (CS : CipherSuite) (L : SuiteLaws CS),
  (forall inputs clients0 clients1 messages0 messages1 proof pk,
     let r := voprf_client_batch_finalize_it CS inputs clients0 clients1 messages0 messages1 proof pk in
     (exists outs, r = Ok outs) \/ (exists e, r = Err e)) /\
  (forall inputs clients0 clients1 messages0 messages1 proof pk info,
     let r := poprf_client_batch_finalize_it CS inputs clients0 clients1 messages0 messages1 proof pk info in
     (exists outs, r = Ok outs) \/ (exists e, r = Err e)).
Proof.
  intros CS L. split.
  - intros. unfold r. rewrite voprf_it_form. destruct (refused clients1 messages0); [eauto|].
    edestruct (verify_no_panic L) as [Hv|[e Hv]]; rewrite Hv; cbn [bind]; eauto.
  - intros. unfold r. rewrite poprf_it_form.
    destruct (N.le_gt_cases (len (info_or_default info)) 65535) as [Hi|Hi].
    + rewrite (compute_tweaked_key_ok L) by exact Hi. destruct (is_identity_elem _ _); cbn [bind]; [eauto|].
      destruct (refused messages0 clients1); [eauto|].
      edestruct (verify_no_panic L) as [Hv|[e Hv]]; rewrite Hv; cbn [bind]; [|eauto].
      destruct (negb _); eauto.
    + rewrite compute_tweaked_key_long by exact Hi. cbn [bind]. eauto.
Qed.

(** Cases.  A server that passes for one item; a collection that claims one
    item and yields two gets a second output, for a message no proof covers;
    exact collections get the error.  A second traversal that claims two of
    three elements: the VOPRF server returns an error, the POPRF server
    panics. *)
Definition is_ok {E A} (r : outcome E A) : bool := match r with Ok _ => true | _ => false end.
Definition failure {A St} (r : res A * St) : res unit := match fst r with Ok _ => Ok tt | Err e => Err e | Panic => Panic | Diverge => Diverge end.
Definition ex_key : scalar TS := ex_scalar 42.
Definition ex_pk : elem TS := elem_mul (CSGroup TS) (base_elem (CSGroup TS)) ex_key.
Definition ex_client : VoprfClient TS := mkVoprfClient (ex_scalar 3) (elem_mul (CSGroup TS) (H2G TL modeVOPRF ex_input) (ex_scalar 3)).
Definition ex_forged : EvaluationElement TS := mkEvaluation (ex_elem 77).
Definition ex_reply : res (VoprfServerBatchEvaluateResult TS) :=
  fst (voprf_server_batch_blind_evaluate TS (mkVoprfServer ex_key ex_pk) CtrRng [mkBlinded (voprf_blinded_element ex_client)] 201).
Definition ex_blinded3 : list (BlindedElement TS) := map (fun n => mkBlinded (ex_elem n)) [3; 4; 5]%Z.

Definition ex_messages : list (EvaluationElement TS) := match ex_reply with Ok r => voprf_batch_messages r | _ => [] end.
Definition ex_proof : Proof TS := match ex_reply with Ok r => voprf_batch_proof r | _ => mkProof (ex_scalar 1) (ex_scalar 1) end.
Definition ex_right (input : bytes) : res bytes := voprf_server_evaluate TS (mkVoprfServer ex_key ex_pk) input.

Example C58_case :
  is_ok ex_reply = true /\ length ex_messages = 1%nat /\
  voprf_client_batch_finalize TS [ex_input] [ex_client] ex_messages ex_proof ex_pk = Ok [ex_right ex_input] /\
  voprf_client_batch_finalize_it TS (exact [ex_input; ex_input2])
    (claiming [ex_client] [ex_client]) (claiming [ex_client] [ex_client])
    (claiming ex_messages [ex_forged]) (exact (ex_messages ++ [ex_forged])) ex_proof ex_pk
  = Ok [ex_right ex_input; voprf_output (ex_input2, (ex_client, ex_forged))] /\
  is_ok (voprf_output (ex_input2, (ex_client, ex_forged))) = true /\
  ex_right ex_input2 <> voprf_output (ex_input2, (ex_client, ex_forged)) /\
  voprf_client_batch_finalize TS [ex_input; ex_input2] [ex_client; ex_client] (ex_messages ++ [ex_forged]) ex_proof ex_pk
  = Err EProofVerification /\
  failure (voprf_server_batch_blind_evaluate_it TS (mkVoprfServer ex_key ex_pk) CtrRng (exact ex_blinded3) (mkTraversal 2 ex_blinded3) 201)
  = Err EBatch /\
  failure (poprf_server_batch_blind_evaluate_it TS (mkPoprfServer ex_key ex_pk) CtrRng (exact ex_blinded3) (mkTraversal 2 ex_blinded3) (Some ex_info) 201)
  = Panic.
Proof.
  split; [vm_compute; reflexivity|]. split; [vm_compute; reflexivity|]. split; [vm_compute; reflexivity|].
  split; [vm_compute; reflexivity|]. split; [vm_compute; reflexivity|]. split; [vm_compute; discriminate|].
  split; [vm_compute; reflexivity|]. split; vm_compute; reflexivity.
Qed.
