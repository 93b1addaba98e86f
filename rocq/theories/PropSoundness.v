(** * PropSoundness: what an accepted proof guarantees (C12, C13). *)
From Verif Require Import Oprf Voprf Poprf Spec OprfFacts VoprfFacts PoprfFacts Zq.
From Verif Require Import PropCorrectness PropBatch PropEncoding.
Open Scope N_scope.

(** ** The two pinned hash events *)

Section Events.
Context {CS : CipherSuite} (L : SuiteLaws CS).
Local Notation G := (CSGroup CS).
Local Notation GL := (group_laws L).
Local Notation "P [+] Q" := (elem_add G P Q) (at level 50, left associativity).
Local Notation "k [*] P" := (elem_mul G P k) (at level 40).

(** Some item is wrong and its weight - a hash value - is the only scalar
    that, with the other weights as they are, hides the error. *)
Definition weight_pinned (mode : N) (B : elem CS) (C D : list (elem CS)) (k : scalar CS) : Prop :=
  exists before w after Cj Dj,
    weights L mode B C D = before ++ w :: after /\
    nth_error C (length before) = Some Cj /\ nth_error D (length before) = Some Dj /\
    Dj <> k [*] Cj /\
    forall w', lincomb (before ++ w' :: after) D = k [*] lincomb (before ++ w' :: after) C <-> w' = w.

(** The challenge - the hash of (B, M, Z, t2, t3) - is the only scalar for
    which (t2, t3) can be opened at all. *)
Definition challenge_pinned (mode : N) (A B : elem CS) (C D : list (elem CS)) (c : scalar CS) : Prop :=
  let M := compositeM L mode B C D in
  let Z := compositeZ L mode B C D in
  exists t2 t3, challenge L mode B M Z t2 t3 = c /\
    forall c' s', t2 = s' [*] A [+] c' [*] B -> t3 = s' [*] M [+] c' [*] Z -> c' = c.

Add Field scalar_field_s : (scalar_field G GL).

Lemma weights_length mode seed i (CD : list (elem CS * elem CS)) :
  length (weights_from L mode seed i CD) = length CD.
Proof. revert i. induction CD as [|[c d] CD IH]; intros i; simpl; auto. Qed.

Lemma lincomb_app ws1 ws2 (P1 P2 : list (elem CS)) : length ws1 = length P1 ->
  lincomb (ws1 ++ ws2) (P1 ++ P2) = lincomb ws1 P1 [+] lincomb ws2 P2.
Proof.
  revert P1. induction ws1 as [|w ws IH]; intros [|P Ps] H; try discriminate; simpl.
  - symmetry. apply (elem_add_id _ GL).
  - rewrite IH by (simpl in H; congruence). apply (elem_add_assoc _ GL).
Qed.

Lemma lincomb_correct ws (C D : list (elem CS)) k :
  Forall2 (fun c d => d = k [*] c) C D -> lincomb ws D = k [*] lincomb ws C.
Proof.
  intros H. revert ws. induction H as [|c d C D -> H IH]; intros [|w ws]; simpl;
    try (symmetry; apply (id_mul GL)).
  rewrite IH, (elem_mul_eadd _ GL). f_equal. apply (mul_comm2 GL).
Qed.

(** One equation, two solutions: the wrong item's weight is unique. *)
Lemma pin_weight (X Y X' Y' C D : elem CS) k w w' :
  D <> k [*] C ->
  X [+] (w [*] D [+] Y) = k [*] (X' [+] (w [*] C [+] Y')) ->
  X [+] (w' [*] D [+] Y) = k [*] (X' [+] (w' [*] C [+] Y')) -> w' = w.
Proof.
  intros Hne H1 H2.
  destruct (elem_generated G GL X) as [x ->], (elem_generated G GL Y) as [y ->],
    (elem_generated G GL X') as [x' ->], (elem_generated G GL Y') as [y' ->],
    (elem_generated G GL C) as [c ->], (elem_generated G GL D) as [d ->].
  repeat rewrite ?(elem_mul_mul G GL), ?(add_mul GL) in *.
  apply (base_mul_inj GL) in H1, H2.
  destruct (scalar_eq_dec GL w' w) as [|Hw]; auto. exfalso.
  apply Hne. f_equal.
  assert (Hw' : scalar_sub G w' w <> zero_scalar G)
    by (intros E; apply (sub_zero_eq GL) in E; contradiction).
  replace d with (scalar_mul G (scalar_sub G (scalar_add G x (scalar_add G (scalar_mul G d w') y))
                     (scalar_add G x (scalar_add G (scalar_mul G d w) y)))
                   (s_inv GL (scalar_sub G w' w))) by (field; auto).
  rewrite H1, H2. field; auto.
Qed.

Lemma pin_challenge (A M Z : elem CS) k c s c' s' :
  A <> identity_elem G -> Z <> k [*] M ->
  s [*] A [+] c [*] (k [*] A) = s' [*] A [+] c' [*] (k [*] A) ->
  s [*] M [+] c [*] Z = s' [*] M [+] c' [*] Z -> c' = c.
Proof.
  intros HA Hne H1 H2.
  destruct (elem_generated_by GL A M HA) as [m ->], (elem_generated_by GL A Z HA) as [z ->].
  rewrite !(elem_mul_mul G GL), !(add_mul GL) in *.
  apply (mul_scalar_inj GL A) in H1, H2; auto.
  destruct (scalar_eq_dec GL c' c) as [|Hc]; auto. exfalso.
  apply Hne. f_equal.
  assert (Hc' : scalar_sub G c' c <> zero_scalar G)
    by (intros E; apply (sub_zero_eq GL) in E; contradiction).
  assert (Es : s = scalar_sub G (scalar_add G s' (scalar_mul G k c')) (scalar_mul G k c)).
  { rewrite <- H1. ring. }
  rewrite Es in H2.
  assert (Ez : scalar_mul G z (scalar_sub G c' c)
               = scalar_mul G (scalar_mul G m k) (scalar_sub G c' c)).
  { transitivity (scalar_sub G (scalar_sub G (scalar_add G (scalar_mul G m s') (scalar_mul G z c'))
      (scalar_mul G m s')) (scalar_mul G z c)); [ring|].
    rewrite <- H2. ring. }
  now apply (smul_cancel_r GL) in Ez.
Qed.

Lemma extract_scalar (P Q : elem CS) c s c' s' :
  c <> c' -> s [*] P [+] c [*] Q = s' [*] P [+] c' [*] Q ->
  Q = scalar_mul G (scalar_sub G s s') (s_inv GL (scalar_sub G c' c)) [*] P.
Proof.
  intros Hne H.
  assert (Hc : scalar_sub G c' c <> zero_scalar G)
    by (intros E; apply (sub_zero_eq GL) in E; congruence).
  destruct (elem_generated G GL P) as [p ->], (elem_generated G GL Q) as [q ->].
  rewrite !(elem_mul_mul G GL), !(add_mul GL) in *. apply (base_mul_inj GL) in H. f_equal.
  apply (smul_cancel_r GL _ _ (scalar_sub G c' c)); auto.
  transitivity (scalar_mul G p (scalar_sub G s s')); [|field; auto].
  transitivity (scalar_sub G (scalar_add G (scalar_mul G p s') (scalar_mul G q c'))
     (scalar_add G (scalar_mul G p s') (scalar_mul G q c))); [ring|].
  rewrite <- H. ring.
Qed.

Lemma first_wrong (C D : list (elem CS)) k : length C = length D ->
  Forall2 (fun c d => d = k [*] c) C D \/
  exists C1 c C2 D1 d D2, C = C1 ++ c :: C2 /\ D = D1 ++ d :: D2 /\ length C1 = length D1 /\ d <> k [*] c.
Proof.
  revert D. induction C as [|c C IH]; intros [|d D] Hl; try discriminate.
  - left. constructor.
  - destruct (elem_eq_dec GL d (k [*] c)) as [E|E].
    + destruct (IH D) as [H|(C1 & c' & C2 & D1 & d' & D2 & -> & -> & H1 & H2)]; [simpl in Hl; congruence| |].
      * left. now constructor.
      * right. exists (c :: C1), c', C2, (d :: D1), d', D2. simpl. repeat split; auto.
    + right. exists [], c, C, [], d, D. auto.
Qed.

(** The heart of soundness. *)
Lemma verify_sound mode (k : scalar CS) (C D : list (elem CS)) c s :
  let A := base_elem G in
  let B := k [*] A in
  length C = length D ->
  VerifyProof L mode A B C D c s ->
  Forall2 (fun c d => d = k [*] c) C D \/
  weight_pinned mode B C D k \/ challenge_pinned mode A B C D c.
Proof.
  intros A B Hl HV.
  set (M := compositeM L mode B C D) in *. set (Z := compositeZ L mode B C D) in *.
  destruct (elem_eq_dec GL Z (k [*] M)) as [EZ|EZ].
  - destruct (first_wrong C D k Hl) as [|(C1 & cj & C2 & D1 & dj & D2 & EC & ED & Hl1 & Hne)]; [now left|].
    right; left.
    assert (Hlw : length (weights L mode B C D) = length C).
    { unfold weights. rewrite weights_length, combine_length. lia. }
    assert (Hlt : (length C1 < length (weights L mode B C D))%nat).
    { rewrite Hlw, EC, app_length. simpl. lia. }
    destruct (nth_error (weights L mode B C D) (length C1)) as [w|] eqn:Ew;
      [|apply nth_error_None in Ew; lia].
    apply nth_error_split in Ew as (before & after & Ew & Hb).
    exists before, w, after, cj, dj. split; auto. rewrite Hb.
    split; [now rewrite EC, nth_error_app2, Nat.sub_diag by lia|].
    split; [now rewrite ED, nth_error_app2, Hl1, Nat.sub_diag by lia|].
    split; auto. intros w'.
    assert (Hlin : forall w'', lincomb (before ++ w'' :: after) C
              = lincomb before C1 [+] (w'' [*] cj [+] lincomb after C2)).
    { intros w''. rewrite EC. apply (lincomb_app before (w'' :: after) C1 (cj :: C2)). auto. }
    assert (HlinD : forall w'', lincomb (before ++ w'' :: after) D
              = lincomb before D1 [+] (w'' [*] dj [+] lincomb after D2)).
    { intros w''. rewrite ED. apply (lincomb_app before (w'' :: after) D1 (dj :: D2)). congruence. }
    assert (H0 : lincomb (before ++ w :: after) D = k [*] lincomb (before ++ w :: after) C).
    { rewrite <- Ew. exact EZ. }
    split; [|intros ->; exact H0].
    intros H. rewrite Hlin, HlinD in H, H0. eapply pin_weight; eauto.
  - right; right. unfold challenge_pinned. fold M Z.
    exists (s [*] A [+] c [*] B), (s [*] M [+] c [*] Z). split; [exact HV|].
    intros c' s' H2 H3. eapply (pin_challenge A M Z k c s c' s'); eauto.
    apply (base_not_identity _ GL).
Qed.

End Events.

(** What acceptance means, on the model's side. *)
Lemma verify_ok_inv {CS} (L : SuiteLaws CS) a b C D p mode :
  verify_proof CS a b C D p mode = Ok tt ->
  length C = length D /\ len C <= 65535 /\
  VerifyProof L (mode_id mode) a b C D (c_scalar p) (s_scalar p).
Proof.
  intros H.
  destruct (N.eq_dec (len C) (len D)) as [He|He]; [|rewrite verify_proof_err in H by auto; discriminate].
  destruct (N.leb_spec (len C) 65535) as [Hl|Hl]; [|rewrite verify_proof_err in H by auto; discriminate].
  split; [unfold len in He; lia|]. split; auto. now apply (verify_proof_ok L).
Qed.

Lemma voprf_accept_inv {CS} inputs clients messages p pk outs :
  voprf_client_batch_finalize CS inputs clients messages p pk = Ok outs ->
  verify_proof CS (base_elem (CSGroup CS)) pk (map voprf_blinded_element clients)
    (map evaluation_value messages) p Voprf = Ok tt.
Proof.
  intros H. unfold voprf_client_batch_finalize, verifiable_unblind in H.
  destruct (verify_proof _ _ _ _ _ _ _) as [[]| | |]; try discriminate H. reflexivity.
Qed.

Lemma poprf_accept_inv {CS} (L : SuiteLaws CS) inputs clients messages p pk info outs :
  poprf_client_batch_finalize CS inputs clients messages p pk info = Ok outs ->
  let tk := tweaked_element L pk (info_or_default info) in
  len (info_or_default info) <= 65535 /\ tk <> identity_elem (CSGroup CS) /\
  verify_proof CS (base_elem (CSGroup CS)) tk (map evaluation_value messages)
    (map poprf_blinded_element clients) p Poprf = Ok tt /\
  len inputs = len (combine clients messages).
Proof.
  intros H tk. unfold poprf_client_batch_finalize, poprf_unblind in H.
  destruct (N.leb_spec (len (info_or_default info)) 65535) as [Hi|Hi].
  - rewrite (compute_tweaked_key_ok L) in H by auto. cbn [info_or_default] in H. fold tk in H.
    destruct (is_identity_elem _ tk) eqn:E; [discriminate|].
    apply (is_identity_false (group_laws L)) in E. cbn [bind] in H.
    destruct (verify_proof _ _ _ _ _ _ _) as [[]| | |] eqn:Ev; try discriminate H.
    cbn [bind] in H. unfold poprf_finalize_after_unblind in H.
    match type of H with (if negb (?a =? ?b) then _ else _) = _ => destruct (N.eqb_spec a b) as [El|El] end;
      [|discriminate].
    repeat split; auto. rewrite <- El. unfold len. rewrite map_length, !combine_length, map_length. reflexivity.
  - rewrite compute_tweaked_key_long in H by auto. discriminate.
Qed.

(** ** C12 *)

Lemma voprf_right_outputs {CS} (L : SuiteLaws CS) k inputs (sessions : list (VoprfClientBlindResult CS)) messages proof pk outs :
  Forall2 (voprf_blinded CS) inputs sessions ->
  Forall2 (fun c d => d = elem_mul (CSGroup CS) c k) (map (fun r => blinded_value (voprf_message r)) sessions)
    (map evaluation_value messages) ->
  voprf_client_batch_finalize CS inputs (map voprf_state sessions) messages proof pk = Ok outs ->
  outs = map (prf_result L modeVOPRF k) inputs.
Proof.
  intros Hs H Hfin.
  destruct (voprf_blinded_clients L inputs sessions Hs) as (Hc1 & Hc2 & Hc3).
  pose proof (voprf_accept_inv _ _ _ _ _ _ Hfin) as Hvp.
  rewrite (voprf_batch_finalize_ok L) in Hfin by auto. injection Hfin as <-.
  clear Hvp Hc1 Hc2 Hc3.
  revert messages H. induction Hs as [|i r inputs sessions Hr Hs IH]; intros messages H; [reflexivity|].
  destruct messages as [|x messages]; simpl in H; inversion H; subst.
  simpl. rewrite IH by assumption. f_equal.
  destruct (voprf_blinded_inv L i r Hr) as (b & Hb & ->). cbn in *.
  rewrite H3.
  assert (Hn : elem_mul (CSGroup CS) (elem_mul (CSGroup CS) (elem_mul (CSGroup CS) (H2G L modeVOPRF i) b) k)
      (s_inv (group_laws L) b) = elem_mul (CSGroup CS) (H2G L modeVOPRF i) k).
  { rewrite (mul_comm2 (group_laws L) _ k b). now apply (mul_inv_cancel (group_laws L)). }
  rewrite Hn. unfold prf_result, PRF.
  destruct (N.leb_spec (len i) 65535).
  - now apply (voprf_finalize_one_ok L).
  - now apply voprf_finalize_one_long.
Qed.

Lemma poprf_right_outputs {CS} (L : SuiteLaws CS) k info inputs (sessions : list (PoprfClientBlindResult CS)) messages proof pk outs :
  let i := match info with Some i => i | None => [] end in
  let t := tweaked_scalar L k i in
  Forall2 (poprf_blinded CS) inputs sessions -> t <> zero_scalar (CSGroup CS) ->
  Forall2 (fun c d => d = elem_mul (CSGroup CS) c t) (map evaluation_value messages)
    (map (fun r => blinded_value (poprf_message r)) sessions) ->
  poprf_client_batch_finalize CS inputs (map poprf_state sessions) messages proof pk info = Ok outs ->
  outs = map (poprf_result L k i) inputs.
Proof.
  intros i t Hs Ht H Hfin.
  destruct (poprf_blinded_clients L inputs sessions Hs) as (Hc1 & Hc2 & Hc3).
  destruct (poprf_accept_inv L _ _ _ _ _ _ _ Hfin) as (Hi & Htk & Hvp & Hlen).
  change (info_or_default info) with i in *.
  rewrite (poprf_batch_finalize_ok L) in Hfin by auto. injection Hfin as <-.
  change (info_or_default info) with i in *.
  clear Hvp Hc1 Hc2 Hc3 Hlen.
  revert messages H. induction Hs as [|inp r inputs sessions Hr Hs IH]; intros messages H; [reflexivity|].
  destruct messages as [|x messages]; simpl in H; inversion H; subst.
  simpl. rewrite IH by assumption. f_equal.
  destruct (poprf_blinded_inv L inp r Hr) as (b & Hb & ->). cbn in *.
  assert (Hn : elem_mul (CSGroup CS) (evaluation_value x) (s_inv (group_laws L) b)
             = elem_mul (CSGroup CS) (H2G L modePOPRF inp) (s_inv (group_laws L) t)).
  { apply (mul_elem_inj (group_laws L) _ _ b Hb). rewrite (mul_inv_cancel' (group_laws L)) by auto.
    apply (mul_elem_inj (group_laws L) _ _ t Ht).
    rewrite (mul_comm2 (group_laws L) _ t b), (mul_inv_cancel' (group_laws L)) by auto. auto. }
  rewrite Hn. unfold poprf_result, POPRF. fold t.
  destruct (N.leb_spec (len inp) 65535).
  - now apply (poprf_finalize_one_ok L).
  - now apply poprf_finalize_one_long.
Qed.

(** Honest clients, any server messages, any proof: every output is the PRF
    value under the key committed to by the public key, or one of the two
    hash events happened. *)
Theorem C12_voprf_sound :
  forall (CS : CipherSuite) (L : SuiteLaws CS) (k : scalar CS) (inputs : list bytes)
         (sessions : list (VoprfClientBlindResult CS)) (messages : list (EvaluationElement CS))
         (proof : Proof CS) (outs : list (res bytes)),
  let G := CSGroup CS in
  let pk := elem_mul G (base_elem G) k in
  let C := map (fun r => blinded_value (voprf_message r)) sessions in
  let D := map evaluation_value messages in
  Forall2 (voprf_blinded CS) inputs sessions ->
  voprf_client_batch_finalize CS inputs (map voprf_state sessions) messages proof pk = Ok outs ->
  (Forall2 (fun c d => d = elem_mul G c k) C D /\ outs = map (prf_result L modeVOPRF k) inputs) \/
  weight_pinned L modeVOPRF pk C D k \/
  challenge_pinned L modeVOPRF (base_elem G) pk C D (c_scalar proof).
Proof.
  intros CS L k inputs sessions messages proof outs G pk C D Hs Hfin.
  destruct (voprf_blinded_clients L inputs sessions Hs) as (Hc1 & Hc2 & Hc3).
  assert (HC : map voprf_blinded_element (map voprf_state sessions) = C).
  { rewrite Hc1, map_map. reflexivity. }
  pose proof (voprf_accept_inv _ _ _ _ _ _ Hfin) as Hvp.
  rewrite HC in Hvp. fold D in Hvp.
  destruct (verify_ok_inv L _ _ _ _ _ _ Hvp) as (Hl & _ & HV). change (mode_id Voprf) with modeVOPRF in HV.
  destruct (verify_sound L modeVOPRF k C D _ _ Hl HV) as [H|[H|H]]; auto.
  left. split; auto. exact (voprf_right_outputs L k inputs sessions messages proof pk outs Hs H Hfin).
Qed.

(** POPRF: the blinded element must be (key + info scalar) times the
    evaluation element. *)
Theorem C12_poprf_sound :
  forall (CS : CipherSuite) (L : SuiteLaws CS) (k : scalar CS) (info : option bytes) (inputs : list bytes)
         (sessions : list (PoprfClientBlindResult CS)) (messages : list (EvaluationElement CS))
         (proof : Proof CS) (outs : list (res bytes)),
  let G := CSGroup CS in
  let pk := elem_mul G (base_elem G) k in
  let i := match info with Some i => i | None => [] end in
  let t := tweaked_scalar L k i in
  let C := map evaluation_value messages in
  let D := map (fun r => blinded_value (poprf_message r)) sessions in
  Forall2 (poprf_blinded CS) inputs sessions ->
  poprf_client_batch_finalize CS inputs (map poprf_state sessions) messages proof pk info = Ok outs ->
  len i <= 65535 /\ t <> zero_scalar G /\
  ((Forall2 (fun c d => d = elem_mul G c t) C D /\ outs = map (poprf_result L k i) inputs) \/
   weight_pinned L modePOPRF (elem_mul G (base_elem G) t) C D t \/
   challenge_pinned L modePOPRF (base_elem G) (elem_mul G (base_elem G) t) C D (c_scalar proof)).
Proof.
  intros CS L k info inputs sessions messages proof outs G pk i t C D Hs Hfin.
  destruct (poprf_blinded_clients L inputs sessions Hs) as (Hc1 & Hc2 & Hc3).
  assert (HD : map poprf_blinded_element (map poprf_state sessions) = D).
  { rewrite Hc1, map_map. reflexivity. }
  destruct (poprf_accept_inv L _ _ _ _ _ _ _ Hfin) as (Hi & Htk & Hvp & Hlen).
  change (info_or_default info) with i in *.
  assert (Ht : t <> zero_scalar G).
  { intros E. apply Htk. now apply (tweaked_element_identity L). }
  split; auto. split; auto.
  rewrite HD in Hvp. fold C in Hvp.
  assert (Hte : tweaked_element L pk i = elem_mul G (base_elem G) t) by apply (tweaked_element_gen L).
  rewrite Hte in Hvp.
  destruct (verify_ok_inv L _ _ _ _ _ _ Hvp) as (Hl & _ & HV). change (mode_id Poprf) with modePOPRF in HV.
  destruct (verify_sound L modePOPRF t C D _ _ Hl HV) as [H|[H|H]]; auto.
  left. split; auto. exact (poprf_right_outputs L k info inputs sessions messages proof pk outs Hs Ht H Hfin).
Qed.

(** One item: the weight event is that one hash value is zero. *)
Theorem C12_voprf_single_sound :
  forall (CS : CipherSuite) (L : SuiteLaws CS) (k : scalar CS) (R : Rng) (st st' : rng_state R)
         (input : bytes) (client : VoprfClient CS) (message : BlindedElement CS)
         (reply : EvaluationElement CS) (proof : Proof CS) (out : bytes),
  let G := CSGroup CS in
  let pk := elem_mul G (base_elem G) k in
  let C := [blinded_value message] in
  let D := [evaluation_value reply] in
  voprf_client_blind CS R input st = (Ok (mkVoprfClientBlindResult client message), st') ->
  voprf_client_finalize CS client input reply proof pk = Ok out ->
  out = PRF L modeVOPRF k input \/
  weight L modeVOPRF (proof_seed (CS := CS) modeVOPRF pk) 0 (blinded_value message) (evaluation_value reply)
    = zero_scalar G \/
  challenge_pinned L modeVOPRF (base_elem G) pk C D (c_scalar proof).
Proof.
  intros CS L k R st st' input client message reply proof out G pk C D Hb Hf.
  pose proof (C09_single_is_batch_of_one CS L) as H9.
  destruct H9 as (_ & _ & _ & H9 & _). apply H9 in Hf.
  destruct (C12_voprf_sound CS L k [input] [mkVoprfClientBlindResult client message] [reply] proof [Ok out])
    as [(_ & H)|[H|H]]; auto.
  - constructor; [|constructor]. now exists R, st, st'.
  - left. cbn [map] in H. unfold prf_result in H.
    destruct (len input <=? 65535); [|discriminate]. congruence.
  - right; left. destruct H as (before & w & after & Cj & Dj & Hw & HC & HD & Hne & Hu).
    unfold weights in Hw. cbn in Hw. destruct before as [|? before].
    + cbn in Hw. injection Hw as Hw1 Hw2. subst after. cbn [length nth_error map] in *.
      injection HC as <-. injection HD as <-.
      transitivity w; [exact Hw1|].
      symmetry. apply (proj1 (Hu (zero_scalar G))). unfold C, D. cbn [app lincomb map].
      unfold G. rewrite !(elem_mul_zero _ (group_laws L)), !(elem_add_id _ (group_laws L)).
      now rewrite (id_mul (group_laws L)).
    + destruct before; discriminate.
Qed.

(** The same for POPRF. *)
Theorem C12_poprf_single_sound :
  forall (CS : CipherSuite) (L : SuiteLaws CS) (k : scalar CS) (R : Rng) (st st' : rng_state R)
         (input : bytes) (info : option bytes) (client : PoprfClient CS) (message : BlindedElement CS)
         (reply : EvaluationElement CS) (proof : Proof CS) (out : bytes),
  let G := CSGroup CS in
  let pk := elem_mul G (base_elem G) k in
  let i := match info with Some i => i | None => [] end in
  let tk := elem_mul G (base_elem G) (tweaked_scalar L k i) in
  let C := [evaluation_value reply] in
  let D := [blinded_value message] in
  poprf_client_blind CS R input st = (Ok (mkPoprfClientBlindResult client message), st') ->
  poprf_client_finalize CS client input reply proof pk info = Ok out ->
  out = POPRF L k input i \/
  weight L modePOPRF (proof_seed (CS := CS) modePOPRF tk) 0 (evaluation_value reply) (blinded_value message)
    = zero_scalar G \/
  challenge_pinned L modePOPRF (base_elem G) tk C D (c_scalar proof).
Proof.
  intros CS L k R st st' input info client message reply proof out G pk i tk C D Hb Hf.
  pose proof (C09_single_is_batch_of_one CS L) as H9.
  destruct H9 as (_ & _ & _ & _ & _ & H9 & _). apply H9 in Hf.
  destruct (C12_poprf_sound CS L k info [input] [mkPoprfClientBlindResult client message] [reply] proof [Ok out])
    as (_ & _ & [(_ & H)|[H|H]]); auto.
  - constructor; [|constructor]. now exists R, st, st'.
  - left. cbn [map] in H. unfold poprf_result in H.
    destruct (len input <=? 65535); [|discriminate]. unfold i. congruence.
  - right; left. destruct H as (before & w & after & Cj & Dj & Hw & HC & HD & Hne & Hu).
    unfold weights in Hw. cbn in Hw. destruct before as [|? before].
    + cbn in Hw. injection Hw as Hw1 Hw2. subst after. cbn [length nth_error map] in *.
      injection HC as <-. injection HD as <-.
      transitivity w; [exact Hw1|].
      symmetry. apply (proj1 (Hu (zero_scalar G))). unfold C, D. cbn [app lincomb map].
      unfold G. rewrite !(elem_mul_zero _ (group_laws L)), !(elem_add_id _ (group_laws L)).
      now rewrite (id_mul (group_laws L)).
    + destruct before; discriminate.
Qed.

(** The premises hold on a real run: an honest batch of the concrete suite. *)
Example C12_case :
  exists sessions messages proof outs,
    Forall2 (voprf_blinded TS) [ex_input; ex_input2; ex_input] sessions /\
    voprf_client_batch_finalize TS [ex_input; ex_input2; ex_input] (map voprf_state sessions) messages proof
      (elem_mul (CSGroup TS) (base_elem (CSGroup TS)) (ex_scalar 42)) = Ok outs.
Proof.
  destruct C05_case as (rs & H1 & H2 & H3).
  destruct (C05_voprf_batch_correct TS TL (ex_scalar 42) _ rs CtrRng 201%N H2 H1 H3)
    as (m & p & st' & _ & _ & H).
  exists rs, m, p. eexists. split; [exact H1|exact H].
Qed.

(** ** C13 *)

Section Replay.
Context {CS : CipherSuite} (L : SuiteLaws CS).
Local Notation G := (CSGroup CS).
Local Notation GL := (group_laws L).
Local Notation "P [+] Q" := (elem_add G P Q) (at level 50, left associativity).
Local Notation "k [*] P" := (elem_mul G P k) (at level 40).

Lemma wrong_base mode k (A B B' : elem CS) C D C' D' r c s :
  (c, s) = GenerateProof L mode k A B C D r -> VerifyProof L mode A B' C' D' c s -> B <> B' ->
  h2s_collision L mode (prover_string L mode A B C D r) (verifier_string L mode A B' C' D' c s).
Proof.
  intros Hg Hv Hne. split.
  - intros E. apply (challenge_string_inj L) in E as [E _]. contradiction.
  - injection Hg as Hc Hs. transitivity c; [symmetry; exact Hc|symmetry; exact Hv].
Qed.

Lemma wrong_pair mode k (A B C1 D1 C2 D2 : elem CS) r c s :
  (c, s) = GenerateProof L mode k A B [C1] [D1] r -> VerifyProof L mode A B [C2] [D2] c s ->
  (C1 = C2 /\ C1 <> identity_elem G /\ D1 <> D2) \/ (D1 = D2 /\ D1 <> identity_elem G /\ C1 <> C2) ->
  let seed := proof_seed (CS := CS) mode B in
  h2s_collision L mode (prover_string L mode A B [C1] [D1] r) (verifier_string L mode A B [C2] [D2] c s) \/
  h2s_collision L mode (composite_string seed 0 C1 D1) (composite_string seed 0 C2 D2).
Proof.
  intros Hg Hv Hne seed.
  destruct (list_eq_dec Byte.byte_eq_dec (prover_string L mode A B [C1] [D1] r)
    (verifier_string L mode A B [C2] [D2] c s)) as [E|E].
  - right. apply (challenge_string_inj L) in E as (_ & EM & EZ & _ & _).
    unfold compositeM, compositeZ, weights in EM, EZ. cbn [combine weights_from lincomb] in EM, EZ.
    fold seed in EM, EZ. rewrite !(add_id_r GL) in EM, EZ.
    assert (Hseed : len seed <= 65535).
    { unfold seed, proof_seed. rewrite (digest_len _ L). pose proof (output_size_bound _ L). lia. }
    split.
    + intros E. apply (composite_string_inj L) in E as (_ & _ & E1 & E2); auto; try (cbn; lia).
      destruct Hne as [(_ & _ & H)|(_ & _ & H)]; contradiction.
    + destruct Hne as [(-> & Hi & _)|(-> & Hi & _)].
      * exact (mul_scalar_inj GL _ _ _ Hi EM).
      * exact (mul_scalar_inj GL _ _ _ Hi EZ).
  - left. split; auto. injection Hg as Hc Hs. transitivity c; [symmetry; exact Hc|symmetry; exact Hv].
Qed.
End Replay.

(** An honest batch proof is accepted under another public key - with whatever
    clients and messages - only together with this collision. *)
Theorem C13_voprf_wrong_key :
  forall (CS : CipherSuite) (L : SuiteLaws CS) (sk : scalar CS) (R : Rng) (st st' : rng_state R)
         blinded replies proof inputs clients messages (pk' : elem CS) outs,
  let G := CSGroup CS in
  let pk := elem_mul G (base_elem G) sk in
  voprf_server_batch_blind_evaluate CS (mkVoprfServer sk pk) R blinded st
    = (Ok (mkVoprfServerBatchEvaluateResult replies proof), st') ->
  voprf_client_batch_finalize CS inputs clients messages proof pk' = Ok outs ->
  pk' <> pk ->
  exists r, random_scalar G R st = (Ok r, st') /\
    h2s_collision L modeVOPRF
      (prover_string L modeVOPRF (base_elem G) pk (map blinded_value blinded) (map evaluation_value replies) r)
      (verifier_string L modeVOPRF (base_elem G) pk' (map voprf_blinded_element clients)
         (map evaluation_value messages) (c_scalar proof) (s_scalar proof)).
Proof.
  intros CS L sk R st st' blinded replies proof inputs clients messages pk' outs G pk Hev Hfin Hne.
  destruct (proj1 (C11_proof_is_GenerateProof CS L sk R st) _ _ _ _ Hev) as (r & Hr & _ & Hp).
  exists r. split; auto.
  apply voprf_accept_inv in Hfin. apply (verify_ok_inv L) in Hfin as (_ & _ & HV).
  eapply wrong_base; eauto.
Qed.

(** One honest item, a tampered reply or a different message. *)
Theorem C13_voprf_tampered :
  forall (CS : CipherSuite) (L : SuiteLaws CS) (sk : scalar CS) (R : Rng) (st st' : rng_state R)
         (message : BlindedElement CS) (reply reply' : EvaluationElement CS) (proof : Proof CS)
         (client : VoprfClient CS) input out,
  let G := CSGroup CS in
  let pk := elem_mul G (base_elem G) sk in
  let seed := proof_seed (CS := CS) modeVOPRF pk in
  voprf_server_blind_evaluate CS (mkVoprfServer sk pk) R message st
    = (Ok (mkVoprfServerEvaluateResult reply proof), st') ->
  voprf_client_finalize CS client input reply' proof pk = Ok out ->
  (voprf_blinded_element client = blinded_value message /\ blinded_value message <> identity_elem G /\
   evaluation_value reply' <> evaluation_value reply) \/
  (voprf_blinded_element client <> blinded_value message /\ evaluation_value reply <> identity_elem G /\
   evaluation_value reply' = evaluation_value reply) ->
  exists r, random_scalar G R st = (Ok r, st') /\
    (h2s_collision L modeVOPRF
      (prover_string L modeVOPRF (base_elem G) pk [blinded_value message] [evaluation_value reply] r)
      (verifier_string L modeVOPRF (base_elem G) pk [voprf_blinded_element client] [evaluation_value reply']
         (c_scalar proof) (s_scalar proof)) \/
     h2s_collision L modeVOPRF
      (composite_string seed 0 (blinded_value message) (evaluation_value reply))
      (composite_string seed 0 (voprf_blinded_element client) (evaluation_value reply'))).
Proof.
  intros CS L sk R st st' message reply reply' proof client input out G pk seed Hev Hfin Hne.
  destruct (C09_single_is_batch_of_one CS L) as (H1 & _ & _ & H2 & _).
  apply H1 in Hev. apply H2 in Hfin.
  destruct (proj1 (C11_proof_is_GenerateProof CS L sk R st) _ _ _ _ Hev) as (r & Hr & _ & Hp).
  exists r. split; auto.
  apply voprf_accept_inv in Hfin. apply (verify_ok_inv L) in Hfin as (_ & _ & HV).
  cbn [map] in *. eapply wrong_pair; eauto.
  destruct Hne as [(H & H' & H'')|(H & H' & H'')]; [left|right]; repeat split; auto; congruence.
Qed.

(** POPRF: another public key or another info. *)
Theorem C13_poprf_wrong_key_or_info :
  forall (CS : CipherSuite) (L : SuiteLaws CS) (sk : scalar CS) (R : Rng) (st st' : rng_state R)
         blinded info replies proof inputs clients messages (pk' : elem CS) info' outs,
  let G := CSGroup CS in
  let pk := elem_mul G (base_elem G) sk in
  let i := match info with Some i => i | None => [] end in
  let i' := match info' with Some i => i | None => [] end in
  poprf_server_batch_blind_evaluate CS (mkPoprfServer sk pk) R blinded info st
    = (Ok (mkPoprfServerBatchEvaluateResult replies proof), st') ->
  poprf_client_batch_finalize CS inputs clients messages proof pk' info' = Ok outs ->
  (pk' <> pk /\ i' = i) \/ (pk' = pk /\ i' <> i) ->
  exists r, random_scalar G R st = (Ok r, st') /\
    (h2s_collision L modePOPRF
      (prover_string L modePOPRF (base_elem G) (tweaked_element L pk i)
         (map evaluation_value replies) (map blinded_value blinded) r)
      (verifier_string L modePOPRF (base_elem G) (tweaked_element L pk' i')
         (map evaluation_value messages) (map poprf_blinded_element clients) (c_scalar proof) (s_scalar proof)) \/
     h2s_collision L modePOPRF (str "Info" ++ lv i) (str "Info" ++ lv i')).
Proof.
  intros CS L sk R st st' blinded info replies proof inputs clients messages pk' info' outs G pk i i' Hev Hfin Hne.
  destruct (proj2 (C11_proof_is_GenerateProof CS L sk R st) _ _ _ _ _ Hev) as (r & Hr & _ & Hp).
  exists r. split; auto.
  assert (Hi : len i <= 65535).
  { destruct (N.leb_spec (len i) 65535); auto.
    unfold poprf_server_batch_blind_evaluate, poprf_server_batch_blind_evaluate_prepare, rbind, rret in Hev.
    rewrite compute_tweak_long in Hev by auto. discriminate. }
  destruct (poprf_accept_inv L _ _ _ _ _ _ _ Hfin) as (Hi' & _ & HV & _).
  change (info_or_default info') with i' in *.
  apply (verify_ok_inv L) in HV as (_ & _ & HV).
  fold i in Hp. fold G in Hp. fold (tweaked_scalar L sk i) in Hp.
  pose proof (tweaked_element_gen L sk i) as Ht. fold G pk in Ht.
  cbv zeta in Hp. rewrite <- Ht in Hp.
  destruct (elem_eq_dec (group_laws L) (tweaked_element L pk i) (tweaked_element L pk' i')) as [E|E].
  - right. unfold tweaked_element in E. destruct Hne as [[H1 H2]|[H1 H2]].
    + rewrite H2 in E. apply (add_cancel_l (group_laws L)) in E. congruence.
    + rewrite H1 in E. apply (add_cancel_r (group_laws L)), (base_mul_inj (group_laws L)) in E.
      split; [|exact E]. intros Hs. apply H2. symmetry. now apply info_string_inj.
  - left. eapply wrong_base; eauto.
Qed.

Theorem C13_poprf_tampered :
  forall (CS : CipherSuite) (L : SuiteLaws CS) (sk : scalar CS) (R : Rng) (st st' : rng_state R)
         (message : BlindedElement CS) info (reply reply' : EvaluationElement CS) (proof : Proof CS)
         (client : PoprfClient CS) input out,
  let G := CSGroup CS in
  let pk := elem_mul G (base_elem G) sk in
  let i := match info with Some i => i | None => [] end in
  let tk := tweaked_element L pk i in
  let seed := proof_seed (CS := CS) modePOPRF tk in
  poprf_server_blind_evaluate CS (mkPoprfServer sk pk) R message info st
    = (Ok (mkPoprfServerEvaluateResult reply proof), st') ->
  poprf_client_finalize CS client input reply' proof pk info = Ok out ->
  (poprf_blinded_element client = blinded_value message /\ blinded_value message <> identity_elem G /\
   evaluation_value reply' <> evaluation_value reply) \/
  (poprf_blinded_element client <> blinded_value message /\ evaluation_value reply <> identity_elem G /\
   evaluation_value reply' = evaluation_value reply) ->
  exists r, random_scalar G R st = (Ok r, st') /\
    (h2s_collision L modePOPRF
      (prover_string L modePOPRF (base_elem G) tk [evaluation_value reply] [blinded_value message] r)
      (verifier_string L modePOPRF (base_elem G) tk [evaluation_value reply'] [poprf_blinded_element client]
         (c_scalar proof) (s_scalar proof)) \/
     h2s_collision L modePOPRF
      (composite_string seed 0 (evaluation_value reply) (blinded_value message))
      (composite_string seed 0 (evaluation_value reply') (poprf_blinded_element client))).
Proof.
  intros CS L sk R st st' message info reply reply' proof client input out G pk i tk seed Hev Hfin Hne.
  destruct (C09_single_is_batch_of_one CS L) as (_ & H1 & _ & _ & _ & H2 & _).
  apply H1 in Hev. apply H2 in Hfin.
  destruct (proj2 (C11_proof_is_GenerateProof CS L sk R st) _ _ _ _ _ Hev) as (r & Hr & _ & Hp).
  exists r. split; auto.
  destruct (poprf_accept_inv L _ _ _ _ _ _ _ Hfin) as (_ & _ & HV & _).
  apply (verify_ok_inv L) in HV as (_ & _ & HV).
  change (info_or_default info) with i in HV. fold i in Hp.
  pose proof (tweaked_element_gen L sk i) as Ht. fold G pk tk in Ht, HV.
  cbv zeta in Hp. fold G in Hp. rewrite <- Ht in Hp.
  cbn [map] in *. eapply wrong_pair; eauto.
  destruct Hne as [(H & H' & H'')|(H & H' & H'')]; [right|left]; repeat split; auto; congruence.
Qed.

(** The hash of the toy suite collides often, so both kinds of premises are
    met there: an honest proof that is accepted under another public key, and
    with another evaluation element. *)
Definition ex_pk : elem TS := elem_mul (CSGroup TS) (base_elem (CSGroup TS)) (ex_scalar 42).
Definition ex_accepts {CS} (client : VoprfClient CS) (input : bytes)
    (r : res (VoprfServerEvaluateResult CS)) (pk : elem CS) (reply' : option (elem CS)) : bool :=
  match r with
  | Ok r =>
      match voprf_client_finalize CS client input
              (match reply' with Some e => mkEvaluation e | None => voprf_eval_message r end)
              (voprf_eval_proof r) pk with
      | Ok _ => match reply' with
                | Some e => negb (elem_ct_eq (CSGroup CS) e (evaluation_value (voprf_eval_message r)))
                | None => true
                end
      | _ => false
      end
  | _ => false
  end.

Lemma ex_accepts_inv {CS} (L : SuiteLaws CS) client input
    (call : res (VoprfServerEvaluateResult CS) * N) pk pk' e :
  ex_accepts client input (fst call) pk' None = true ->
  ex_accepts client input (fst call) pk (Some e) = true ->
  exists reply proof st' out out',
    call = (Ok (mkVoprfServerEvaluateResult reply proof), st') /\
    voprf_client_finalize CS client input reply proof pk' = Ok out /\
    voprf_client_finalize CS client input (mkEvaluation e) proof pk = Ok out' /\
    e <> evaluation_value reply.
Proof.
  intros T1 T2.
  destruct call as [r st']. destruct r as [[reply proof]| | |]; try discriminate T1.
  unfold ex_accepts in T1, T2. cbn [fst voprf_eval_message voprf_eval_proof] in T1, T2.
  destruct (voprf_client_finalize _ _ _ reply _ _) as [out| | |] eqn:E1; try discriminate T1.
  destruct (voprf_client_finalize _ _ _ (mkEvaluation _) _ _) as [out'| | |] eqn:E2; try discriminate T2.
  exists reply, proof, st', out, out'. split; [reflexivity|]. split; [exact E1|]. split; [exact E2|].
  intros E. apply negb_true_iff in T2.
  pose proof (proj2 (elem_ct_eq_spec _ (group_laws L) _ _) E) as H. congruence.
Qed.

Example C13_case :
  ex_elem 135 <> ex_pk /\
  exists reply proof st' out out',
    voprf_server_blind_evaluate TS (mkVoprfServer (ex_scalar 42) ex_pk) CtrRng (mkBlinded (ex_elem 7)) 18
      = (Ok (mkVoprfServerEvaluateResult reply proof), st') /\
    voprf_client_finalize TS (mkVoprfClient (ex_scalar 3) (ex_elem 7)) ex_input reply proof (ex_elem 135) = Ok out /\
    voprf_client_finalize TS (mkVoprfClient (ex_scalar 3) (ex_elem 7)) ex_input
      (mkEvaluation (ex_elem 217)) proof ex_pk = Ok out' /\
    ex_elem 217 <> evaluation_value reply.
Proof.
  split; [apply ex_neq; vm_compute; reflexivity|].
  apply (ex_accepts_inv TL); vm_compute; reflexivity.
Qed.
