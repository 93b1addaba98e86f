(** * PropKeys: key generation and key pairs (C14, C15). *)
From Verif Require Import Oprf Voprf Poprf SerializationFacts Spec OprfFacts VoprfFacts PoprfFacts Zq.
From Verif Require Import PropCorrectness PropBatch PropEncoding.
Open Scope N_scope.

(** ** C15 *)

(** [new_from_seed] is DeriveKeyPair of RFC 9497, in each mode; these are all
    its outcomes. *)
Theorem C15_oprf_derive :
  forall (CS : CipherSuite) (L : SuiteLaws CS) (seed info : bytes),
  let call := oprf_server_new_from_seed CS seed info in
  (forall sk, call = Ok (mkOprfServer sk) <-> len info <= 65535 /\ DerivedKey L modeOPRF seed info sk) /\
  (call = Err EProtocol <-> len info <= 65535 /\ NoDerivedKey L modeOPRF seed info) /\
  (call = Err EDeriveKeyPair <-> 65535 < len info) /\
  ((exists s, call = Ok s) \/ call = Err EProtocol \/ call = Err EDeriveKeyPair).
Proof.
  intros CS L seed info call. unfold call, oprf_server_new_from_seed.
  destruct (N.leb_spec (len info) 65535) as [Hl|Hl].
  - destruct (derive_key_internal_cases L seed info Oprf Hl) as [(sk & E & D)|[E D]]; rewrite E; cbn [bind].
    + split; [|split; [|split]].
      * intros sk'. split.
        -- intros H. injection H as <-. auto.
        -- intros [_ D']. now rewrite (DerivedKey_unique L _ _ _ _ _ D D').
      * split; [discriminate|]. intros [_ D']. destruct D as (c & Hc & -> & Hz & _).
        now apply D' in Hc.
      * split; [discriminate|]. lia.
      * eauto.
    + split; [|split; [|split]].
      * intros sk'. split; [discriminate|]. intros [_ (c & Hc & -> & Hz & _)]. now apply D in Hc.
      * tauto.
      * split; [discriminate|]. lia.
      * auto.
  - rewrite (derive_key_internal_long L) by auto. cbn [bind].
    split; [|split; [|split]].
    + intros sk'. split; [discriminate|lia].
    + split; [discriminate|lia].
    + tauto.
    + auto.
Qed.

Lemma derive_keypair_outcomes {CS} (L : SuiteLaws CS) seed info mode :
  let G := CSGroup CS in
  let call := derive_keypair CS seed info mode in
  (forall sk pk, call = Ok (sk, pk) <->
     len info <= 65535 /\ DerivedKey L (mode_id mode) seed info sk /\ pk = elem_mul G (base_elem G) sk) /\
  (call = Err EProtocol <-> len info <= 65535 /\ NoDerivedKey L (mode_id mode) seed info) /\
  (call = Err EDeriveKeyPair <-> 65535 < len info) /\
  ((exists s, call = Ok s) \/ call = Err EProtocol \/ call = Err EDeriveKeyPair).
Proof.
  intros G call. unfold call, derive_keypair.
  destruct (N.leb_spec (len info) 65535) as [Hl|Hl].
  - destruct (derive_key_internal_cases L seed info mode Hl) as [(sk & E & D)|[E D]]; rewrite E; cbn [bind].
    + split; [|split; [|split]].
      * intros sk' pk'. split.
        -- intros H. injection H as <- <-. auto.
        -- intros (_ & D' & ->). now rewrite (DerivedKey_unique L _ _ _ _ _ D D').
      * split; [discriminate|]. intros [_ D']. destruct D as (c & Hc & -> & Hz & _).
        now apply D' in Hc.
      * split; [discriminate|]. lia.
      * eauto.
    + split; [|split; [|split]].
      * intros sk' pk'. split; [discriminate|]. intros (_ & (c & Hc & -> & Hz & _) & _). now apply D in Hc.
      * tauto.
      * split; [discriminate|]. lia.
      * auto.
  - rewrite (derive_key_internal_long L) by auto. cbn [bind].
    split; [|split; [|split]].
    + intros sk' pk'. split; [discriminate|lia].
    + split; [discriminate|lia].
    + tauto.
    + auto.
Qed.

Theorem C15_voprf_derive :
  forall (CS : CipherSuite) (L : SuiteLaws CS) (seed info : bytes),
  let G := CSGroup CS in
  let call := voprf_server_new_from_seed CS seed info in
  (forall sk pk, call = Ok (mkVoprfServer sk pk) <->
     len info <= 65535 /\ DerivedKey L modeVOPRF seed info sk /\ pk = elem_mul G (base_elem G) sk) /\
  (call = Err EProtocol <-> len info <= 65535 /\ NoDerivedKey L modeVOPRF seed info) /\
  (call = Err EDeriveKeyPair <-> 65535 < len info) /\
  ((exists s, call = Ok s) \/ call = Err EProtocol \/ call = Err EDeriveKeyPair).
Proof.
  intros CS L seed info G call. unfold call, voprf_server_new_from_seed.
  destruct (derive_keypair_outcomes L seed info Voprf) as (H1 & H2 & H3 & H4).
  change (mode_id Voprf) with modeVOPRF in *. fold G in H1.
  destruct (derive_keypair CS seed info Voprf) as [[sk0 pk0]|e| |]; cbn [bind] in *.
  - split; [|split; [|split]]; eauto.
    + intros sk pk. eapply iff_trans; [|apply H1]. split; intros E; injection E as <- <-; reflexivity.
    + eapply iff_trans; [|apply H2]. split; discriminate.
    + eapply iff_trans; [|apply H3]. split; discriminate.
  - split; [|split; [|split]]; auto.
    + intros sk pk. eapply iff_trans; [|apply H1]. split; discriminate.
    + eapply iff_trans; [|apply H2]. split; intros E; injection E as <-; reflexivity.
    + eapply iff_trans; [|apply H3]. split; intros E; injection E as <-; reflexivity.
    + destruct H4 as [[s H4]|[H4|H4]]; [discriminate|injection H4 as ->; auto|injection H4 as ->; auto].
  - destruct H4 as [[s H4]|[H4|H4]]; discriminate.
  - destruct H4 as [[s H4]|[H4|H4]]; discriminate.
Qed.

Theorem C15_poprf_derive :
  forall (CS : CipherSuite) (L : SuiteLaws CS) (seed info : bytes),
  let G := CSGroup CS in
  let call := poprf_server_new_from_seed CS seed info in
  (forall sk pk, call = Ok (mkPoprfServer sk pk) <->
     len info <= 65535 /\ DerivedKey L modePOPRF seed info sk /\ pk = elem_mul G (base_elem G) sk) /\
  (call = Err EProtocol <-> len info <= 65535 /\ NoDerivedKey L modePOPRF seed info) /\
  (call = Err EDeriveKeyPair <-> 65535 < len info) /\
  ((exists s, call = Ok s) \/ call = Err EProtocol \/ call = Err EDeriveKeyPair).
Proof.
  intros CS L seed info G call. unfold call, poprf_server_new_from_seed.
  destruct (derive_keypair_outcomes L seed info Poprf) as (H1 & H2 & H3 & H4).
  change (mode_id Poprf) with modePOPRF in *. fold G in H1.
  destruct (derive_keypair CS seed info Poprf) as [[sk0 pk0]|e| |]; cbn [bind] in *.
  - split; [|split; [|split]]; eauto.
    + intros sk pk. eapply iff_trans; [|apply H1]. split; intros E; injection E as <- <-; reflexivity.
    + eapply iff_trans; [|apply H2]. split; discriminate.
    + eapply iff_trans; [|apply H3]. split; discriminate.
  - split; [|split; [|split]]; auto.
    + intros sk pk. eapply iff_trans; [|apply H1]. split; discriminate.
    + eapply iff_trans; [|apply H2]. split; intros E; injection E as <-; reflexivity.
    + eapply iff_trans; [|apply H3]. split; intros E; injection E as <-; reflexivity.
    + destruct H4 as [[s H4]|[H4|H4]]; [discriminate|injection H4 as ->; auto|injection H4 as ->; auto].
  - destruct H4 as [[s H4]|[H4|H4]]; discriminate.
  - destruct H4 as [[s H4]|[H4|H4]]; discriminate.
Qed.

(** A case in which the first candidate is taken, one in which the retry loop
    runs, and one in which all 256 candidates are zero. *)
Example C15_case :
  DerivedKey TL modeVOPRF (bstr "seed") (bstr "info") (key_candidate TL modeVOPRF (bstr "seed") (bstr "info") 0).
Proof.
  exists 0. split; [lia|]. split; [reflexivity|]. split; [|intros; lia].
  apply ex_neq. vm_compute. reflexivity.
Qed.

(** ** C14 *)

Lemma response_opens {CS} (L : SuiteLaws CS) (r c k : scalar CS) :
  scalar_add (CSGroup CS) (scalar_sub (CSGroup CS) r (scalar_mul (CSGroup CS) c k))
    (scalar_mul (CSGroup CS) k c) = r.
Proof.
  pose proof (scalar_field _ (group_laws L)) as F.
  rewrite (Rsub_def (F_R F)), <- (Radd_assoc (F_R F)), (Rmul_comm (F_R F) k c).
  rewrite (Radd_comm (F_R F) (s_opp (group_laws L) _)), (Ropp_def (F_R F)).
  rewrite (Radd_comm (F_R F)). apply (Radd_0_l (F_R F)).
Qed.

Theorem C14_public_key_matches :
  forall (CS : CipherSuite) (L : SuiteLaws CS) (R : Rng) (st st' : rng_state R)
         (seed info key : bytes),
  let G := CSGroup CS in
  (forall s : VoprfServer CS,
     voprf_server_new CS R st = (Ok s, st') \/ voprf_server_new_from_seed CS seed info = Ok s \/
     voprf_server_new_with_key CS key = Ok s ->
     voprf_sk s <> zero_scalar G /\
     voprf_server_get_public_key CS s = elem_mul G (base_elem G) (voprf_sk s)) /\
  (forall s : PoprfServer CS,
     poprf_server_new CS R st = (Ok s, st') \/ poprf_server_new_from_seed CS seed info = Ok s \/
     poprf_server_new_with_key CS key = Ok s ->
     poprf_sk s <> zero_scalar G /\
     poprf_server_get_public_key CS s = elem_mul G (base_elem G) (poprf_sk s)) /\
  (forall s : OprfServer CS,
     oprf_server_new CS R st = (Ok s, st') \/ oprf_server_new_from_seed CS seed info = Ok s \/
     oprf_server_new_with_key CS key = Ok s ->
     oprf_sk s <> zero_scalar G).
Proof.
  intros CS L R st st' seed info key G.
  assert (HV : forall seed info s, voprf_server_new_from_seed CS seed info = Ok s ->
     voprf_sk s <> zero_scalar G /\ voprf_server_get_public_key CS s = elem_mul G (base_elem G) (voprf_sk s)).
  { intros sd inf [sk pk] H. apply (proj1 (C15_voprf_derive CS L sd inf)) in H as (_ & (c & _ & -> & Hz & _) & ->).
    split; auto. }
  assert (HP : forall seed info s, poprf_server_new_from_seed CS seed info = Ok s ->
     poprf_sk s <> zero_scalar G /\ poprf_server_get_public_key CS s = elem_mul G (base_elem G) (poprf_sk s)).
  { intros sd inf [sk pk] H. apply (proj1 (C15_poprf_derive CS L sd inf)) in H as (_ & (c & _ & -> & Hz & _) & ->).
    split; auto. }
  assert (HO : forall seed info s, oprf_server_new_from_seed CS seed info = Ok s -> oprf_sk s <> zero_scalar G).
  { intros sd inf [sk] H. apply (proj1 (C15_oprf_derive CS L sd inf)) in H as (_ & (c & _ & -> & Hz & _)). auto. }
  assert (HD : forall s, deserialize_scalar G key = Ok s -> s <> zero_scalar G).
  { intros s H. pose proof (deserialize_scalar_safe G (group_laws L) key) as Hs. now rewrite H in Hs. }
  split; [|split]; intros s [H|[H|H]].
  - unfold voprf_server_new in H. destruct (fill_bytes R st _) as [sd st1].
    injection H as H _. eapply HV; eauto.
  - eapply HV; eauto.
  - unfold voprf_server_new_with_key in H. destruct (deserialize_scalar _ key) eqn:E; try discriminate.
    injection H as <-. cbn. split; auto.
  - unfold poprf_server_new in H. destruct (fill_bytes R st _) as [sd st1].
    injection H as H _. eapply HP; eauto.
  - eapply HP; eauto.
  - unfold poprf_server_new_with_key in H. destruct (deserialize_scalar _ key) eqn:E; try discriminate.
    injection H as <-. cbn. split; auto.
  - unfold oprf_server_new in H. destruct (fill_bytes R st _) as [sd st1].
    injection H as H _. eapply HO; eauto.
  - eapply HO; eauto.
  - unfold oprf_server_new_with_key in H. destruct (deserialize_scalar _ key) eqn:E; try discriminate.
    injection H as <-. cbn. auto.
Qed.

(** [deserialize] accepts a server whose halves do not belong together. *)
Theorem C14_deserialize_mismatch :
  forall (CS : CipherSuite) (L : SuiteLaws CS) (sk : scalar CS) (P : elem CS),
  sk <> zero_scalar (CSGroup CS) -> P <> identity_elem (CSGroup CS) ->
  voprf_server_deserialize CS (serialize_scalar (CSGroup CS) sk ++ serialize_elem (CSGroup CS) P)
    = Ok (mkVoprfServer sk P) /\
  poprf_server_deserialize CS (serialize_scalar (CSGroup CS) sk ++ serialize_elem (CSGroup CS) P)
    = Ok (mkPoprfServer sk P).
Proof.
  intros CS L sk P Hs HP.
  unfold voprf_server_deserialize, poprf_server_deserialize.
  rewrite (de_scalar_app (group_laws L)) by auto. cbn [bind].
  rewrite <- (app_nil_r (serialize_elem (CSGroup CS) P)).
  rewrite (de_elem_app (group_laws L)) by auto. auto.
Qed.

(** A server with a wrong public key makes proofs that its public key rejects,
    unless the challenge is zero or prover and verifier hash different strings
    to the same challenge. *)
Theorem C14_mismatched_server_rejected :
  forall (CS : CipherSuite) (L : SuiteLaws CS) (sk : scalar CS) (P : elem CS) (R : Rng) st st'
         blinded replies proof inputs clients,
  let G := CSGroup CS in
  let C := map blinded_value blinded in
  let D := map evaluation_value replies in
  P <> elem_mul G (base_elem G) sk ->
  voprf_server_batch_blind_evaluate CS (mkVoprfServer sk P) R blinded st
    = (Ok (mkVoprfServerBatchEvaluateResult replies proof), st') ->
  map voprf_blinded_element clients = map blinded_value blinded ->
  (exists outs, voprf_client_batch_finalize CS inputs clients replies proof P = Ok outs) ->
  c_scalar proof = zero_scalar G \/
  exists r, random_scalar G R st = (Ok r, st') /\
    h2s_collision L modeVOPRF (prover_string L modeVOPRF (base_elem G) P C D r)
      (verifier_string L modeVOPRF (base_elem G) P C D (c_scalar proof) (s_scalar proof)).
Proof.
  intros CS L sk P R st st' blinded replies proof inputs clients G C D HP Hev Hcl (outs & Hfin).
  destruct (N.leb_spec (len blinded) 65535) as [Hl|Hl];
    [|rewrite voprf_batch_err in Hev by auto; discriminate].
  rewrite (voprf_batch_ok L) in Hev by auto.
  destruct (random_scalar (CSGroup CS) R st) as [[r| | |] st1] eqn:Er; try discriminate.
  injection Hev as <- <- <-. cbn [voprf_sk voprf_pk] in *.
  set (D0 := map (fun Q => elem_mul (CSGroup CS) Q sk) C).
  assert (HD : D = D0) by (unfold D, D0, C; rewrite !map_map; reflexivity).
  fold C in Hcl. set (M := compositeM L modeVOPRF P C D0).
  assert (HZ : compositeZ L modeVOPRF P C D0 = elem_mul G M sk) by apply (compositeZ_mul L).
  set (pr := voprf_batch_proof (voprf_batch_result L (mkVoprfServer sk P) blinded r)) in *.
  assert (Hpr : pr = proof_with L modeVOPRF sk (base_elem G) P M (elem_mul G M sk) r) by reflexivity.
  assert (Hv : VerifyProof L modeVOPRF (base_elem G) P C D0 (c_scalar pr) (s_scalar pr)).
  { pose proof (fun m => C10_voprf_accepts_iff CS L inputs clients m pr P) as Hi.
    assert (Hlc : len clients = len blinded).
    { apply (f_equal (@length _)) in Hcl. unfold C in Hcl. rewrite !map_length in Hcl. unfold len. lia. }
    match type of Hfin with voprf_client_batch_finalize _ _ _ ?m _ _ = _ => specialize (Hi m) end.
    match type of Hi with ~ ?b -> _ => assert (Hnb : ~ b) end.
    { rewrite bad_batch_len, !len_map. lia. }
    specialize (Hi Hnb). cbv zeta in Hi. destruct Hi as [[_ Hi] _].
    rewrite <- HD, <- Hcl. apply Hi. eauto. }
  destruct (scalar_eq_dec (group_laws L) (c_scalar pr) (zero_scalar G)) as [Hc0|Hc0]; [now left|right].
  exists r. split; auto. rewrite HD.
  split.
  - intros E. unfold prover_string, verifier_string in E.
    apply (challenge_string_inj L) in E as (_ & _ & _ & E & _).
    apply HP.
    assert (Hs : elem_add G (elem_mul G (base_elem G) (s_scalar pr))
                   (elem_mul G (elem_mul G (base_elem G) sk) (c_scalar pr))
                 = elem_mul G (base_elem G) r).
    { unfold G. rewrite (elem_mul_mul _ (group_laws L)), (add_mul (group_laws L)). f_equal.
      rewrite Hpr. cbn [s_scalar c_scalar proof_with].
      apply (response_opens L). }
    unfold G in *. rewrite <- Hs in E. apply (add_cancel_l (group_laws L)) in E.
    symmetry. now apply (mul_elem_inj (group_laws L)) in E.
  - transitivity (c_scalar pr); [|symmetry; exact Hv].
    rewrite Hpr. unfold prover_string. fold M. rewrite HZ. reflexivity.
Qed.

Example C14_case :
  ex_scalar 42 <> zero_scalar (CSGroup TS) /\ ex_elem 7 <> identity_elem (CSGroup TS) /\
  ex_elem 7 <> elem_mul (CSGroup TS) (base_elem (CSGroup TS)) (ex_scalar 42).
Proof. repeat split; apply ex_neq; vm_compute; reflexivity. Qed.
