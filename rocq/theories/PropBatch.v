(** * PropBatch: batch limits, result counts and the accepted set.

    Properties C07, C08, C10 and the API form of C20. *)
From Verif Require Import Oprf Voprf Poprf Spec OprfFacts VoprfFacts PoprfFacts Zq.
From Verif Require Import PropCorrectness.
Open Scope N_scope.

(** A list is too long, or two lists do not match, for a batch. *)
Definition bad_batch {A B} (l : list A) (l' : list B) : Prop :=
  length l <> length l' \/ 65535 < N.of_nat (length l).

Lemma bad_batch_len {A B} (l : list A) (l' : list B) :
  bad_batch l l' <-> len l <> len l' \/ 65535 < len l.
Proof. unfold bad_batch, len. split; intros [H|H]; auto; left; lia. Qed.

Lemma not_bad_batch {A B} (l : list A) (l' : list B) :
  ~ bad_batch l l' -> len l = len l' /\ len l <= 65535.
Proof.
  rewrite bad_batch_len. intros H.
  destruct (N.eq_dec (len l) (len l')), (N.leb_spec (len l) 65535); tauto.
Qed.

Lemma bad_batch_dec {A B} (l : list A) (l' : list B) : bad_batch l l' \/ ~ bad_batch l l'.
Proof.
  rewrite bad_batch_len.
  destruct (N.eq_dec (len l) (len l')), (N.leb_spec (len l) 65535); try tauto.
  right. lia.
Qed.

(** ** C07 *)

(** The server side of VOPRF: [Error::Batch] exactly on a bad batch, with the
    RNG untouched; otherwise never an error or a panic. *)
Theorem C07_voprf_server_limits :
  forall (CS : CipherSuite) (L : SuiteLaws CS) (server : VoprfServer CS) (R : Rng) (st : rng_state R),
  (forall blinded prepared,
     bad_batch blinded prepared ->
     voprf_server_batch_blind_evaluate_finish CS server R blinded prepared st = (Err EBatch, st)) /\
  (forall blinded prepared,
     ~ bad_batch blinded prepared -> sampling_ends (CSGroup CS) R st ->
     exists result st',
       voprf_server_batch_blind_evaluate_finish CS server R blinded prepared st = (Ok result, st')) /\
  (forall blinded,
     65535 < N.of_nat (length blinded) ->
     voprf_server_batch_blind_evaluate CS server R blinded st = (Err EBatch, st)) /\
  (forall blinded,
     N.of_nat (length blinded) <= 65535 -> sampling_ends (CSGroup CS) R st ->
     exists result st',
       voprf_server_batch_blind_evaluate CS server R blinded st = (Ok result, st') /\
       length (voprf_batch_messages result) = length blinded).
Proof.
  intros CS L server R st. repeat split.
  - intros bs ps H. apply bad_batch_len in H. now apply voprf_finish_err.
  - intros bs ps H Hs. apply not_bad_batch in H as [He Hl].
    destruct (sampling_cases L R st Hs) as (r & st' & Hr & _).
    rewrite (voprf_finish_ok L) by auto. rewrite Hr. eauto.
  - intros bs H. now apply voprf_batch_err.
  - intros bs H Hs. destruct (sampling_cases L R st Hs) as (r & st' & Hr & _).
    rewrite (voprf_batch_ok L) by auto. rewrite Hr. do 2 eexists. split; [reflexivity|].
    cbn. now rewrite !map_length.
Qed.

Theorem C07_poprf_finish_limits :
  forall (CS : CipherSuite) (L : SuiteLaws CS) (R : Rng) (st : rng_state R)
         (tweak : PoprfPreparedTweak CS) blinded prepared,
  (bad_batch blinded prepared ->
   poprf_server_batch_blind_evaluate_finish CS R blinded prepared tweak st = (Err EBatch, st)) /\
  (~ bad_batch blinded prepared -> sampling_ends (CSGroup CS) R st ->
   exists result st',
     poprf_server_batch_blind_evaluate_finish CS R blinded prepared tweak st = (Ok result, st')).
Proof.
  intros CS L R st t bs ps. split.
  - intros H. apply bad_batch_len in H. now apply poprf_finish_err.
  - intros H Hs. apply not_bad_batch in H as [He Hl].
    destruct (sampling_cases L R st Hs) as (r & st' & Hr & _).
    rewrite (poprf_finish_ok L) by auto. rewrite Hr. eauto.
Qed.

(** Both [batch_finalize] functions: a bad batch is [Error::Batch] (for POPRF
    once the info is acceptable), and [Error::Batch] means a bad batch (for
    POPRF: or a wrong number of inputs). *)
Theorem C07_voprf_client_limits :
  forall (CS : CipherSuite) (L : SuiteLaws CS) inputs clients messages proof pk,
  voprf_client_batch_finalize CS inputs clients messages proof pk = Err EBatch
  <-> bad_batch clients messages.
Proof.
  intros CS L inputs clients messages proof pk. split.
  - intros H. destruct (bad_batch_dec clients messages) as [Hb|Hb]; auto. exfalso.
    apply not_bad_batch in Hb as [He Hl].
    unfold voprf_client_batch_finalize, verifiable_unblind in H.
    destruct (verify_proof _ _ _ _ _ _ _) as [[]|e| |] eqn:Hv; try discriminate.
    injection H as ->.
    unfold verify_proof in Hv. rewrite (compute_composites_ok L) in Hv by (rewrite !len_map; auto).
    cbn [bind] in Hv. rewrite (dst_new_ok L) in Hv by (vm_compute; discriminate). cbn [bind] in Hv.
    rewrite (challenge_input_ok L) in Hv. cbn [unwrap bind] in Hv.
    destruct (scalar_ct_eq _ _ _) in Hv; discriminate.
  - intros H. apply bad_batch_len in H. apply voprf_batch_finalize_fail.
    apply verify_proof_err. now rewrite !len_map.
Qed.

Theorem C07_poprf_client_limits :
  forall (CS : CipherSuite) (L : SuiteLaws CS) inputs clients messages proof pk info,
  let i := match info with Some i => i | None => [] end in
  len i <= 65535 ->
  tweaked_element L pk i <> identity_elem (CSGroup CS) ->
  (bad_batch clients messages ->
   poprf_client_batch_finalize CS inputs clients messages proof pk info = Err EBatch) /\
  (poprf_client_batch_finalize CS inputs clients messages proof pk info = Err EBatch ->
   bad_batch clients messages \/ length inputs <> length clients).
Proof.
  intros CS L inputs clients messages proof pk info i Hi Ht.
  change i with (info_or_default info) in *. split.
  - intros H. apply (poprf_batch_finalize_fail L); auto. apply verify_proof_err.
    apply bad_batch_len in H. rewrite !len_map.
    destruct (N.eq_dec (len messages) (len clients)) as [E|E]; [|auto].
    right. destruct H; lia.
  - intros H. destruct (bad_batch_dec clients messages) as [Hb|Hb]; auto. right.
    apply not_bad_batch in Hb as [He Hl]. intros Hin.
    unfold poprf_client_batch_finalize, poprf_unblind in H.
    rewrite (compute_tweaked_key_ok L) in H by auto. cbn [info_or_default] in H.
    rewrite (proj2 (is_identity_false (group_laws L) _) Ht) in H. cbn [bind] in H.
    destruct (verify_proof _ _ _ _ _ _ _) as [[]|e| |] eqn:Hv; try discriminate.
    + cbn [bind] in H. unfold poprf_finalize_after_unblind in H.
      destruct (N.eqb_spec (len (map (fun '(blind, x) => poprf_unblind_one CS blind x)
                  (combine (map poprf_blind clients) messages))) (len inputs)) as [|Hne];
        [discriminate|].
      apply Hne. unfold len in *. rewrite map_length, combine_length, map_length. lia.
    + cbn [bind] in H. injection H as ->.
      unfold verify_proof in Hv. rewrite (compute_composites_ok L) in Hv by (rewrite !len_map; lia).
      cbn [bind] in Hv. rewrite (dst_new_ok L) in Hv by (vm_compute; discriminate). cbn [bind] in Hv.
      rewrite (challenge_input_ok L) in Hv. cbn [unwrap bind] in Hv.
      destruct (scalar_ct_eq _ _ _) in Hv; discriminate.
Qed.

(** The clause about [PoprfServer::batch_blind_evaluate] is false of the code:
    it panics on every batch of more than 65535 elements whose info is
    acceptable. *)
Theorem C07_poprf_batch_evaluate_panics_refuted :
  forall (CS : CipherSuite) (L : SuiteLaws CS) (server : PoprfServer CS) (R : Rng)
         (st : rng_state R) blinded info,
  let i := match info with Some i => i | None => [] end in
  len i <= 65535 -> tweaked_scalar L (poprf_sk server) i <> zero_scalar (CSGroup CS) ->
  65535 < N.of_nat (length blinded) ->
  poprf_server_batch_blind_evaluate CS server R blinded info st = (Panic, st).
Proof.
  intros CS L server R st bs info i Hi Ht Hl. now apply (poprf_batch_too_long L).
Qed.

(** ... and it does not panic otherwise. *)
Theorem C07_poprf_batch_evaluate_limits_partial :
  forall (CS : CipherSuite) (L : SuiteLaws CS) (server : PoprfServer CS) (R : Rng)
         (st : rng_state R) blinded info,
  N.of_nat (length blinded) <= 65535 -> sampling_ends (CSGroup CS) R st ->
  let i := match info with Some i => i | None => [] end in
  (65535 < len i /\
     poprf_server_batch_blind_evaluate CS server R blinded info st = (Err EInfo, st)) \/
  (len i <= 65535 /\ tweaked_scalar L (poprf_sk server) i = zero_scalar (CSGroup CS) /\
     poprf_server_batch_blind_evaluate CS server R blinded info st = (Err EProtocol, st)) \/
  (len i <= 65535 /\ tweaked_scalar L (poprf_sk server) i <> zero_scalar (CSGroup CS) /\
     exists result st',
       poprf_server_batch_blind_evaluate CS server R blinded info st = (Ok result, st') /\
       length (poprf_batch_messages result) = length blinded).
Proof.
  intros CS L server R st bs info Hl Hs i. change i with (info_or_default info).
  destruct (N.leb_spec (len (info_or_default info)) 65535) as [Hi|Hi].
  - right. destruct (scalar_eq_dec (group_laws L) (tweaked_scalar L (poprf_sk server) (info_or_default info))
                       (zero_scalar (CSGroup CS))) as [Hz|Hz].
    + left. repeat split; auto.
      unfold poprf_server_batch_blind_evaluate, poprf_server_batch_blind_evaluate_prepare, rbind, rret.
      rewrite (compute_tweak_ok L) by auto.
      now rewrite (proj2 (is_zero_spec _ (group_laws L) _) Hz).
    + right. repeat split; auto. destruct (sampling_cases L R st Hs) as (r & st' & Hr & _).
      rewrite (poprf_batch_ok L) by auto. rewrite Hr. do 2 eexists. split; [reflexivity|].
      cbn. now rewrite !map_length.
  - left. split; auto.
    unfold poprf_server_batch_blind_evaluate, poprf_server_batch_blind_evaluate_prepare, rbind, rret.
    now rewrite compute_tweak_long.
Qed.

Example C07_case :
  bad_batch (repeat (mkBlinded (ex_elem 7)) (N.to_nat 65536))
            (repeat (mkPrepared (mkEvaluation (ex_elem 9))) (N.to_nat 65536)) /\
  ~ bad_batch [mkBlinded (ex_elem 7)] [mkPrepared (mkEvaluation (ex_elem 9))] /\
  tweaked_scalar TL (ex_scalar 42) ex_info <> zero_scalar (CSGroup TS) /\
  sampling_ends (CSGroup TS) CtrRng 201%N.
Proof.
  split; [right; rewrite repeat_length; lia|].
  split; [intros [H|H]; simpl in H; lia|].
  split; [apply ex_neq; vm_compute; reflexivity|].
  unfold sampling_ends. vm_compute. discriminate.
Qed.

(** ** C08 *)
Theorem C08_poprf_counts :
  forall (CS : CipherSuite) (L : SuiteLaws CS) inputs clients messages proof pk info outs,
  poprf_client_batch_finalize CS inputs clients messages proof pk info = Ok outs ->
  length inputs = length clients /\ length messages = length clients /\
  length outs = length clients.
Proof.
  intros CS L inputs clients messages proof pk info outs H.
  unfold poprf_client_batch_finalize, poprf_unblind in H.
  destruct (compute_tweaked_key _ _ _); try discriminate. cbn [bind] in H.
  destruct (verify_proof _ _ _ _ _ _ _) as [[]| | |] eqn:Hv; try discriminate. cbn [bind] in H.
  assert (He : len (map evaluation_value messages) = len (map poprf_blinded_element clients)).
  { destruct (N.eq_dec (len (map evaluation_value messages)) (len (map poprf_blinded_element clients))) as [|Hn]; auto.
    rewrite verify_proof_err in Hv by auto. discriminate. }
  rewrite !len_map in He.
  unfold poprf_finalize_after_unblind in H.
  destruct (N.eqb_spec (len (map (fun '(blind, x) => poprf_unblind_one CS blind x)
              (combine (map poprf_blind clients) messages))) (len inputs)) as [Hc|]; [|discriminate].
  injection H as <-. unfold len in *.
  rewrite map_length, combine_length, map_length in Hc.
  rewrite combine_repeat, !map_length, !combine_length, map_length, combine_length, map_length. lia.
Qed.

Theorem C08_poprf_wrong_inputs :
  forall (CS : CipherSuite) (L : SuiteLaws CS) inputs clients messages proof pk info outs inputs',
  poprf_client_batch_finalize CS inputs clients messages proof pk info = Ok outs ->
  length inputs' <> length inputs ->
  poprf_client_batch_finalize CS inputs' clients messages proof pk info = Err EBatch.
Proof.
  intros CS L inputs clients messages proof pk info outs inputs' H Hne.
  destruct (C08_poprf_counts CS L _ _ _ _ _ _ _ H) as (H1 & H2 & H3).
  unfold poprf_client_batch_finalize in *.
  destruct (poprf_unblind _ _ _ _ _ _); try discriminate. cbn [bind] in *.
  unfold poprf_finalize_after_unblind in *.
  destruct (N.eqb_spec (len a) (len inputs)) as [Hc|]; [|discriminate].
  destruct (N.eqb_spec (len a) (len inputs')) as [Hc'|]; auto.
  unfold len in *. lia.
Qed.

(** VOPRF: no check of the number of inputs, the surplus is dropped. *)
Theorem C08_voprf_counts :
  forall (CS : CipherSuite) (L : SuiteLaws CS) inputs clients messages proof pk outs,
  voprf_client_batch_finalize CS inputs clients messages proof pk = Ok outs ->
  length messages = length clients /\
  length outs = Nat.min (length inputs) (length clients) /\
  forall inputs', exists outs',
    voprf_client_batch_finalize CS inputs' clients messages proof pk = Ok outs'.
Proof.
  intros CS L inputs clients messages proof pk outs H.
  unfold voprf_client_batch_finalize, verifiable_unblind in *.
  destruct (verify_proof _ _ _ _ _ _ _) as [[]| | |] eqn:Hv; try discriminate. cbn [bind] in *.
  assert (He : len (map voprf_blinded_element clients) = len (map evaluation_value messages)).
  { destruct (N.eq_dec (len (map voprf_blinded_element clients)) (len (map evaluation_value messages))) as [|Hn]; auto.
    rewrite verify_proof_err in Hv by auto. discriminate. }
  rewrite !len_map in He. unfold len in He.
  injection H as <-. repeat split; [lia| |eauto].
  unfold voprf_finalize_after_unblind.
  rewrite map_length, combine_length, map_length, combine_length, map_length. lia.
Qed.

(** The effect: fewer inputs silently give fewer outputs, surplus inputs are
    silently ignored. *)
Theorem C08_voprf_drops_clients :
  forall (CS : CipherSuite) (L : SuiteLaws CS) inputs clients messages proof pk outs,
  voprf_client_batch_finalize CS inputs clients messages proof pk = Ok outs ->
  length inputs = length clients ->
  (forall n, voprf_client_batch_finalize CS (firstn n inputs) clients messages proof pk
             = Ok (firstn n outs)) /\
  (forall extra, voprf_client_batch_finalize CS (inputs ++ extra) clients messages proof pk = Ok outs).
Proof.
  intros CS L inputs clients messages proof pk outs H Hlen.
  destruct (C08_voprf_counts CS L _ _ _ _ _ _ H) as (Hm & _ & _).
  unfold voprf_client_batch_finalize, verifiable_unblind in *.
  destruct (verify_proof _ _ _ _ _ _ _) as [[]| | |]; try discriminate. cbn [bind] in *.
  injection H as <-. unfold voprf_finalize_after_unblind. split.
  - intros n. f_equal. rewrite firstn_map, combine_firstn_l. f_equal.
    assert (Hl : length (map (fun '(blind, x) => voprf_unblind_one CS blind x)
                   (combine (map voprf_blind clients) messages)) = length inputs)
      by (rewrite map_length, combine_length, map_length; lia).
    revert Hl. generalize (map (fun '(blind, x) => voprf_unblind_one CS blind x)
                   (combine (map voprf_blind clients) messages)) as us. clear.
    intros us. revert n inputs. induction us as [|u us IH]; intros [|n] [|i is] Hl; try discriminate; auto.
    cbn. f_equal. apply IH. now injection Hl.
  - intros extra. do 2 f_equal.
    assert (Hl : length (map (fun '(blind, x) => voprf_unblind_one CS blind x)
                   (combine (map voprf_blind clients) messages)) = length inputs)
      by (rewrite map_length, combine_length, map_length; lia).
    revert Hl. generalize (map (fun '(blind, x) => voprf_unblind_one CS blind x)
                   (combine (map voprf_blind clients) messages)) as us. clear.
    intros us. revert inputs. induction us as [|u us IH]; intros [|i is] Hl; try discriminate; auto.
    + now destruct extra.
    + cbn. f_equal. apply IH. now injection Hl.
Qed.

Example C08_case :
  exists rs replies proof st',
    voprf_server_batch_blind_evaluate TS
      (mkVoprfServer (ex_scalar 42) (elem_mul (CSGroup TS) (base_elem (CSGroup TS)) (ex_scalar 42)))
      CtrRng (map voprf_message rs) 201 = (Ok (mkVoprfServerBatchEvaluateResult replies proof), st') /\
    exists outs, length rs = 3%nat /\
    voprf_client_batch_finalize TS [ex_input; ex_input2; ex_input] (map voprf_state rs) replies proof
      (elem_mul (CSGroup TS) (base_elem (CSGroup TS)) (ex_scalar 42)) = Ok outs.
Proof.
  destruct C05_case as (rs & Hrs & Hl & Hs).
  destruct (C05_voprf_batch_correct TS TL (ex_scalar 42) _ rs CtrRng 201 Hl Hrs Hs)
    as (replies & proof & st' & E1 & E2 & E3).
  exists rs, replies, proof, st'. split; [exact E1|]. eexists. split; [|exact E3].
  destruct (voprf_blinded_clients TL _ _ Hrs) as (_ & _ & Hlen). exact Hlen.
Qed.

(** ** C10 *)

(** Acceptance is exactly VerifyProof of RFC 9497, and a rejected proof gives
    no output. *)
Theorem C10_voprf_accepts_iff :
  forall (CS : CipherSuite) (L : SuiteLaws CS) inputs clients messages proof pk,
  ~ bad_batch clients messages ->
  let valid := VerifyProof L modeVOPRF (base_elem (CSGroup CS)) pk
                 (map voprf_blinded_element clients) (map evaluation_value messages)
                 (c_scalar proof) (s_scalar proof) in
  (valid <-> exists outs,
     voprf_client_batch_finalize CS inputs clients messages proof pk = Ok outs) /\
  (~ valid <-> voprf_client_batch_finalize CS inputs clients messages proof pk = Err EProofVerification).
Proof.
  intros CS L inputs clients messages proof pk Hb valid.
  apply not_bad_batch in Hb as [He Hl].
  assert (Hok : valid -> exists outs,
     voprf_client_batch_finalize CS inputs clients messages proof pk = Ok outs).
  { intros Hv. unfold voprf_client_batch_finalize, verifiable_unblind.
    assert (Hv' : verify_proof CS (base_elem (CSGroup CS)) pk (map voprf_blinded_element clients)
                    (map evaluation_value messages) proof Voprf = Ok tt)
      by (apply (verify_proof_ok L); rewrite ?len_map; auto).
    rewrite Hv'.
    cbn [bind]. eauto. }
  assert (Hno : ~ valid ->
     voprf_client_batch_finalize CS inputs clients messages proof pk = Err EProofVerification).
  { intros Hv. apply voprf_batch_finalize_fail.
    apply (verify_proof_not L); rewrite ?len_map; auto. }
  assert (Hdec : valid \/ ~ valid).
  { unfold valid, VerifyProof.
    match goal with |- ?a = ?b \/ _ => destruct (scalar_eq_dec (group_laws L) a b); auto end. }
  split; split; auto.
  - intros [outs H]. destruct Hdec as [|Hn]; auto. apply Hno in Hn. congruence.
  - intros H Hv. apply Hok in Hv as [outs Hv]. congruence.
Qed.

Theorem C10_poprf_accepts_iff :
  forall (CS : CipherSuite) (L : SuiteLaws CS) inputs clients messages proof pk info,
  ~ bad_batch clients messages ->
  length inputs = length clients ->
  let i := match info with Some i => i | None => [] end in
  len i <= 65535 ->
  tweaked_element L pk i <> identity_elem (CSGroup CS) ->
  let valid := VerifyProof L modePOPRF (base_elem (CSGroup CS)) (tweaked_element L pk i)
                 (map evaluation_value messages) (map poprf_blinded_element clients)
                 (c_scalar proof) (s_scalar proof) in
  (valid <-> exists outs,
     poprf_client_batch_finalize CS inputs clients messages proof pk info = Ok outs) /\
  (~ valid <-> poprf_client_batch_finalize CS inputs clients messages proof pk info = Err EProofVerification).
Proof.
  intros CS L inputs clients messages proof pk info Hb Hin i Hi Ht valid.
  apply not_bad_batch in Hb as [He Hl]. change i with (info_or_default info) in *.
  assert (Hok : valid -> exists outs,
     poprf_client_batch_finalize CS inputs clients messages proof pk info = Ok outs).
  { intros Hv. unfold poprf_client_batch_finalize, poprf_unblind.
    rewrite (compute_tweaked_key_ok L) by auto. cbn [info_or_default].
    rewrite (proj2 (is_identity_false (group_laws L) _) Ht). cbn [bind].
    assert (Hv' : verify_proof CS (base_elem (CSGroup CS)) (tweaked_element L pk (info_or_default info))
                    (map evaluation_value messages) (map poprf_blinded_element clients) proof Poprf = Ok tt)
      by (apply (verify_proof_ok L); rewrite ?len_map; auto; lia).
    rewrite Hv'.
    cbn [bind]. unfold poprf_finalize_after_unblind.
    destruct (N.eqb_spec (len (map (fun '(blind, x) => poprf_unblind_one CS blind x)
              (combine (map poprf_blind clients) messages))) (len inputs)) as [|Hn]; [cbn [negb]; eauto|].
    elim Hn. unfold len in *. rewrite map_length, combine_length, map_length. lia. }
  assert (Hno : ~ valid ->
     poprf_client_batch_finalize CS inputs clients messages proof pk info = Err EProofVerification).
  { intros Hv. apply (poprf_batch_finalize_fail L); auto.
    apply (verify_proof_not L); rewrite ?len_map; auto; lia. }
  assert (Hdec : valid \/ ~ valid).
  { unfold valid, VerifyProof.
    match goal with |- ?a = ?b \/ _ => destruct (scalar_eq_dec (group_laws L) a b); auto end. }
  split; split; auto.
  - intros [outs H]. destruct Hdec as [|Hn]; auto. apply Hno in Hn. congruence.
  - intros H Hv. apply Hok in Hv as [outs Hv]. congruence.
Qed.

(** Both sides of the equivalence occur: with the toy suite, one proof of a
    false statement is rejected (and [C02_voprf_correct] gives accepted ones). *)
Example C10_case :
  ~ bad_batch [mkVoprfClient (ex_scalar 3) (ex_elem 7)] [mkEvaluation (ex_elem 9)] /\
  ~ VerifyProof TL modeVOPRF (base_elem (CSGroup TS)) (ex_elem 42)
      [ex_elem 7] [ex_elem 9] (ex_scalar 1) (ex_scalar 1) /\
  tweaked_element TL (ex_elem 42) ex_info <> identity_elem (CSGroup TS).
Proof.
  split; [intros [H|H]; simpl in H; lia|]. split.
  - apply ex_neq. vm_compute. reflexivity.
  - apply ex_neq. vm_compute. reflexivity.
Qed.

(** ** C20, in terms of API calls *)

(** The server's [blind_evaluate] and the client's [finalize] reject an info in
    exactly the same cases and with the same error. *)
Theorem C20_api_agreement :
  forall (CS : CipherSuite) (L : SuiteLaws CS) (sk : scalar CS) (info : option bytes)
         (R : Rng) (st : rng_state R) blinded client input reply proof,
  let G := CSGroup CS in
  let pk := elem_mul G (base_elem G) sk in
  let i := match info with Some i => i | None => [] end in
  let evaluation := poprf_server_blind_evaluate CS (mkPoprfServer sk pk) R blinded info st in
  let finalization := poprf_client_finalize CS client input reply proof pk info in
  poprf_blind client <> zero_scalar G ->
  (65535 < len i -> evaluation = (Err EInfo, st) /\ finalization = Err EInfo) /\
  (len i <= 65535 -> tweaked_scalar L sk i = zero_scalar G ->
     evaluation = (Err EProtocol, st) /\ finalization = Err EProtocol) /\
  (len i <= 65535 -> tweaked_scalar L sk i <> zero_scalar G ->
     (forall e, fst evaluation <> Err e) /\
     finalization <> Err EInfo /\ finalization <> Err EProtocol).
Proof.
  intros CS L sk info R st blinded client input reply proof G pk i evaluation finalization Hbl.
  change i with (info_or_default info).
  destruct (C20_tweak_agreement CS L sk (Some (info_or_default info))) as (T1 & T2 & T3).
  fold G in T1, T2, T3. fold pk in T1, T2, T3.
  assert (Hev : forall e, compute_tweak CS sk (Some (info_or_default info)) = Err e -> evaluation = (Err e, st)).
  { intros e He. unfold evaluation, poprf_server_blind_evaluate,
      poprf_server_batch_blind_evaluate_prepare, rbind, rret. cbn [poprf_sk].
    replace (compute_tweak CS sk info) with (compute_tweak CS sk (Some (info_or_default info)))
      by (destruct info; reflexivity). now rewrite He. }
  assert (Hfi : forall e, compute_tweaked_key CS pk (Some (info_or_default info)) = Err e -> finalization = Err e).
  { intros e He. unfold finalization, poprf_client_finalize.
    now rewrite (poprf_batch_finalize_tweak_fail _ _ _ _ _ _ e). }
  assert (Hnf : len (info_or_default info) <= 65535 ->
    tweaked_scalar L sk (info_or_default info) <> zero_scalar G ->
    forall e, finalization = Err e -> e = EInput \/ e = EProofVerification \/ e = EBatch).
  { intros Hi Ht e E. destruct (T3 Hi Ht) as (_ & E3).
    unfold finalization, poprf_client_finalize, poprf_client_batch_finalize, poprf_unblind in E.
    rewrite E3 in E. cbn [bind] in E.
    destruct (verify_proof_cases L (base_elem (CSGroup CS)) (elem_mul G (base_elem G) (tweaked_scalar L sk (info_or_default info)))
       (map evaluation_value [reply]) (map poprf_blinded_element [client]) proof Poprf) as [Hv|[Hv|Hv]];
      rewrite Hv in E; cbn in E; try (injection E as <-; tauto).
    unfold poprf_unblind_one in E. rewrite (invert_nonzero _ (group_laws L)) in E by auto.
    cbn [bind] in E. change (match info with Some i0 => i0 | None => [] end) with (info_or_default info) in E.
    destruct (N.leb_spec (len input) 65535) as [Hin|Hin].
    - rewrite (poprf_finalize_one_ok L) in E by auto. discriminate.
    - rewrite poprf_finalize_one_long in E by auto. injection E as <-. auto. }
  split; [|split]; intros.
  - split; [apply Hev|apply Hfi]; now apply T1.
  - split; [apply Hev|apply Hfi]; now apply T2.
  - repeat split.
    + intros e. unfold evaluation. rewrite (poprf_single_ok L); auto.
      destruct (random_scalar (CSGroup CS) R st) as [[|e'| |] st']; cbn; discriminate.
    + intros E. apply Hnf in E; auto. intuition discriminate.
    + intros E. apply Hnf in E; auto. intuition discriminate.
Qed.
