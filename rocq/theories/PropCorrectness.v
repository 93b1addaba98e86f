(** * PropCorrectness: honest runs compute the functions of RFC 9497.

    Properties C01-C06, C09, C11, C20 and C22 of /verif/properties.jsonl.
    Each theorem is followed by a concrete case meeting its hypotheses. *)
From Verif Require Import Oprf Voprf Poprf Spec OprfFacts VoprfFacts PoprfFacts Zq.
Open Scope N_scope.

(** The rejection sampler of [Group::random_scalar] returns on this RNG
    state. *)
Definition sampling_ends (G : Group) (R : Rng) (st : rng_state R) : Prop :=
  fst (random_scalar G R st) <> Diverge.

(** ** Example values in the suite over Z/251 *)
Definition ex_elem (z : Z) : elem TS := of_Z 251 z.
Definition ex_scalar (z : Z) : scalar TS := of_Z 251 z.
Definition ex_input : bytes := bstr "hello".
Definition ex_input2 : bytes := bstr "world, this is a longer input".
Definition ex_info : bytes := bstr "public".

Lemma ex_neq (a b : Fq 251) : (fval a =? fval b)%Z = false -> a <> b.
Proof. intros E ->. rewrite Z.eqb_refl in E. discriminate. Qed.

Lemma sampling_cases {CS} (L : SuiteLaws CS) R st :
  sampling_ends (CSGroup CS) R st ->
  exists r st', random_scalar (CSGroup CS) R st = (Ok r, st') /\ r <> zero_scalar (CSGroup CS).
Proof.
  intros Hs. destruct (random_cases L R st) as [H|[st' H]]; auto.
  unfold sampling_ends in Hs. rewrite H in Hs. now elim Hs.
Qed.

(** ** C01 *)

(** The oblivious run (blind, blind_evaluate, finalize) and the direct
    evaluation both give the PRF value of RFC 9497. *)
Theorem C01_oprf_correct :
  forall (CS : CipherSuite) (L : SuiteLaws CS) (sk : scalar CS) (input : bytes)
         (R : Rng) (st : rng_state R),
  len input <= 65535 ->
  H2G L modeOPRF input <> identity_elem (CSGroup CS) ->
  sampling_ends (CSGroup CS) R st ->
  let server := mkOprfServer sk in
  oprf_server_evaluate CS server input = Ok (PRF L modeOPRF sk input) /\
  exists client message st',
    oprf_client_blind CS R input st = (Ok (mkOprfClientBlindResult client message), st') /\
    oprf_client_finalize CS client input (oprf_server_blind_evaluate CS server message)
    = Ok (PRF L modeOPRF sk input).
Proof.
  intros CS L sk input R st Hi Hid Hs server. split.
  - now apply oprf_evaluate_ok.
  - destruct (sampling_cases L R st Hs) as (r & st' & Hr & Hnz).
    rewrite (oprf_blind_ok L), Hr. do 3 eexists. split; [reflexivity|].
    rewrite (oprf_finalize_ok L) by auto. cbn. unfold PRF. do 2 f_equal.
    rewrite (mul_comm2 (group_laws L)). now rewrite (mul_inv_cancel (group_laws L)).
Qed.

Example C01_case :
  len ex_input <= 65535 /\ H2G TL modeOPRF ex_input <> identity_elem (CSGroup TS) /\
  sampling_ends (CSGroup TS) CtrRng 17%N /\
  PRF TL modeOPRF (ex_scalar 42) ex_input <> PRF TL modeOPRF (ex_scalar 43) ex_input.
Proof.
  repeat split.
  - vm_compute. discriminate.
  - apply ex_neq. vm_compute. reflexivity.
  - unfold sampling_ends. vm_compute. discriminate.
  - vm_compute. discriminate.
Qed.

(** ** C02 *)
Theorem C02_voprf_correct :
  forall (CS : CipherSuite) (L : SuiteLaws CS) (sk : scalar CS) (input : bytes)
         (Rc : Rng) (stc : rng_state Rc) (Rs : Rng) (sts : rng_state Rs),
  len input <= 65535 ->
  H2G L modeVOPRF input <> identity_elem (CSGroup CS) ->
  sampling_ends (CSGroup CS) Rc stc ->
  sampling_ends (CSGroup CS) Rs sts ->
  let pk := elem_mul (CSGroup CS) (base_elem (CSGroup CS)) sk in
  let server := mkVoprfServer sk pk in
  voprf_server_evaluate CS server input = Ok (PRF L modeVOPRF sk input) /\
  exists client message stc' reply proof sts',
    voprf_client_blind CS Rc input stc = (Ok (mkVoprfClientBlindResult client message), stc') /\
    voprf_server_blind_evaluate CS server Rs message sts
      = (Ok (mkVoprfServerEvaluateResult reply proof), sts') /\
    voprf_client_finalize CS client input reply proof pk = Ok (PRF L modeVOPRF sk input).
Proof.
  intros CS L sk input Rc stc Rs sts Hi Hid Hc Hs pk server. split.
  - now apply voprf_evaluate_ok.
  - destruct (sampling_cases L Rc stc Hc) as (rc & stc' & Hrc & Hrcz).
    destruct (sampling_cases L Rs sts Hs) as (rs & sts' & Hrs & Hrsz).
    rewrite (voprf_blind_ok L), Hrc. do 6 eexists. split; [reflexivity|].
    rewrite (voprf_single_ok L), Hrs. split; [reflexivity|].
    unfold voprf_client_finalize.
    pose proof (voprf_honest_verifies L sk
      [mkBlinded (elem_mul (CSGroup CS) (H2G L modeVOPRF input) rc)] rs) as Hv.
    cbv zeta in Hv. specialize (Hv ltac:(unfold len; simpl; lia)).
    rewrite (voprf_batch_finalize_ok L); [|exact Hv|intros c [<-|[]]; exact Hrcz].
    cbn [combine map bind next_unwrap]. rewrite voprf_finalize_one_ok by auto.
    unfold PRF. do 2 f_equal. cbn.
    rewrite (mul_comm2 (group_laws L)). now rewrite (mul_inv_cancel (group_laws L)).
Qed.

Example C02_case :
  len ex_input <= 65535 /\ H2G TL modeVOPRF ex_input <> identity_elem (CSGroup TS) /\
  sampling_ends (CSGroup TS) CtrRng 17%N /\ sampling_ends (CSGroup TS) CtrRng 201%N.
Proof.
  repeat split.
  - vm_compute. discriminate.
  - apply ex_neq. vm_compute. reflexivity.
  - unfold sampling_ends. vm_compute. discriminate.
  - unfold sampling_ends. vm_compute. discriminate.
Qed.

(** ** C03 *)
Theorem C03_poprf_correct :
  forall (CS : CipherSuite) (L : SuiteLaws CS) (sk : scalar CS) (input info : bytes)
         (Rc : Rng) (stc : rng_state Rc) (Rs : Rng) (sts : rng_state Rs),
  len input <= 65535 -> len info <= 65535 ->
  H2G L modePOPRF input <> identity_elem (CSGroup CS) ->
  tweaked_scalar L sk info <> zero_scalar (CSGroup CS) ->
  sampling_ends (CSGroup CS) Rc stc ->
  sampling_ends (CSGroup CS) Rs sts ->
  let pk := elem_mul (CSGroup CS) (base_elem (CSGroup CS)) sk in
  let server := mkPoprfServer sk pk in
  poprf_server_evaluate CS server input (Some info) = Ok (POPRF L sk input info) /\
  exists client message stc' reply proof sts',
    poprf_client_blind CS Rc input stc = (Ok (mkPoprfClientBlindResult client message), stc') /\
    poprf_server_blind_evaluate CS server Rs message (Some info) sts
      = (Ok (mkPoprfServerEvaluateResult reply proof), sts') /\
    poprf_client_finalize CS client input reply proof pk (Some info)
      = Ok (POPRF L sk input info).
Proof.
  intros CS L sk input info Rc stc Rs sts Hi Hn Hid Ht Hc Hs pk server. split.
  - now apply poprf_evaluate_some.
  - destruct (sampling_cases L Rc stc Hc) as (rc & stc' & Hrc & Hrcz).
    destruct (sampling_cases L Rs sts Hs) as (rs & sts' & Hrs & Hrsz).
    rewrite (poprf_blind_ok L), Hrc. do 6 eexists. split; [reflexivity|].
    rewrite (poprf_single_ok L), Hrs by auto. split; [reflexivity|].
    unfold poprf_client_finalize.
    pose proof (poprf_honest_verifies L (tweaked_scalar L sk info)
      [mkBlinded (elem_mul (CSGroup CS) (H2G L modePOPRF input) rc)] rs) as Hv.
    cbv zeta in Hv. specialize (Hv ltac:(unfold len; simpl; lia) Ht).
    rewrite (poprf_batch_finalize_ok L); auto.
    + cbn [combine map bind next_unwrap]. rewrite (poprf_finalize_one_ok L) by auto.
      unfold POPRF. do 2 f_equal. cbn.
      rewrite (mul_comm2 (group_laws L)). now rewrite (mul_inv_cancel (group_laws L)).
    + cbn [info_or_default]. unfold pk. rewrite (tweaked_element_identity L). exact Ht.
    + cbn [info_or_default]. unfold pk. rewrite (tweaked_element_gen L). exact Hv.
    + intros c [<-|[]]. exact Hrcz.
Qed.

Example C03_case :
  len ex_input <= 65535 /\ len ex_info <= 65535 /\
  H2G TL modePOPRF ex_input <> identity_elem (CSGroup TS) /\
  tweaked_scalar TL (ex_scalar 42) ex_info <> zero_scalar (CSGroup TS) /\
  sampling_ends (CSGroup TS) CtrRng 17%N /\ sampling_ends (CSGroup TS) CtrRng 201%N.
Proof.
  repeat split.
  - vm_compute. discriminate.
  - vm_compute. discriminate.
  - apply ex_neq. vm_compute. reflexivity.
  - apply ex_neq. vm_compute. reflexivity.
  - unfold sampling_ends. vm_compute. discriminate.
  - unfold sampling_ends. vm_compute. discriminate.
Qed.

(** ** C04 *)

(** The part that holds: everywhere except in [evaluate], no info and empty
    info are the same (for every ciphersuite, lawful or not). *)
Theorem C04_omitted_info_partial :
  forall (CS : CipherSuite),
  (forall server blinded,
     poprf_server_batch_blind_evaluate_prepare CS server blinded None
     = poprf_server_batch_blind_evaluate_prepare CS server blinded (Some [])) /\
  (forall server R blinded st,
     poprf_server_blind_evaluate CS server R blinded None st
     = poprf_server_blind_evaluate CS server R blinded (Some []) st) /\
  (forall server R blinded st,
     poprf_server_batch_blind_evaluate CS server R blinded None st
     = poprf_server_batch_blind_evaluate CS server R blinded (Some []) st) /\
  (forall client input reply proof pk,
     poprf_client_finalize CS client input reply proof pk None
     = poprf_client_finalize CS client input reply proof pk (Some [])) /\
  (forall inputs clients replies proof pk,
     poprf_client_batch_finalize CS inputs clients replies proof pk None
     = poprf_client_batch_finalize CS inputs clients replies proof pk (Some [])).
Proof. intros CS. repeat split. Qed.

(** The part that fails: [evaluate] with [None] hashes a string without the
    info part, so it can only agree with [evaluate] with [Some []] - or with
    the oblivious run - if the hash collides on two explicit strings. *)
Theorem C04_evaluate_none_collision :
  forall (CS : CipherSuite) (L : SuiteLaws CS) (sk : scalar CS) (pk : elem CS) (input : bytes),
  len input <= 65535 ->
  H2G L modePOPRF input <> identity_elem (CSGroup CS) ->
  tweaked_scalar L sk [] <> zero_scalar (CSGroup CS) ->
  let E := serialize_elem (CSGroup CS)
             (elem_mul (CSGroup CS) (H2G L modePOPRF input)
                (s_inv (group_laws L) (tweaked_scalar L sk []))) in
  let without_info := lv input ++ lv E ++ str "Finalize" in
  let with_info := lv input ++ lv [] ++ lv E ++ str "Finalize" in
  poprf_server_evaluate CS (mkPoprfServer sk pk) input None = Ok (digest (CSHash CS) without_info) /\
  poprf_server_evaluate CS (mkPoprfServer sk pk) input (Some []) = Ok (digest (CSHash CS) with_info) /\
  without_info <> with_info /\
  (poprf_server_evaluate CS (mkPoprfServer sk pk) input None
   = poprf_server_evaluate CS (mkPoprfServer sk pk) input (Some []) ->
   digest (CSHash CS) without_info = digest (CSHash CS) with_info).
Proof.
  intros CS L sk pk input Hi Hid Ht E a b.
  assert (H1 : poprf_server_evaluate CS (mkPoprfServer sk pk) input None = Ok (digest (CSHash CS) a))
    by now apply poprf_evaluate_none.
  assert (H2 : poprf_server_evaluate CS (mkPoprfServer sk pk) input (Some []) = Ok (digest (CSHash CS) b))
    by (apply (poprf_evaluate_some L); auto; cbn; lia).
  repeat split; auto.
  - intros Hab. apply (f_equal (@length byte)) in Hab. unfold a, b in Hab.
    rewrite !app_length in Hab. simpl in Hab. lia.
  - rewrite H1, H2. congruence.
Qed.

(** The full property is false: a concrete run in which the server's
    [evaluate] with [None] differs from the accepted oblivious run with
    [None]. *)
Theorem C04_omitted_info_refuted :
  exists (CS : CipherSuite) (L : SuiteLaws CS) (sk : scalar CS) (input : bytes)
         client message stc' reply proof sts' out out',
  let pk := elem_mul (CSGroup CS) (base_elem (CSGroup CS)) sk in
  let server := mkPoprfServer sk pk in
  poprf_client_blind CS CtrRng input 17 = (Ok (mkPoprfClientBlindResult client message), stc') /\
  poprf_server_blind_evaluate CS server CtrRng message None 201
    = (Ok (mkPoprfServerEvaluateResult reply proof), sts') /\
  poprf_client_finalize CS client input reply proof pk None = Ok out /\
  poprf_server_evaluate CS server input None = Ok out' /\
  out <> out'.
Proof.
  assert (Hi : len ex_input <= 65535) by (vm_compute; discriminate).
  assert (Hn : len (@nil byte) <= 65535) by (vm_compute; discriminate).
  assert (Hid : H2G TL modePOPRF ex_input <> identity_elem (CSGroup TS))
    by (apply ex_neq; vm_compute; reflexivity).
  assert (Ht : tweaked_scalar TL (ex_scalar 42) [] <> zero_scalar (CSGroup TS))
    by (apply ex_neq; vm_compute; reflexivity).
  destruct (C03_poprf_correct TS TL (ex_scalar 42) ex_input [] CtrRng 17 CtrRng 201 Hi Hn Hid Ht)
    as (_ & client & message & stc' & reply & proof & sts' & H1 & H2 & H3).
  { unfold sampling_ends. vm_compute. discriminate. }
  { unfold sampling_ends. vm_compute. discriminate. }
  destruct (C04_evaluate_none_collision TS TL (ex_scalar 42)
              (elem_mul (CSGroup TS) (base_elem (CSGroup TS)) (ex_scalar 42)) ex_input Hi Hid Ht)
    as (H4 & _).
  destruct (C04_omitted_info_partial TS) as (_ & E2 & _ & E3 & _).
  rewrite <- E2 in H2. rewrite <- E3 in H3.
  exists TS, TL, (ex_scalar 42), ex_input, client, message, stc', reply, proof, sts'.
  exists (POPRF TL (ex_scalar 42) ex_input []).
  eexists. cbv zeta. split; [exact H1|]. split; [exact H2|].
  split; [exact H3|]. split; [exact H4|].
  vm_compute. discriminate.
Qed.

(** ** C05 *)

(** A value returned by [VoprfClient::blind] for [input], with some RNG. *)
Definition voprf_blinded (CS : CipherSuite) (input : bytes) (r : VoprfClientBlindResult CS) : Prop :=
  exists R st st', voprf_client_blind CS R input st = (Ok r, st').

Lemma voprf_blinded_inv {CS} (L : SuiteLaws CS) input r :
  voprf_blinded CS input r ->
  exists b, b <> zero_scalar (CSGroup CS) /\
    r = mkVoprfClientBlindResult
          (mkVoprfClient b (elem_mul (CSGroup CS) (H2G L modeVOPRF input) b))
          (mkBlinded (elem_mul (CSGroup CS) (H2G L modeVOPRF input) b)).
Proof.
  intros (R & st & st' & H). rewrite (voprf_blind_ok L) in H.
  destruct (random_cases L R st) as [(b & st1 & Hb & Hz)|(st1 & Hb)]; rewrite Hb in H;
    [|discriminate].
  injection H as <- _. eauto.
Qed.

Lemma voprf_blinded_clients {CS} (L : SuiteLaws CS) inputs rs :
  Forall2 (voprf_blinded CS) inputs rs ->
  map voprf_blinded_element (map voprf_state rs) = map blinded_value (map voprf_message rs) /\
  (forall c, In c (map voprf_state rs) -> voprf_blind c <> zero_scalar (CSGroup CS)) /\
  length rs = length inputs.
Proof.
  induction 1 as [|i r is rs Hr Hrest (IH1 & IH2 & IH3)]; simpl; [repeat split; auto; tauto|].
  destruct (voprf_blinded_inv L _ _ Hr) as (b & Hb & ->). simpl. split; [now rewrite IH1|].
  split; [|now rewrite IH3].
  intros c [<-|Hc]; auto.
Qed.

(** The single-item output, with the error of an over-long input. *)
Definition prf_result {CS} (L : SuiteLaws CS) (mode : N) (sk : scalar CS) (input : bytes) : res bytes :=
  if (len input <=? 65535)%N then Ok (PRF L mode sk input) else Err EInput.

Theorem C05_voprf_batch_correct :
  forall (CS : CipherSuite) (L : SuiteLaws CS) (sk : scalar CS) (inputs : list bytes)
         (rs : list (VoprfClientBlindResult CS)) (R : Rng) (st : rng_state R),
  (length inputs <= N.to_nat 65535)%nat ->
  Forall2 (voprf_blinded CS) inputs rs ->
  sampling_ends (CSGroup CS) R st ->
  let pk := elem_mul (CSGroup CS) (base_elem (CSGroup CS)) sk in
  let server := mkVoprfServer sk pk in
  exists replies proof st',
    voprf_server_batch_blind_evaluate CS server R (map voprf_message rs) st
      = (Ok (mkVoprfServerBatchEvaluateResult replies proof), st') /\
    length replies = length inputs /\
    voprf_client_batch_finalize CS inputs (map voprf_state rs) replies proof pk
      = Ok (map (prf_result L modeVOPRF sk) inputs).
Proof.
  intros CS L sk inputs rs R st Hlen Hrs Hs pk server.
  destruct (sampling_cases L R st Hs) as (r & st' & Hr & _).
  destruct (voprf_blinded_clients L _ _ Hrs) as (Hbl & Hnz & Hl).
  assert (Hlb : len (map voprf_message rs) <= 65535).
  { unfold len. rewrite map_length, Hl. lia. }
  rewrite (voprf_batch_ok L) by auto. rewrite Hr.
  do 3 eexists. split; [reflexivity|]. split; [now rewrite !map_length|].
  pose proof (voprf_honest_verifies L sk (map voprf_message rs) r Hlb) as Hv. cbv zeta in Hv.
  rewrite (voprf_batch_finalize_ok L).
  - f_equal. clear Hv Hbl Hnz Hl Hlb Hlen.
    induction Hrs as [|i br is rs Hb Hrest IH]; [reflexivity|].
    cbn [map combine]. apply f_equal2; [|exact IH].
    destruct (voprf_blinded_inv L _ _ Hb) as (b & Hbz & ->).
    cbn [voprf_state voprf_message voprf_blind evaluation_value blinded_value voprf_sk].
    unfold prf_result. destruct (N.leb_spec (len i) 65535) as [Hle|Hgt].
    + rewrite (voprf_finalize_one_ok L) by auto. unfold PRF. do 2 f_equal.
      rewrite (mul_comm2 (group_laws L)). now rewrite (mul_inv_cancel (group_laws L)).
    + now apply voprf_finalize_one_long.
  - rewrite Hbl. exact Hv.
  - exact Hnz.
Qed.

Example C05_case :
  exists rs, Forall2 (voprf_blinded TS) [ex_input; ex_input2; ex_input] rs /\
  (length [ex_input; ex_input2; ex_input] <= N.to_nat 65535)%nat /\
  sampling_ends (CSGroup TS) CtrRng 201%N.
Proof.
  assert (Hb : forall input st, sampling_ends (CSGroup TS) CtrRng st -> exists r, voprf_blinded TS input r).
  { intros input st Hs. destruct (sampling_cases TL CtrRng st Hs) as (r & st' & Hr & _).
    eexists. exists CtrRng, st, st'. rewrite (voprf_blind_ok TL), Hr. reflexivity. }
  destruct (Hb ex_input 17) as [r1 H1]; [unfold sampling_ends; vm_compute; discriminate|].
  destruct (Hb ex_input2 18) as [r2 H2]; [unfold sampling_ends; vm_compute; discriminate|].
  destruct (Hb ex_input 30) as [r3 H3]; [unfold sampling_ends; vm_compute; discriminate|].
  exists [r1; r2; r3]. split; [auto|]. split.
  - simpl length. lia.
  - unfold sampling_ends. vm_compute. discriminate.
Qed.

(** ** C06 *)
Definition poprf_blinded (CS : CipherSuite) (input : bytes) (r : PoprfClientBlindResult CS) : Prop :=
  exists R st st', poprf_client_blind CS R input st = (Ok r, st').

Lemma poprf_blinded_inv {CS} (L : SuiteLaws CS) input r :
  poprf_blinded CS input r ->
  exists b, b <> zero_scalar (CSGroup CS) /\
    r = mkPoprfClientBlindResult
          (mkPoprfClient b (elem_mul (CSGroup CS) (H2G L modePOPRF input) b))
          (mkBlinded (elem_mul (CSGroup CS) (H2G L modePOPRF input) b)).
Proof.
  intros (R & st & st' & H). rewrite (poprf_blind_ok L) in H.
  destruct (random_cases L R st) as [(b & st1 & Hb & Hz)|(st1 & Hb)]; rewrite Hb in H;
    [|discriminate].
  injection H as <- _. eauto.
Qed.

Lemma poprf_blinded_clients {CS} (L : SuiteLaws CS) inputs rs :
  Forall2 (poprf_blinded CS) inputs rs ->
  map poprf_blinded_element (map poprf_state rs) = map blinded_value (map poprf_message rs) /\
  (forall c, In c (map poprf_state rs) -> poprf_blind c <> zero_scalar (CSGroup CS)) /\
  length rs = length inputs.
Proof.
  induction 1 as [|i r is rs Hr Hrest (IH1 & IH2 & IH3)]; simpl; [repeat split; auto; tauto|].
  destruct (poprf_blinded_inv L _ _ Hr) as (b & Hb & ->). simpl. split; [now rewrite IH1|].
  split; [|now rewrite IH3].
  intros c [<-|Hc]; auto.
Qed.

Definition poprf_result {CS} (L : SuiteLaws CS) (sk : scalar CS) (info input : bytes) : res bytes :=
  if (len input <=? 65535)%N then Ok (POPRF L sk input info) else Err EInput.

Theorem C06_poprf_batch_correct :
  forall (CS : CipherSuite) (L : SuiteLaws CS) (sk : scalar CS) (info : bytes) (inputs : list bytes)
         (rs : list (PoprfClientBlindResult CS)) (R : Rng) (st : rng_state R),
  (length inputs <= N.to_nat 65535)%nat -> len info <= 65535 ->
  tweaked_scalar L sk info <> zero_scalar (CSGroup CS) ->
  Forall2 (poprf_blinded CS) inputs rs ->
  sampling_ends (CSGroup CS) R st ->
  let pk := elem_mul (CSGroup CS) (base_elem (CSGroup CS)) sk in
  let server := mkPoprfServer sk pk in
  exists replies proof st',
    poprf_server_batch_blind_evaluate CS server R (map poprf_message rs) (Some info) st
      = (Ok (mkPoprfServerBatchEvaluateResult replies proof), st') /\
    length replies = length inputs /\
    poprf_client_batch_finalize CS inputs (map poprf_state rs) replies proof pk (Some info)
      = Ok (map (poprf_result L sk info) inputs).
Proof.
  intros CS L sk info inputs rs R st Hlen Hn Ht Hrs Hs pk server.
  destruct (sampling_cases L R st Hs) as (r & st' & Hr & _).
  destruct (poprf_blinded_clients L _ _ Hrs) as (Hbl & Hnz & Hl).
  assert (Hlb : len (map poprf_message rs) <= 65535).
  { unfold len. rewrite map_length, Hl. lia. }
  rewrite (poprf_batch_ok L) by auto. rewrite Hr.
  do 3 eexists. split; [reflexivity|]. split; [now rewrite !map_length|].
  pose proof (poprf_honest_verifies L (tweaked_scalar L sk info) (map poprf_message rs) r Hlb Ht) as Hv.
  cbv zeta in Hv.
  rewrite (poprf_batch_finalize_ok L); auto.
  - f_equal. clear Hv Hbl Hnz Hl Hlb Hlen.
    induction Hrs as [|i br is rs Hb Hrest IH]; [reflexivity|].
    cbn [map combine]. apply f_equal2; [|exact IH].
    destruct (poprf_blinded_inv L _ _ Hb) as (b & Hbz & ->).
    cbn [poprf_state poprf_message poprf_blind evaluation_value blinded_value info_or_default poprf_sk].
    unfold poprf_result. destruct (N.leb_spec (len i) 65535) as [Hle|Hgt].
    + rewrite (poprf_finalize_one_ok L) by auto. unfold POPRF. do 2 f_equal.
      rewrite (mul_comm2 (group_laws L)). now rewrite (mul_inv_cancel (group_laws L)).
    + now apply poprf_finalize_one_long.
  - cbn [info_or_default]. unfold pk. rewrite (tweaked_element_identity L). exact Ht.
  - cbn [info_or_default]. unfold pk. rewrite (tweaked_element_gen L), Hbl. exact Hv.
  - unfold len. rewrite combine_length, !map_length, Hl. lia.
Qed.

Example C06_case :
  exists rs, Forall2 (poprf_blinded TS) [ex_input; ex_input2; ex_input] rs /\
  (length [ex_input; ex_input2; ex_input] <= N.to_nat 65535)%nat /\ len ex_info <= 65535 /\
  tweaked_scalar TL (ex_scalar 42) ex_info <> zero_scalar (CSGroup TS) /\
  sampling_ends (CSGroup TS) CtrRng 201%N.
Proof.
  assert (Hb : forall input st, sampling_ends (CSGroup TS) CtrRng st -> exists r, poprf_blinded TS input r).
  { intros input st Hs. destruct (sampling_cases TL CtrRng st Hs) as (r & st' & Hr & _).
    eexists. exists CtrRng, st, st'. rewrite (poprf_blind_ok TL), Hr. reflexivity. }
  destruct (Hb ex_input 17) as [r1 H1]; [unfold sampling_ends; vm_compute; discriminate|].
  destruct (Hb ex_input2 18) as [r2 H2]; [unfold sampling_ends; vm_compute; discriminate|].
  destruct (Hb ex_input 30) as [r3 H3]; [unfold sampling_ends; vm_compute; discriminate|].
  exists [r1; r2; r3]. split; [auto|]. split; [simpl length; lia|].
  split; [vm_compute; discriminate|]. split.
  - apply ex_neq. vm_compute. reflexivity.
  - unfold sampling_ends. vm_compute. discriminate.
Qed.

(** ** C09 *)

(** Single-item calls return exactly what the batch calls return on
    one-element lists, with the same RNG state afterwards. *)
Theorem C09_single_is_batch_of_one :
  forall (CS : CipherSuite) (L : SuiteLaws CS),
  (forall server R blinded st reply proof st',
     voprf_server_blind_evaluate CS server R blinded st
       = (Ok (mkVoprfServerEvaluateResult reply proof), st') <->
     voprf_server_batch_blind_evaluate CS server R [blinded] st
       = (Ok (mkVoprfServerBatchEvaluateResult [reply] proof), st')) /\
  (forall server R blinded info st reply proof st',
     poprf_server_blind_evaluate CS server R blinded info st
       = (Ok (mkPoprfServerEvaluateResult reply proof), st') <->
     poprf_server_batch_blind_evaluate CS server R [blinded] info st
       = (Ok (mkPoprfServerBatchEvaluateResult [reply] proof), st')) /\
  (forall server R blinded info st e st',
     poprf_server_blind_evaluate CS server R blinded info st = (Err e, st') <->
     poprf_server_batch_blind_evaluate CS server R [blinded] info st = (Err e, st')) /\
  (forall client input reply proof pk out,
     voprf_client_finalize CS client input reply proof pk = Ok out <->
     voprf_client_batch_finalize CS [input] [client] [reply] proof pk = Ok [Ok out]) /\
  (forall client input reply proof pk e,
     voprf_client_finalize CS client input reply proof pk = Err e <->
     voprf_client_batch_finalize CS [input] [client] [reply] proof pk = Err e \/
     voprf_client_batch_finalize CS [input] [client] [reply] proof pk = Ok [Err e]) /\
  (forall client input reply proof pk info out,
     poprf_client_finalize CS client input reply proof pk info = Ok out <->
     poprf_client_batch_finalize CS [input] [client] [reply] proof pk info = Ok [Ok out]) /\
  (forall client input reply proof pk info e,
     poprf_client_finalize CS client input reply proof pk info = Err e <->
     poprf_client_batch_finalize CS [input] [client] [reply] proof pk info = Err e \/
     poprf_client_batch_finalize CS [input] [client] [reply] proof pk info = Ok [Err e]).
Proof.
  intros CS L.
  assert (Hvb : forall client input reply proof pk,
    (exists x, voprf_client_batch_finalize CS [input] [client] [reply] proof pk = Ok [x]) \/
    (forall l, voprf_client_batch_finalize CS [input] [client] [reply] proof pk <> Ok l)).
  { intros. unfold voprf_client_batch_finalize, verifiable_unblind.
    destruct (verify_proof _ _ _ _ _ _ _);
      [left; eexists; reflexivity|right; intros; discriminate..]. }
  assert (Hpb : forall client input reply proof pk info,
    (exists x, poprf_client_batch_finalize CS [input] [client] [reply] proof pk info = Ok [x]) \/
    (forall l, poprf_client_batch_finalize CS [input] [client] [reply] proof pk info <> Ok l)).
  { intros. unfold poprf_client_batch_finalize, poprf_unblind.
    destruct (compute_tweaked_key _ _ _); simpl; try (right; intros; discriminate).
    destruct (verify_proof _ _ _ _ _ _ _);
      [left; eexists; reflexivity|right; intros; discriminate..]. }
  repeat split.
  - intros H. rewrite (voprf_single_ok L) in H.
    rewrite (voprf_batch_ok L) by (unfold len; simpl; lia).
    destruct (random_scalar _ R st) as [[r| | |] st1]; try discriminate.
    injection H as <- <- <-. reflexivity.
  - intros H. rewrite (voprf_single_ok L).
    rewrite (voprf_batch_ok L) in H by (unfold len; simpl; lia).
    destruct (random_scalar _ R st) as [[r| | |] st1]; try discriminate.
    injection H as <- <- <-. reflexivity.
  - intros H. unfold poprf_server_blind_evaluate, rbind, rret, runwrap in H.
    unfold poprf_server_batch_blind_evaluate, rbind, rret, runwrap.
    unfold poprf_server_batch_blind_evaluate_prepare in *.
    destruct (compute_tweak _ _ _); try discriminate.
    cbn [bind poprf_prepared_elements poprf_prepared_tweak map combine repeat length next_unwrap collect] in *.
    destruct (invert_scalar _ _); try discriminate.
    cbn [bind] in *.
    rewrite (poprf_finish_ok L) in * by (unfold len; simpl; lia). cbv zeta in *.
    destruct (random_scalar _ R st) as [[r| | |] st1]; try discriminate.
    cbn in H. injection H as <- <- <-. reflexivity.
  - intros H. unfold poprf_server_blind_evaluate, rbind, rret, runwrap.
    unfold poprf_server_batch_blind_evaluate, rbind, rret, runwrap in H.
    unfold poprf_server_batch_blind_evaluate_prepare in *.
    destruct (compute_tweak _ _ _); try discriminate.
    cbn [bind poprf_prepared_elements poprf_prepared_tweak map combine repeat length next_unwrap collect] in *.
    destruct (invert_scalar _ _); try discriminate.
    cbn [bind] in *.
    rewrite (poprf_finish_ok L) in * by (unfold len; simpl; lia). cbv zeta in *.
    destruct (random_scalar _ R st) as [[r| | |] st1]; try discriminate.
    cbn in H. injection H as <- <- <-. reflexivity.
  - intros H. unfold poprf_server_blind_evaluate, rbind, rret, runwrap in H.
    unfold poprf_server_batch_blind_evaluate, rbind, rret, runwrap.
    unfold poprf_server_batch_blind_evaluate_prepare in *.
    destruct (compute_tweak _ _ _); try discriminate;
      try (cbn in H; injection H as <- <-; reflexivity).
    cbn [bind poprf_prepared_elements poprf_prepared_tweak map combine repeat length next_unwrap collect] in *.
    destruct (invert_scalar _ _); try discriminate;
      try (cbn in H; injection H as <- <-; reflexivity).
    cbn [bind] in *.
    rewrite (poprf_finish_ok L) in * by (unfold len; simpl; lia). cbv zeta in *.
    destruct (random_scalar _ R st) as [[r| | |] st1]; cbn in *; discriminate.
  - intros H. unfold poprf_server_blind_evaluate, rbind, rret, runwrap.
    unfold poprf_server_batch_blind_evaluate, rbind, rret, runwrap in H.
    unfold poprf_server_batch_blind_evaluate_prepare in *.
    destruct (compute_tweak _ _ _); try discriminate;
      try (cbn in H; injection H as <- <-; reflexivity).
    cbn [bind poprf_prepared_elements poprf_prepared_tweak map combine repeat length next_unwrap collect] in *.
    destruct (invert_scalar _ _); try discriminate;
      try (cbn in H; injection H as <- <-; reflexivity).
    cbn [bind] in *.
    rewrite (poprf_finish_ok L) in * by (unfold len; simpl; lia). cbv zeta in *.
    destruct (random_scalar _ R st) as [[r| | |] st1]; cbn in *; discriminate.
  - unfold voprf_client_finalize. intros H.
    destruct (Hvb client input reply proof pk) as [[x Hx]|Hn].
    + rewrite Hx in *. cbn in H. now rewrite H.
    + destruct (voprf_client_batch_finalize _ _ _ _ _ _) as [l| | |]; try discriminate. now elim (Hn l).
  - unfold voprf_client_finalize. intros ->. reflexivity.
  - unfold voprf_client_finalize. intros H.
    destruct (Hvb client input reply proof pk) as [[x Hx]|Hn].
    + rewrite Hx in *. cbn in H. rewrite H. auto.
    + destruct (voprf_client_batch_finalize _ _ _ _ _ _) as [l| | |]; try discriminate.
      * now elim (Hn l).
      * cbn in H. injection H as ->. auto.
  - unfold voprf_client_finalize. intros [->| ->]; reflexivity.
  - unfold poprf_client_finalize. intros H.
    destruct (Hpb client input reply proof pk info) as [[x Hx]|Hn].
    + rewrite Hx in *. cbn in H. now rewrite H.
    + destruct (poprf_client_batch_finalize _ _ _ _ _ _ _) as [l| | |]; try discriminate. now elim (Hn l).
  - unfold poprf_client_finalize. intros ->. reflexivity.
  - unfold poprf_client_finalize. intros H.
    destruct (Hpb client input reply proof pk info) as [[x Hx]|Hn].
    + rewrite Hx in *. cbn in H. rewrite H. auto.
    + destruct (poprf_client_batch_finalize _ _ _ _ _ _ _) as [l| | |]; try discriminate.
      * now elim (Hn l).
      * cbn in H. injection H as ->. auto.
  - unfold poprf_client_finalize. intros [->| ->]; reflexivity.
Qed.

(** [batch_blind_evaluate] is [prepare] followed by [finish]. *)
Theorem C09_batch_is_prepare_finish :
  forall (CS : CipherSuite) (L : SuiteLaws CS),
  (forall server R blinded st,
     voprf_server_batch_blind_evaluate CS server R blinded st
     = voprf_server_batch_blind_evaluate_finish CS server R blinded
         (voprf_server_batch_blind_evaluate_prepare CS server blinded) st) /\
  (forall server R blinded info st result st',
     poprf_server_batch_blind_evaluate CS server R blinded info st = (Ok result, st') <->
     exists lazy_elements tweak elements,
       poprf_server_batch_blind_evaluate_prepare CS server blinded info
         = Ok (mkPoprfPrepareResult lazy_elements tweak) /\
       collect lazy_elements = Ok elements /\
       poprf_server_batch_blind_evaluate_finish CS R blinded elements tweak st = (Ok result, st')).
Proof.
  intros CS L. split.
  - intros. unfold voprf_server_batch_blind_evaluate, rbind.
    destruct (voprf_server_batch_blind_evaluate_finish _ _ _ _ _ st) as [[[m p]| | |] st']; reflexivity.
  - intros. unfold poprf_server_batch_blind_evaluate, rbind, rret, runwrap. split.
    + destruct (poprf_server_batch_blind_evaluate_prepare _ _ _ _) as [[le t]| | |]; try discriminate.
      cbn [poprf_prepared_elements poprf_prepared_tweak].
      destruct (collect le) as [es| | |] eqn:Hc; try discriminate.
      destruct (poprf_server_batch_blind_evaluate_finish _ _ _ es t st) as [[[m p]| | |] st1] eqn:Hf;
        try discriminate.
      cbn. intros H. injection H as <- <-. exists le, t, es. auto.
    + intros (le & t & es & Hp & Hc & Hf). rewrite Hp.
      cbn [poprf_prepared_elements poprf_prepared_tweak]. rewrite Hc, Hf. cbn.
      now destruct result.
Qed.

Example C09_case :
  exists reply proof st' result st'',
    voprf_server_blind_evaluate TS (mkVoprfServer (ex_scalar 42) (ex_elem 42)) CtrRng
      (mkBlinded (ex_elem 7)) 201 = (Ok (mkVoprfServerEvaluateResult reply proof), st') /\
    poprf_server_batch_blind_evaluate TS (mkPoprfServer (ex_scalar 42) (ex_elem 42)) CtrRng
      [mkBlinded (ex_elem 7); mkBlinded (ex_elem 9)] (Some ex_info) 201 = (Ok result, st'').
Proof.
  destruct (sampling_cases TL CtrRng 201) as (r & st1 & Hr & _);
    [unfold sampling_ends; vm_compute; discriminate|].
  do 5 eexists. split.
  - rewrite (voprf_single_ok TL), Hr. reflexivity.
  - rewrite (poprf_batch_ok TL), Hr; [reflexivity|vm_compute; discriminate|vm_compute; discriminate|].
    apply ex_neq. vm_compute. reflexivity.
Qed.

(** ** C11 *)

(** The proof equals RFC 9497 GenerateProof with the composites computed the
    slow way, for the random scalar drawn from the caller's RNG. *)
Theorem C11_proof_is_GenerateProof :
  forall (CS : CipherSuite) (L : SuiteLaws CS) (sk : scalar CS) (R : Rng) (st : rng_state R),
  let G := CSGroup CS in
  let pk := elem_mul G (base_elem G) sk in
  (forall blinded replies proof st',
     voprf_server_batch_blind_evaluate CS (mkVoprfServer sk pk) R blinded st
       = (Ok (mkVoprfServerBatchEvaluateResult replies proof), st') ->
     exists r, random_scalar G R st = (Ok r, st') /\
       replies = map (fun b => mkEvaluation (elem_mul G (blinded_value b) sk)) blinded /\
       (c_scalar proof, s_scalar proof)
       = GenerateProof L modeVOPRF sk (base_elem G) pk (map blinded_value blinded)
           (map evaluation_value replies) r) /\
  (forall blinded info replies proof st',
     poprf_server_batch_blind_evaluate CS (mkPoprfServer sk pk) R blinded info st
       = (Ok (mkPoprfServerBatchEvaluateResult replies proof), st') ->
     exists r, random_scalar G R st = (Ok r, st') /\
       let t := tweaked_scalar L sk (match info with Some i => i | None => [] end) in
       replies = map (fun b => mkEvaluation (elem_mul G (blinded_value b) (s_inv (group_laws L) t))) blinded /\
       (c_scalar proof, s_scalar proof)
       = GenerateProof L modePOPRF t (base_elem G) (elem_mul G (base_elem G) t)
           (map evaluation_value replies) (map blinded_value blinded) r).
Proof.
  intros CS L sk R st. cbv zeta. split.
  - intros blinded replies proof st' H.
    destruct (N.leb_spec (len blinded) 65535) as [Hl|Hl];
      [|rewrite voprf_batch_err in H by auto; discriminate].
    rewrite (voprf_batch_ok L) in H by auto.
    destruct (random_scalar (CSGroup CS) R st) as [[r| | |] st1]; try discriminate.
    injection H as <- <- <-. exists r. split; [reflexivity|].
    cbn [voprf_sk voprf_pk]. split; [now rewrite !map_map|].
    unfold GenerateProof. rewrite (map_map mkEvaluation evaluation_value). cbn [evaluation_value].
    rewrite (map_id (map _ (map _ blinded))).
    rewrite (compositeZ_mul L). reflexivity.
  - intros blinded info replies proof st' H.
    change (match info with Some i => i | None => [] end) with (info_or_default info).
    destruct (N.leb_spec (len (info_or_default info)) 65535) as [Hi|Hi].
    2:{ unfold poprf_server_batch_blind_evaluate, poprf_server_batch_blind_evaluate_prepare, rbind, rret in H.
        rewrite compute_tweak_long in H by auto. discriminate. }
    destruct (scalar_eq_dec (group_laws L) (tweaked_scalar L sk (info_or_default info)) (zero_scalar (CSGroup CS))) as [Hz|Hz].
    { unfold poprf_server_batch_blind_evaluate, poprf_server_batch_blind_evaluate_prepare, rbind, rret in H.
      rewrite (compute_tweak_ok L) in H by auto. cbn [poprf_sk] in H.
      rewrite (proj2 (is_zero_spec _ (group_laws L) _) Hz) in H. discriminate. }
    destruct (N.leb_spec (len blinded) 65535) as [Hl|Hl];
      [|rewrite (poprf_batch_too_long L) in H by auto; discriminate].
    rewrite (poprf_batch_ok L) in H by auto. cbn [poprf_sk] in H.
    set (t := tweaked_scalar L sk (info_or_default info)) in *.
    destruct (random_scalar (CSGroup CS) R st) as [[r| | |] st1]; try discriminate.
    injection H as <- <- <-. exists r. split; [reflexivity|].
    split; [now rewrite !map_map|].
    unfold GenerateProof. rewrite (map_map mkEvaluation evaluation_value). cbn [evaluation_value].
    rewrite (map_id (map _ (map _ blinded))).
    assert (HD : map blinded_value blinded
                 = map (fun P => elem_mul (CSGroup CS) P t)
                     (map (fun P => elem_mul (CSGroup CS) P (s_inv (group_laws L) t)) (map blinded_value blinded))).
    { rewrite map_map. rewrite <- (map_id (map blinded_value blinded)) at 1. apply map_ext.
      intros P. symmetry. now apply (mul_inv_cancel' (group_laws L)). }
    assert (HZ : compositeZ L modePOPRF (elem_mul (CSGroup CS) (base_elem (CSGroup CS)) t)
        (map (fun P => elem_mul (CSGroup CS) P (s_inv (group_laws L) t)) (map blinded_value blinded))
        (map blinded_value blinded)
      = elem_mul (CSGroup CS) (compositeM L modePOPRF (elem_mul (CSGroup CS) (base_elem (CSGroup CS)) t)
        (map (fun P => elem_mul (CSGroup CS) P (s_inv (group_laws L) t)) (map blinded_value blinded))
        (map blinded_value blinded)) t).
    { rewrite HD at 2 4. apply (compositeZ_mul L). }
    rewrite HZ. reflexivity.
Qed.

(** A case: two messages, one proof, in both modes. *)
Example C11_case :
  let pk := elem_mul (CSGroup TS) (base_elem (CSGroup TS)) (ex_scalar 42) in
  let msgs := [mkBlinded (CS := TS) (ex_elem 3); mkBlinded (CS := TS) (ex_elem 77)] in
  (exists replies proof st',
     voprf_server_batch_blind_evaluate TS (mkVoprfServer (CS := TS) (ex_scalar 42) pk) CtrRng msgs 17
       = (Ok (mkVoprfServerBatchEvaluateResult replies proof), st') /\
     map evaluation_value replies = [ex_elem 126; ex_elem 222]) /\
  (exists replies proof st',
     poprf_server_batch_blind_evaluate TS (mkPoprfServer (CS := TS) (ex_scalar 42) pk) CtrRng msgs (Some ex_info) 17
       = (Ok (mkPoprfServerBatchEvaluateResult replies proof), st')).
Proof.
  cbv zeta. split.
  - rewrite (voprf_batch_ok TL) by (unfold len; simpl; lia).
    destruct (sampling_cases TL CtrRng 17 ltac:(unfold sampling_ends; vm_compute; discriminate))
      as (r & st' & -> & _).
    do 3 eexists. split; [reflexivity|].
    assert (EA : elem_mul (CSGroup TS) (ex_elem 3) (ex_scalar 42) = ex_elem 126)
      by (apply (Fq_eq (q := 251)); vm_compute; reflexivity).
    assert (EB : elem_mul (CSGroup TS) (ex_elem 77) (ex_scalar 42) = ex_elem 222)
      by (apply (Fq_eq (q := 251)); vm_compute; reflexivity).
    cbn [map blinded_value evaluation_value voprf_sk]. rewrite EA, EB. reflexivity.
  - rewrite (poprf_batch_ok TL).
    + destruct (sampling_cases TL CtrRng 17 ltac:(unfold sampling_ends; vm_compute; discriminate))
        as (r & st' & -> & _).
      do 3 eexists. reflexivity.
    + vm_compute. discriminate.
    + unfold len; simpl; lia.
    + apply ex_neq. vm_compute. reflexivity.
Qed.

(** ** C20 *)

(** The client's tweaked key is the server's tweak times the generator, and
    both sides fail in the same cases. *)
Theorem C20_tweak_agreement :
  forall (CS : CipherSuite) (L : SuiteLaws CS) (sk : scalar CS) (info : option bytes),
  let G := CSGroup CS in
  let pk := elem_mul G (base_elem G) sk in
  let i := match info with Some i => i | None => [] end in
  (65535 < len i ->
     compute_tweak CS sk info = Err EInfo /\ compute_tweaked_key CS pk info = Err EInfo) /\
  (len i <= 65535 -> tweaked_scalar L sk i = zero_scalar G ->
     compute_tweak CS sk info = Err EProtocol /\ compute_tweaked_key CS pk info = Err EProtocol) /\
  (len i <= 65535 -> tweaked_scalar L sk i <> zero_scalar G ->
     compute_tweak CS sk info = Ok (tweaked_scalar L sk i) /\
     compute_tweaked_key CS pk info = Ok (elem_mul G (base_elem G) (tweaked_scalar L sk i))).
Proof.
  intros CS L sk info G pk i. change i with (info_or_default info). repeat split.
  - now apply compute_tweak_long.
  - now apply compute_tweaked_key_long.
  - rewrite (compute_tweak_ok L) by auto.
    now rewrite (proj2 (is_zero_spec _ (group_laws L) _) H0).
  - rewrite (compute_tweaked_key_ok L) by auto.
    rewrite (proj2 (is_identity_spec (group_laws L) _)); auto.
    unfold pk. now apply (tweaked_element_identity L).
  - rewrite (compute_tweak_ok L) by auto.
    now rewrite (proj2 (is_zero_false (group_laws L) _) H0).
  - rewrite (compute_tweaked_key_ok L) by auto.
    rewrite (proj2 (is_identity_false (group_laws L) _)).
    + unfold pk. now rewrite (tweaked_element_gen L).
    + unfold pk. intros E. apply (tweaked_element_identity L) in E. contradiction.
Qed.

(** All three cases occur: the key [-m] makes the tweak of any info zero. *)
Theorem C20_protocol_error_reachable :
  forall (CS : CipherSuite) (L : SuiteLaws CS) (info : bytes),
  len info <= 65535 ->
  info_scalar L info <> zero_scalar (CSGroup CS) ->
  exists sk, sk <> zero_scalar (CSGroup CS) /\
    compute_tweak CS sk (Some info) = Err EProtocol.
Proof.
  intros CS L info Hi Hm.
  pose proof (scalar_field _ (group_laws L)) as F.
  exists (s_opp (group_laws L) (info_scalar L info)). split.
  - intros E. apply Hm.
    rewrite <- (Radd_0_l (F_R F) (info_scalar L info)), <- E at 1.
    rewrite (Radd_comm (F_R F)), (Ropp_def (F_R F)). reflexivity.
  - apply (C20_tweak_agreement CS L _ (Some info)); auto.
    unfold tweaked_scalar. rewrite (Radd_comm (F_R F)). apply (Ropp_def (F_R F)).
Qed.

Example C20_case :
  info_scalar TL ex_info <> zero_scalar (CSGroup TS) /\
  tweaked_scalar TL (ex_scalar 42) ex_info <> zero_scalar (CSGroup TS) /\
  65535 < len (repeat x00 (N.to_nat 65536)).
Proof.
  split; [apply ex_neq; vm_compute; reflexivity|].
  split; [apply ex_neq; vm_compute; reflexivity|].
  rewrite len_repeat. lia.
Qed.

(** ** C22 *)

(** Whatever randomness the client and the server use, the output is the same
    in each mode. *)
Theorem C22_output_independent_of_randomness :
  forall (CS : CipherSuite) (L : SuiteLaws CS) (sk : scalar CS) (input : bytes)
         (R1 R2 : Rng) (st1 : rng_state R1) (st2 : rng_state R2),
  let G := CSGroup CS in
  let pk := elem_mul G (base_elem G) sk in
  (forall c1 m1 t1 c2 m2 t2,
     oprf_client_blind CS R1 input st1 = (Ok (mkOprfClientBlindResult c1 m1), t1) ->
     oprf_client_blind CS R2 input st2 = (Ok (mkOprfClientBlindResult c2 m2), t2) ->
     oprf_client_finalize CS c1 input (oprf_server_blind_evaluate CS (mkOprfServer sk) m1)
     = oprf_client_finalize CS c2 input (oprf_server_blind_evaluate CS (mkOprfServer sk) m2)) /\
  (forall c1 m1 t1 c2 m2 t2 R3 st3 R4 st4 e3 p3 t3 e4 p4 t4,
     voprf_client_blind CS R1 input st1 = (Ok (mkVoprfClientBlindResult c1 m1), t1) ->
     voprf_client_blind CS R2 input st2 = (Ok (mkVoprfClientBlindResult c2 m2), t2) ->
     voprf_server_blind_evaluate CS (mkVoprfServer sk pk) R3 m1 st3
       = (Ok (mkVoprfServerEvaluateResult e3 p3), t3) ->
     voprf_server_blind_evaluate CS (mkVoprfServer sk pk) R4 m2 st4
       = (Ok (mkVoprfServerEvaluateResult e4 p4), t4) ->
     voprf_client_finalize CS c1 input e3 p3 pk = voprf_client_finalize CS c2 input e4 p4 pk) /\
  (forall info c1 m1 t1 c2 m2 t2 R3 st3 R4 st4 e3 p3 t3 e4 p4 t4,
     poprf_client_blind CS R1 input st1 = (Ok (mkPoprfClientBlindResult c1 m1), t1) ->
     poprf_client_blind CS R2 input st2 = (Ok (mkPoprfClientBlindResult c2 m2), t2) ->
     poprf_server_blind_evaluate CS (mkPoprfServer sk pk) R3 m1 info st3
       = (Ok (mkPoprfServerEvaluateResult e3 p3), t3) ->
     poprf_server_blind_evaluate CS (mkPoprfServer sk pk) R4 m2 info st4
       = (Ok (mkPoprfServerEvaluateResult e4 p4), t4) ->
     poprf_client_finalize CS c1 input e3 p3 pk info
     = poprf_client_finalize CS c2 input e4 p4 pk info).
Proof.
  intros CS L sk input R1 R2 st1 st2 G pk.
  assert (Hone : forall c m R st t, oprf_client_blind CS R input st = (Ok (mkOprfClientBlindResult c m), t) ->
    oprf_client_finalize CS c input (oprf_server_blind_evaluate CS (mkOprfServer sk) m)
    = prf_result L modeOPRF sk input).
  { intros c m R st t H. rewrite (oprf_blind_ok L) in H.
    destruct (random_cases L R st) as [(b & st' & Hb & Hz)|(st' & Hb)]; rewrite Hb in H; [|discriminate].
    injection H as <- <- _. unfold prf_result. destruct (N.leb_spec (len input) 65535).
    - rewrite (oprf_finalize_ok L) by auto. unfold PRF. do 2 f_equal. cbn.
      rewrite (mul_comm2 (group_laws L)). now rewrite (mul_inv_cancel (group_laws L)).
    - now apply (oprf_finalize_long L). }
  assert (Htwo : forall c m R st t R' st' e p t',
    voprf_client_blind CS R input st = (Ok (mkVoprfClientBlindResult c m), t) ->
    voprf_server_blind_evaluate CS (mkVoprfServer sk pk) R' m st'
      = (Ok (mkVoprfServerEvaluateResult e p), t') ->
    voprf_client_finalize CS c input e p pk = prf_result L modeVOPRF sk input).
  { intros c m R st t R' st' e p t' H H'.
    assert (Hb : Forall2 (voprf_blinded CS) [input] [mkVoprfClientBlindResult c m])
      by (constructor; [exists R, st, t; exact H|constructor]).
    assert (Hs : sampling_ends (CSGroup CS) R' st').
    { unfold sampling_ends. rewrite (voprf_single_ok L) in H'. intros E.
      destruct (random_scalar _ R' st') as [[| | |] ?]; try discriminate. }
    destruct (C05_voprf_batch_correct CS L sk [input] _ R' st' ltac:(simpl length; lia) Hb Hs)
      as (replies & proof & st'' & H1 & _ & H2).
    fold G in H1, H2. fold pk in H1, H2. cbn [map voprf_message voprf_state] in *.
    apply (proj1 (C09_single_is_batch_of_one CS L)) in H'. rewrite H' in H1.
    injection H1 as <- <- <-. unfold voprf_client_finalize. rewrite H2. reflexivity. }
  assert (Hthree : forall info c m R st t R' st' e p t',
    poprf_client_blind CS R input st = (Ok (mkPoprfClientBlindResult c m), t) ->
    poprf_server_blind_evaluate CS (mkPoprfServer sk pk) R' m info st'
      = (Ok (mkPoprfServerEvaluateResult e p), t') ->
    poprf_client_finalize CS c input e p pk info
    = poprf_result L sk (info_or_default info) input).
  { intros info c m R st t R' st' e p t' H H'.
    assert (H'' : poprf_server_blind_evaluate CS (mkPoprfServer sk pk) R' m (Some (info_or_default info)) st'
      = (Ok (mkPoprfServerEvaluateResult e p), t')) by (destruct info; exact H').
    assert (Hfin : poprf_client_finalize CS c input e p pk info
      = poprf_client_finalize CS c input e p pk (Some (info_or_default info))) by (destruct info; reflexivity).
    rewrite Hfin. clear H' Hfin. revert H''. generalize (info_or_default info) as i. intros i H'.
    assert (Hb : Forall2 (poprf_blinded CS) [input] [mkPoprfClientBlindResult c m])
      by (constructor; [exists R, st, t; exact H|constructor]).
    assert (Hi : len i <= 65535).
    { destruct (N.leb_spec (len i) 65535) as [|Hi]; auto.
      unfold poprf_server_blind_evaluate, poprf_server_batch_blind_evaluate_prepare, rbind, rret in H'.
      rewrite compute_tweak_long in H' by auto. discriminate. }
    assert (Ht : tweaked_scalar L sk i <> zero_scalar G).
    { intros E. unfold poprf_server_blind_evaluate, poprf_server_batch_blind_evaluate_prepare, rbind, rret in H'.
      rewrite (compute_tweak_ok L) in H' by auto. cbn [poprf_sk info_or_default] in H'.
      rewrite (proj2 (is_zero_spec _ (group_laws L) _) E) in H'. discriminate. }
    assert (Hs : sampling_ends (CSGroup CS) R' st').
    { unfold sampling_ends. rewrite (poprf_single_ok L) in H' by auto. intros E.
      destruct (random_scalar _ R' st') as [[| | |] ?]; try discriminate. }
    destruct (C06_poprf_batch_correct CS L sk i [input] _ R' st' ltac:(simpl length; lia) Hi Ht Hb Hs)
      as (replies & proof & st'' & H1 & _ & H2).
    fold G in H1, H2. fold pk in H1, H2. cbn [map poprf_message poprf_state] in *.
    apply (proj1 (proj2 (C09_single_is_batch_of_one CS L))) in H'. rewrite H' in H1.
    injection H1 as <- <- <-. unfold poprf_client_finalize. rewrite H2. reflexivity. }
  repeat split; intros.
  - erewrite !Hone by eauto. reflexivity.
  - erewrite !Htwo by eauto. reflexivity.
  - erewrite !Hthree by eauto. reflexivity.
Qed.

(** Two runs with different randomness: the messages differ, the output is the
    same. *)
Example C22_case :
  exists c1 m1 t1 c2 m2 t2,
    oprf_client_blind TS CtrRng ex_input 17 = (Ok (mkOprfClientBlindResult c1 m1), t1) /\
    oprf_client_blind TS CtrRng ex_input 30 = (Ok (mkOprfClientBlindResult c2 m2), t2) /\
    oprf_blind c1 = ex_scalar 17 /\ oprf_blind c2 = ex_scalar 30 /\
    (exists e3 p3 t3, voprf_server_blind_evaluate TS
       (mkVoprfServer (CS := TS) (ex_scalar 42) (elem_mul (CSGroup TS) (base_elem (CSGroup TS)) (ex_scalar 42)))
       CtrRng m1 55 = (Ok (mkVoprfServerEvaluateResult e3 p3), t3)).
Proof.
  assert (E1 : random_scalar (CSGroup TS) CtrRng 17 = (Ok (ex_scalar 17), 18)) by (vm_compute; reflexivity).
  assert (E2 : random_scalar (CSGroup TS) CtrRng 30 = (Ok (ex_scalar 30), 31)) by (vm_compute; reflexivity).
  rewrite !(oprf_blind_ok TL), E1, E2. do 6 eexists.
  split; [reflexivity|]. split; [reflexivity|]. split; [reflexivity|]. split; [reflexivity|].
  destruct (sampling_cases TL CtrRng 55 ltac:(unfold sampling_ends; vm_compute; discriminate))
    as (r & st' & Hr & _).
  rewrite (voprf_single_ok TL), Hr. do 3 eexists. reflexivity.
Qed.
