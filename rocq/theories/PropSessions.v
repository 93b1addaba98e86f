(** * PropSessions: wire-level runs and histories with crashes and a hostile
    network (C32, C33, C34). *)
From Verif Require Import Oprf Voprf Poprf Sessions SerializationFacts Spec OprfFacts VoprfFacts PoprfFacts Zq.
From Verif Require Import PropCorrectness PropBatch PropEncoding PropSoundness.
Open Scope N_scope.

(** ** What every history keeps *)

Lemma update_nth_same {A} (l : list A) i x y : nth_error l i = Some y -> nth_error (update l i x) i = Some x.
Proof. revert i. induction l as [|z l IH]; intros [|i] H; simpl in *; try discriminate; auto. Qed.

Lemma update_nth_other {A} (l : list A) i j x : i <> j -> nth_error (update l i x) j = nth_error l j.
Proof.
  revert i j. induction l as [|z l IH]; intros [|i] [|j] H; simpl; auto; try congruence.
Qed.

Lemma update_Forall {A} (P : A -> Prop) (l : list A) i x : Forall P l -> P x -> Forall P (update l i x).
Proof.
  intros Hl Hx. revert i. induction Hl as [|z l Hz Hl IH]; intros [|i]; simpl; constructor; auto.
Qed.

Section Kept.
Context (M : Protocol) (pk : bytes) (hostile : bool) (srv0 : server M).

(** [c] and [message] come from a call of blind on [input]. *)
Definition blinded_by (input : bytes) (c : client M) (message : bytes) : Prop :=
  exists R st st', m_blind M R input st = (Ok (c, message), st').

(** The server made this reply to the message. *)
Definition served_by (message : bytes) (info : option bytes) (reply : bytes * bytes) : Prop :=
  exists R st st', m_serve M R srv0 message info st = (Ok reply, st').

Definition session_ok (s : session M) : Prop :=
  exists c, blinded_by (s_input s) c (s_message s) /\
    (s_memory s = None \/ s_memory s = Some c) /\
    (s_disk s = None \/ s_disk s = Some (save_client M c)) /\
    forall reply result, In (reply, result) (s_results s) ->
      result = m_finish M c (s_input s) (s_info s) pk reply /\
      (hostile = true \/ served_by (s_message s) (s_info s) reply).

Definition world_ok (w : world M) : Prop :=
  (w_server w = None \/ w_server w = Some srv0) /\
  w_disk w = save_server M srv0 /\
  Forall session_ok (w_sessions w) /\
  forall i reply, In (i, reply) (w_replies w) ->
    exists s, nth_error (w_sessions w) i = Some s /\ served_by (s_message s) (s_info s) reply.

Hypothesis server_reloads : load_server M (save_server M srv0) = Ok srv0.
Hypothesis client_reloads : forall input c message c',
  blinded_by input c message -> load_client M (save_client M c) = Ok c' -> c' = c.

Lemma replies_kept (ss : list (session M)) (replies : list (nat * (bytes * bytes))) i s s' :
  (forall i reply, In (i, reply) replies ->
     exists s, nth_error ss i = Some s /\ served_by (s_message s) (s_info s) reply) ->
  nth_error ss i = Some s -> s_message s' = s_message s -> s_info s' = s_info s ->
  forall j reply, In (j, reply) replies ->
    exists s, nth_error (update ss i s') j = Some s /\ served_by (s_message s) (s_info s) reply.
Proof.
  intros Hr Hi Hm Hn j reply Hin. destruct (Hr j reply Hin) as (t & Ht & Hs).
  destruct (Nat.eq_dec i j) as [<-|Hne].
  - exists s'. split; [eapply update_nth_same; eauto|].
    rewrite Hi in Ht. injection Ht as <-. now rewrite Hm, Hn.
  - exists t. split; auto. now rewrite update_nth_other.
Qed.

Lemma step_keeps w w' : step M pk hostile w w' -> world_ok w -> world_ok w'.
Proof.
  intros Hstep (Hsrv & Hdisk & Hss & Hreps).
  assert (Hget : forall i s, nth_error (w_sessions w) i = Some s -> session_ok s).
  { intros i s Hi. apply nth_error_In in Hi. rewrite Forall_forall in Hss. auto. }
  destruct Hstep as [input info R st c message st' Hb|i s c Hi Hm|i s Hi|i s b c Hi Hd Hl|srv Hs| |srv Hs
                    |i s srv R st reply st' Hi Hs Hv|i s c reply Hi Hm Hd];
    unfold world_ok; cbn [w_server w_disk w_sessions w_replies].
  - repeat split; auto.
    + apply Forall_app. split; auto. constructor; [|constructor].
      exists c. cbn. repeat split; auto; try contradiction; now exists R, st, st'.
    + intros i reply Hin. destruct (Hreps i reply Hin) as (s & Hn & Hs).
      exists s. split; auto. rewrite nth_error_app1; auto. apply nth_error_Some. congruence.
  - repeat split; auto.
    + apply update_Forall; auto. destruct (Hget i s Hi) as (c0 & H1 & H2 & H3 & H4).
      assert (c = c0) as -> by (destruct H2; congruence).
      exists c0. cbn. auto.
    + eapply replies_kept; eauto.
  - repeat split; auto.
    + apply update_Forall; auto. destruct (Hget i s Hi) as (c0 & H1 & H2 & H3 & H4).
      exists c0. cbn. auto.
    + eapply replies_kept; eauto.
  - repeat split; auto.
    + apply update_Forall; auto. destruct (Hget i s Hi) as (c0 & H1 & H2 & H3 & H4).
      assert (b = save_client M c0) as -> by (destruct H3; congruence).
      assert (c = c0) as -> by eauto.
      exists c0. cbn. auto.
    + eapply replies_kept; eauto.
  - repeat split; auto. destruct Hsrv; congruence.
  - repeat split; auto.
  - repeat split; auto. right. rewrite Hdisk in Hs. congruence.
  - repeat split; auto. intros j r [E|Hin]; auto.
    injection E as <- <-. exists s. split; auto.
    assert (srv = srv0) as -> by (destruct Hsrv; congruence). now exists R, st, st'.
  - repeat split; auto.
    + apply update_Forall; auto. destruct (Hget i s Hi) as (c0 & H1 & H2 & H3 & H4).
      assert (c = c0) as -> by (destruct H2; congruence).
      exists c0. cbn. repeat split; auto.
      * destruct H as [E|H]; [injection E as <- <-; reflexivity|]. now apply H4.
      * destruct H as [E|H].
        -- injection E as <- <-. destruct Hd as [Hd|Hd]; auto.
           right. destruct (Hreps i reply Hd) as (t & Ht & Hs). rewrite Hi in Ht. injection Ht as <-. auto.
        -- now apply (H4 reply0 result).
    + eapply replies_kept; eauto.
Qed.

Lemma history_keeps w0 w : history M pk hostile w0 w -> world_ok w0 -> world_ok w.
Proof. induction 1; auto. intros H1. eapply step_keeps; eauto. Qed.

Lemma initial_ok : world_ok (initial M srv0).
Proof. repeat split; cbn; auto. contradiction. Qed.

(** Everything a session ever computed is a finalize with its own original
    state, of a reply the server made to its own message (or of anything, if
    the network is hostile). *)
Lemma history_results w : history M pk hostile (initial M srv0) w ->
  forall s, In s (w_sessions w) -> exists c, blinded_by (s_input s) c (s_message s) /\
  forall reply result, In (reply, result) (s_results s) ->
      result = m_finish M c (s_input s) (s_info s) pk reply /\
      (hostile = true \/ served_by (s_message s) (s_info s) reply).
Proof.
  intros Hh s Hs. destruct (history_keeps _ _ Hh initial_ok) as (_ & _ & Hss & _).
  rewrite Forall_forall in Hss. destruct (Hss s Hs) as (c & H1 & _ & _ & H2). eauto.
Qed.

End Kept.

(** ** The three modes on the wire *)
Section Wire.
Context {CS : CipherSuite} (L : SuiteLaws CS).
Local Notation G := (CSGroup CS).
Local Notation GL := (group_laws L).

(** The proof in the reply has a zero scalar. *)
Definition zero_in_proof (reply : bytes * bytes) : Prop :=
  exists c s : scalar CS, snd reply = serialize_scalar G c ++ serialize_scalar G s /\
    (c = zero_scalar G \/ s = zero_scalar G).

Lemma blinded_reads (e : elem CS) : e <> identity_elem G ->
  blinded_deserialize CS (serialize_elem G e) = Ok (mkBlinded e).
Proof.
  intros H. unfold blinded_deserialize. rewrite <- (app_nil_r (serialize_elem G e)), (de_elem_app GL) by auto.
  reflexivity.
Qed.
Lemma blinded_reads_identity :
  blinded_deserialize CS (serialize_elem G (identity_elem G)) = Err EDeserialization.
Proof.
  unfold blinded_deserialize. rewrite <- (app_nil_r (serialize_elem G _)), (de_elem_identity GL).
  reflexivity.
Qed.
Lemma evaluation_reads (e : elem CS) : e <> identity_elem G ->
  evaluation_deserialize CS (serialize_elem G e) = Ok (mkEvaluation e).
Proof.
  intros H. unfold evaluation_deserialize. rewrite <- (app_nil_r (serialize_elem G e)), (de_elem_app GL) by auto.
  reflexivity.
Qed.
Lemma proof_reads (c s : scalar CS) : c <> zero_scalar G -> s <> zero_scalar G ->
  proof_deserialize CS (proof_serialize CS (mkProof c s)) = Ok (mkProof c s).
Proof.
  intros H1 H2. unfold proof_deserialize, proof_serialize. cbn [c_scalar s_scalar].
  rewrite (de_scalar_app GL) by auto. cbn [bind].
  rewrite <- (app_nil_r (serialize_scalar G s)), (de_scalar_app GL) by auto. reflexivity.
Qed.
Lemma proof_reads_zero (c s : scalar CS) : c = zero_scalar G \/ s = zero_scalar G ->
  proof_deserialize CS (proof_serialize CS (mkProof c s)) = Err EDeserialization.
Proof.
  intros H. unfold proof_deserialize, proof_serialize. cbn [c_scalar s_scalar].
  destruct (scalar_eq_dec GL c (zero_scalar G)) as [->|Hc]; [now rewrite (de_scalar_zero GL)|].
  destruct H as [?| ->]; [contradiction|].
  rewrite (de_scalar_app GL) by auto. cbn [bind].
  rewrite <- (app_nil_r (serialize_scalar G _)), (de_scalar_zero GL). reflexivity.
Qed.

Lemma oprf_m_blind R input st :
  m_blind (oprf_mode CS) R input st =
  match random_scalar G R st with
  | (Ok r, st') => (Ok (mkOprfClient r, serialize_elem G (elem_mul G (H2G L modeOPRF input) r)), st')
  | (Err e, st') => (Err e, st')
  | (Panic, st') => (Panic, st')
  | (Diverge, st') => (Diverge, st')
  end.
Proof.
  cbn [m_blind oprf_mode]. unfold rbind. rewrite (oprf_blind_ok L).
  destruct (random_scalar G R st) as [[]]; reflexivity.
Qed.
Lemma voprf_m_blind R input st :
  m_blind (voprf_mode CS) R input st =
  match random_scalar G R st with
  | (Ok r, st') => (Ok (mkVoprfClient r (elem_mul G (H2G L modeVOPRF input) r),
                        serialize_elem G (elem_mul G (H2G L modeVOPRF input) r)), st')
  | (Err e, st') => (Err e, st')
  | (Panic, st') => (Panic, st')
  | (Diverge, st') => (Diverge, st')
  end.
Proof.
  cbn [m_blind voprf_mode]. unfold rbind. rewrite (voprf_blind_ok L).
  destruct (random_scalar G R st) as [[]]; reflexivity.
Qed.
Lemma poprf_m_blind R input st :
  m_blind (poprf_mode CS) R input st =
  match random_scalar G R st with
  | (Ok r, st') => (Ok (mkPoprfClient r (elem_mul G (H2G L modePOPRF input) r),
                        serialize_elem G (elem_mul G (H2G L modePOPRF input) r)), st')
  | (Err e, st') => (Err e, st')
  | (Panic, st') => (Panic, st')
  | (Diverge, st') => (Diverge, st')
  end.
Proof.
  cbn [m_blind poprf_mode]. unfold rbind. rewrite (poprf_blind_ok L).
  destruct (random_scalar G R st) as [[]]; reflexivity.
Qed.

Lemma oprf_blinded_by input c message :
  blinded_by (oprf_mode CS) input c message ->
  exists r, r <> zero_scalar G /\ c = mkOprfClient r /\
    message = serialize_elem G (elem_mul G (H2G L modeOPRF input) r).
Proof.
  intros (R & st & st' & H). rewrite oprf_m_blind in H.
  destruct (random_cases L R st) as [(r & t & Hr & Hz)|(t & Hr)]; rewrite Hr in H; [|discriminate].
  injection H as <- <- _. eauto.
Qed.
Lemma voprf_blinded_by input c message :
  blinded_by (voprf_mode CS) input c message ->
  exists r, r <> zero_scalar G /\ c = mkVoprfClient r (elem_mul G (H2G L modeVOPRF input) r) /\
    message = serialize_elem G (elem_mul G (H2G L modeVOPRF input) r).
Proof.
  intros (R & st & st' & H). rewrite voprf_m_blind in H.
  destruct (random_cases L R st) as [(r & t & Hr & Hz)|(t & Hr)]; rewrite Hr in H; [|discriminate].
  injection H as <- <- _. eauto.
Qed.
Lemma poprf_blinded_by input c message :
  blinded_by (poprf_mode CS) input c message ->
  exists r, r <> zero_scalar G /\ c = mkPoprfClient r (elem_mul G (H2G L modePOPRF input) r) /\
    message = serialize_elem G (elem_mul G (H2G L modePOPRF input) r).
Proof.
  intros (R & st & st' & H). rewrite poprf_m_blind in H.
  destruct (random_cases L R st) as [(r & t & Hr & Hz)|(t & Hr)]; rewrite Hr in H; [|discriminate].
  injection H as <- <- _. eauto.
Qed.

(** Reloading a client gives the same client, or fails (when the hash of the
    input is the identity). *)
Lemma oprf_client_reloads input c message :
  blinded_by (oprf_mode CS) input c message ->
  load_client (oprf_mode CS) (save_client (oprf_mode CS) c) = Ok c.
Proof.
  intros H. destruct (oprf_blinded_by _ _ _ H) as (r & Hr & -> & _).
  cbn [load_client save_client oprf_mode]. unfold oprf_client_deserialize, oprf_client_serialize.
  cbn [oprf_blind]. rewrite <- (app_nil_r (serialize_scalar G r)), (de_scalar_app GL) by auto. reflexivity.
Qed.
Lemma voprf_client_reloads input c message :
  blinded_by (voprf_mode CS) input c message ->
  (H2G L modeVOPRF input <> identity_elem G ->
   load_client (voprf_mode CS) (save_client (voprf_mode CS) c) = Ok c) /\
  (H2G L modeVOPRF input = identity_elem G ->
   load_client (voprf_mode CS) (save_client (voprf_mode CS) c) = Err EDeserialization).
Proof.
  intros H. destruct (voprf_blinded_by _ _ _ H) as (r & Hr & -> & _).
  cbn [load_client save_client voprf_mode]. unfold voprf_client_deserialize, voprf_client_serialize.
  cbn [voprf_blind voprf_blinded_element]. rewrite (de_scalar_app GL) by auto. cbn [bind]. split; intros Hi.
  - rewrite <- (app_nil_r (serialize_elem G _)), (de_elem_app GL); [reflexivity|].
    now apply (mul_neq_id GL).
  - rewrite Hi, (id_mul GL), <- (app_nil_r (serialize_elem G _)), (de_elem_identity GL). reflexivity.
Qed.
Lemma poprf_client_reloads input c message :
  blinded_by (poprf_mode CS) input c message ->
  (H2G L modePOPRF input <> identity_elem G ->
   load_client (poprf_mode CS) (save_client (poprf_mode CS) c) = Ok c) /\
  (H2G L modePOPRF input = identity_elem G ->
   load_client (poprf_mode CS) (save_client (poprf_mode CS) c) = Err EDeserialization).
Proof.
  intros H. destruct (poprf_blinded_by _ _ _ H) as (r & Hr & -> & _).
  cbn [load_client save_client poprf_mode]. unfold poprf_client_deserialize, poprf_client_serialize.
  cbn [poprf_blind poprf_blinded_element]. rewrite (de_scalar_app GL) by auto. cbn [bind]. split; intros Hi.
  - rewrite <- (app_nil_r (serialize_elem G _)), (de_elem_app GL); [reflexivity|].
    now apply (mul_neq_id GL).
  - rewrite Hi, (id_mul GL), <- (app_nil_r (serialize_elem G _)), (de_elem_identity GL). reflexivity.
Qed.

(** The honest servers. *)
Definition oprf_srv (sk : scalar CS) : server (oprf_mode CS) := mkOprfServer sk.
Definition voprf_srv (sk : scalar CS) : server (voprf_mode CS) :=
  mkVoprfServer sk (elem_mul G (base_elem G) sk).
Definition poprf_srv (sk : scalar CS) : server (poprf_mode CS) :=
  mkPoprfServer sk (elem_mul G (base_elem G) sk).

Lemma pk_not_id sk : sk <> zero_scalar G -> elem_mul G (base_elem G) sk <> identity_elem G.
Proof. intros H. apply (mul_neq_id GL); auto. apply (base_not_identity _ GL). Qed.

Lemma oprf_server_reloads sk : sk <> zero_scalar G ->
  load_server (oprf_mode CS) (save_server (oprf_mode CS) (oprf_srv sk)) = Ok (oprf_srv sk).
Proof.
  intros H. unfold oprf_srv. cbn [load_server save_server oprf_mode].
  unfold oprf_server_deserialize, oprf_server_serialize. cbn [oprf_sk].
  rewrite <- (app_nil_r (serialize_scalar G sk)), (de_scalar_app GL) by auto. reflexivity.
Qed.
Lemma voprf_server_reloads sk : sk <> zero_scalar G ->
  load_server (voprf_mode CS) (save_server (voprf_mode CS) (voprf_srv sk)) = Ok (voprf_srv sk).
Proof.
  intros H. unfold voprf_srv. cbn [load_server save_server voprf_mode].
  unfold voprf_server_deserialize, voprf_server_serialize. cbn [voprf_sk voprf_pk].
  rewrite (de_scalar_app GL) by auto. cbn [bind].
  rewrite <- (app_nil_r (serialize_elem G _)), (de_elem_app GL) by now apply pk_not_id. reflexivity.
Qed.
Lemma poprf_server_reloads sk : sk <> zero_scalar G ->
  load_server (poprf_mode CS) (save_server (poprf_mode CS) (poprf_srv sk)) = Ok (poprf_srv sk).
Proof.
  intros H. unfold poprf_srv. cbn [load_server save_server poprf_mode].
  unfold poprf_server_deserialize, poprf_server_serialize. cbn [poprf_sk poprf_pk].
  rewrite (de_scalar_app GL) by auto. cbn [bind].
  rewrite <- (app_nil_r (serialize_elem G _)), (de_elem_app GL) by now apply pk_not_id. reflexivity.
Qed.

(** *** OPRF *)
Lemma oprf_m_serve R sk (e : elem CS) info st : e <> identity_elem G ->
  m_serve (oprf_mode CS) R (oprf_srv sk) (serialize_elem G e) info st
  = (Ok (serialize_elem G (elem_mul G e sk), []), st).
Proof.
  intros H. cbn [m_serve oprf_mode]. unfold rbind, rret. rewrite blinded_reads by auto. reflexivity.
Qed.
Lemma m_serve_identity R (srv : server (oprf_mode CS)) info st :
  m_serve (oprf_mode CS) R srv (serialize_elem G (identity_elem G)) info st = (Err EDeserialization, st).
Proof. cbn [m_serve oprf_mode]. unfold rbind, rret. now rewrite blinded_reads_identity. Qed.

Lemma oprf_served sk input c message info reply : sk <> zero_scalar G ->
  blinded_by (oprf_mode CS) input c message ->
  served_by (oprf_mode CS) (oprf_srv sk) message info reply ->
  forall pk, m_finish (oprf_mode CS) c input info pk reply = prf_result L modeOPRF sk input.
Proof.
  intros Hsk Hb (R & st & st' & Hs) pk. destruct (oprf_blinded_by _ _ _ Hb) as (r & Hr & -> & ->).
  destruct (elem_eq_dec GL (H2G L modeOPRF input) (identity_elem G)) as [E|Hi].
  - rewrite E, (id_mul GL), m_serve_identity in Hs. discriminate.
  - rewrite oprf_m_serve in Hs by now apply (mul_neq_id GL).
    injection Hs as <- _. cbn [m_finish oprf_mode fst].
    rewrite evaluation_reads by (repeat apply (mul_neq_id GL); auto). cbn [bind].
    unfold prf_result. destruct (N.leb_spec (len input) 65535).
    + rewrite (oprf_finalize_ok L) by auto. cbn [oprf_blind evaluation_value]. unfold PRF. do 2 f_equal.
      rewrite (mul_comm2 GL). now rewrite (mul_inv_cancel GL).
    + now rewrite (oprf_finalize_long L).
Qed.

(** *** VOPRF *)
Lemma voprf_m_serve R sk (e : elem CS) info st : e <> identity_elem G ->
  m_serve (voprf_mode CS) R (voprf_srv sk) (serialize_elem G e) info st
  = match random_scalar G R st with
    | (Ok r, st') => (Ok (serialize_elem G (elem_mul G e sk),
                          proof_serialize CS (voprf_batch_proof
                             (voprf_batch_result L (voprf_srv sk) [mkBlinded e] r))), st')
    | (Err _, st') => (Panic, st')
    | (Panic, st') => (Panic, st')
    | (Diverge, st') => (Diverge, st')
    end.
Proof.
  intros H. cbn [m_serve voprf_mode]. unfold rbind, rret. rewrite blinded_reads by auto.
  rewrite (voprf_single_ok L). destruct (random_scalar G R st) as [[]]; reflexivity.
Qed.
Lemma voprf_m_serve_identity R (srv : server (voprf_mode CS)) info st :
  m_serve (voprf_mode CS) R srv (serialize_elem G (identity_elem G)) info st = (Err EDeserialization, st).
Proof. cbn [m_serve voprf_mode]. unfold rbind, rret. now rewrite blinded_reads_identity. Qed.

Lemma voprf_served sk input c message info reply : sk <> zero_scalar G ->
  blinded_by (voprf_mode CS) input c message ->
  served_by (voprf_mode CS) (voprf_srv sk) message info reply ->
  let result := m_finish (voprf_mode CS) c input info (m_public_key (voprf_mode CS) (voprf_srv sk)) reply in
  (zero_in_proof reply -> result = Err EDeserialization) /\
  (~ zero_in_proof reply -> result = prf_result L modeVOPRF sk input).
Proof.
  intros Hsk Hb (R & st & st' & Hs). destruct (voprf_blinded_by _ _ _ Hb) as (r & Hr & -> & ->).
  destruct (elem_eq_dec GL (H2G L modeVOPRF input) (identity_elem G)) as [E|Hi].
  { rewrite E, (id_mul GL), voprf_m_serve_identity in Hs. discriminate. }
  assert (Hbid : elem_mul G (H2G L modeVOPRF input) r <> identity_elem G) by now apply (mul_neq_id GL).
  rewrite voprf_m_serve in Hs by auto.
  destruct (random_cases L R st) as [(w & t & Hw & Hz)|(t & Hw)]; rewrite Hw in Hs; [|discriminate].
  set (B := mkBlinded (elem_mul G (H2G L modeVOPRF input) r) : BlindedElement CS) in *.
  set (p := voprf_batch_proof (voprf_batch_result L (voprf_srv sk) [B] w)) in *.
  assert (E := f_equal fst Hs). cbn [fst] in E. clear Hs.
  assert (Hrep : reply = (serialize_elem G (elem_mul G (elem_mul G (H2G L modeVOPRF input) r) sk),
                          proof_serialize CS p)) by congruence.
  clear E. subst reply. cbv zeta. cbn [m_finish m_public_key voprf_mode fst snd].
  rewrite evaluation_reads by (apply (mul_neq_id GL); auto). cbn [bind].
  split.
  - intros (c & s & E & H). cbn [snd] in E.
    change (serialize_scalar G c ++ serialize_scalar G s) with (proof_serialize CS (mkProof c s)) in E.
    rewrite E. now rewrite proof_reads_zero.
  - intros Hn. destruct p as [c s] eqn:Ep.
    assert (c <> zero_scalar G).
    { intros ->. apply Hn. exists (zero_scalar G), s. cbn. auto. }
    assert (s <> zero_scalar G).
    { intros ->. apply Hn. exists c, (zero_scalar G). cbn. auto. }
    rewrite proof_reads by auto. cbn [bind]. unfold voprf_server_get_public_key, voprf_srv. cbn [voprf_pk].
    rewrite (deserialize_serialize_elem _ GL) by now apply pk_not_id. cbn [bind].
    pose proof (voprf_honest_verifies L sk [B] w) as Hv. cbv zeta in Hv.
    specialize (Hv ltac:(unfold len; simpl; lia)).
    change (voprf_batch_proof (voprf_batch_result L (voprf_srv sk) [B] w)) with p in Ep.
    fold (voprf_srv sk) in Hv. fold p in Hv. rewrite Ep in Hv.
    unfold voprf_client_finalize.
    rewrite (voprf_batch_finalize_ok L); [|exact Hv|intros x [<-|[]]; exact Hr].
    cbn [combine map bind next_unwrap voprf_blind evaluation_value]. unfold prf_result, PRF.
    rewrite (mul_comm2 GL _ sk), (mul_inv_cancel GL) by auto.
    destruct (N.leb_spec (len input) 65535).
    + now rewrite (voprf_finalize_one_ok L).
    + now rewrite voprf_finalize_one_long.
Qed.

(** *** POPRF *)
Lemma poprf_m_serve R sk (e : elem CS) info st : e <> identity_elem G ->
  let i := info_or_default info in
  let k := tweaked_scalar L sk i in
  len i <= 65535 -> k <> zero_scalar G ->
  m_serve (poprf_mode CS) R (poprf_srv sk) (serialize_elem G e) info st
  = match random_scalar G R st with
    | (Ok r, st') => (Ok (serialize_elem G (elem_mul G e (s_inv GL k)),
                          proof_serialize CS (poprf_batch_proof (poprf_batch_result L k [mkBlinded e] r))), st')
    | (Err _, st') => (Panic, st')
    | (Panic, st') => (Panic, st')
    | (Diverge, st') => (Diverge, st')
    end.
Proof.
  intros H i k Hl Hk. cbn [m_serve poprf_mode]. unfold rbind, rret. rewrite blinded_reads by auto.
  rewrite (poprf_single_ok L) by auto. destruct (random_scalar G R st) as [[]]; reflexivity.
Qed.
Lemma poprf_m_serve_identity R (srv : server (poprf_mode CS)) info st :
  m_serve (poprf_mode CS) R srv (serialize_elem G (identity_elem G)) info st = (Err EDeserialization, st).
Proof. cbn [m_serve poprf_mode]. unfold rbind, rret. now rewrite blinded_reads_identity. Qed.
Lemma poprf_m_serve_ok_inv R sk (e : elem CS) info st reply st' :
  m_serve (poprf_mode CS) R (poprf_srv sk) (serialize_elem G e) info st = (Ok reply, st') ->
  len (info_or_default info) <= 65535 /\ tweaked_scalar L sk (info_or_default info) <> zero_scalar G.
Proof.
  intros H. cbn [m_serve poprf_mode] in H. unfold rbind, rret in H.
  destruct (blinded_deserialize CS _) as [b| | |]; try discriminate.
  unfold poprf_server_blind_evaluate, poprf_server_batch_blind_evaluate_prepare, rbind, rret in H.
  cbn [poprf_sk poprf_srv] in H.
  destruct (N.le_gt_cases (len (info_or_default info)) 65535) as [Hl|Hl].
  - rewrite (compute_tweak_ok L) in H by auto. split; auto.
    destruct (is_zero_scalar G _) eqn:E; [discriminate|]. now apply (is_zero_false GL).
  - rewrite compute_tweak_long in H by auto. discriminate.
Qed.

Lemma poprf_served sk input c message info reply : sk <> zero_scalar G ->
  blinded_by (poprf_mode CS) input c message ->
  served_by (poprf_mode CS) (poprf_srv sk) message info reply ->
  let result := m_finish (poprf_mode CS) c input info (m_public_key (poprf_mode CS) (poprf_srv sk)) reply in
  (zero_in_proof reply -> result = Err EDeserialization) /\
  (~ zero_in_proof reply -> result = poprf_result L sk (info_or_default info) input).
Proof.
  intros Hsk Hb (R & st & st' & Hs). destruct (poprf_blinded_by _ _ _ Hb) as (r & Hr & -> & ->).
  destruct (elem_eq_dec GL (H2G L modePOPRF input) (identity_elem G)) as [E|Hi].
  { rewrite E, (id_mul GL), poprf_m_serve_identity in Hs. discriminate. }
  assert (Hbid : elem_mul G (H2G L modePOPRF input) r <> identity_elem G) by now apply (mul_neq_id GL).
  destruct (poprf_m_serve_ok_inv _ _ _ _ _ _ _ Hs) as [Hl Hk].
  rewrite poprf_m_serve in Hs by auto.
  destruct (random_cases L R st) as [(w & t & Hw & Hz)|(t & Hw)]; rewrite Hw in Hs; [|discriminate].
  set (B := mkBlinded (elem_mul G (H2G L modePOPRF input) r) : BlindedElement CS) in *.
  set (k := tweaked_scalar L sk (info_or_default info)) in *.
  set (p := poprf_batch_proof (poprf_batch_result L k [B] w)) in *.
  assert (E := f_equal fst Hs). cbn [fst] in E. clear Hs.
  assert (Hrep : reply = (serialize_elem G (elem_mul G (elem_mul G (H2G L modePOPRF input) r) (s_inv GL k)),
                          proof_serialize CS p)) by congruence.
  clear E. subst reply. cbv zeta. cbn [m_finish m_public_key poprf_mode fst snd].
  rewrite evaluation_reads by (apply (mul_neq_id GL); auto; now apply (inv_neq_zero GL)). cbn [bind].
  split.
  - intros (c & s & E & H). cbn [snd] in E.
    change (serialize_scalar G c ++ serialize_scalar G s) with (proof_serialize CS (mkProof c s)) in E.
    rewrite E. now rewrite proof_reads_zero.
  - intros Hn. destruct p as [c s] eqn:Ep.
    assert (c <> zero_scalar G).
    { intros ->. apply Hn. exists (zero_scalar G), s. cbn. auto. }
    assert (s <> zero_scalar G).
    { intros ->. apply Hn. exists c, (zero_scalar G). cbn. auto. }
    rewrite proof_reads by auto. cbn [bind]. unfold poprf_server_get_public_key, poprf_srv. cbn [poprf_pk].
    rewrite (deserialize_serialize_elem _ GL) by now apply pk_not_id. cbn [bind].
    pose proof (poprf_honest_verifies L k [B] w) as Hv. cbv zeta in Hv.
    specialize (Hv ltac:(unfold len; simpl; lia) Hk).
    fold p in Hv. rewrite Ep in Hv.
    unfold poprf_client_finalize.
    rewrite (poprf_batch_finalize_ok L); auto.
    + cbn [combine map bind next_unwrap poprf_blind evaluation_value]. unfold poprf_result, POPRF. fold k.
      rewrite (mul_comm2 GL _ (s_inv GL k)), (mul_inv_cancel GL) by auto.
      destruct (N.leb_spec (len input) 65535).
      * now rewrite (poprf_finalize_one_ok L).
      * now rewrite (poprf_finalize_one_long).
    + rewrite (tweaked_element_identity L). exact Hk.
    + rewrite (tweaked_element_gen L). exact Hv.
    + intros x [<-|[]]. exact Hr.
Qed.
End Wire.

(** ** C32 *)

(** A run in which every value that passes from one party to the other, and
    the state of each party between its calls, goes through its byte
    encoding.  [answer] is what finalize returns. *)
Definition wire_run (M : Protocol) (srv : server M) (input : bytes) (info : option bytes)
    (Rc : Rng) (stc : rng_state Rc) (Rs : Rng) (sts : rng_state Rs)
    (reply : bytes * bytes) (answer : res bytes) : Prop :=
  exists c message stc' sts',
    m_blind M Rc input stc = (Ok (c, message), stc') /\
    load_client M (save_client M c) = Ok c /\
    load_server M (save_server M srv) = Ok srv /\
    m_serve M Rs srv message info sts = (Ok reply, sts') /\
    m_finish M c input info (m_public_key M srv) reply = answer.

Theorem C32_oprf_wire :
  forall (CS : CipherSuite) (L : SuiteLaws CS) (sk : scalar CS) (input : bytes) (info : option bytes)
         (Rc : Rng) (stc : rng_state Rc) (Rs : Rng) (sts : rng_state Rs),
  sk <> zero_scalar (CSGroup CS) -> len input <= 65535 ->
  H2G L modeOPRF input <> identity_elem (CSGroup CS) ->
  sampling_ends (CSGroup CS) Rc stc ->
  exists reply,
    wire_run (oprf_mode CS) (mkOprfServer sk) input info Rc stc Rs sts reply
      (Ok (PRF L modeOPRF sk input)).
Proof.
  intros CS L sk input info Rc stc Rs sts Hsk Hi Hid Hc.
  destruct (sampling_cases L Rc stc Hc) as (r & stc' & Hr & Hz).
  assert (Hb : blinded_by (oprf_mode CS) input (mkOprfClient r)
            (serialize_elem (CSGroup CS) (elem_mul (CSGroup CS) (H2G L modeOPRF input) r))).
  { exists Rc, stc, stc'. rewrite (oprf_m_blind L), Hr. reflexivity. }
  assert (Hs := oprf_m_serve L Rs sk _ info sts (mul_neq_id (group_laws L) _ _ Hz Hid)).
  assert (Hsv := ex_intro _ Rs (ex_intro _ sts (ex_intro _ sts Hs)) : served_by (oprf_mode CS) (oprf_srv sk) _ info _).
  eexists. exists (mkOprfClient r). do 3 eexists. split; [|split; [|split; [|split]]].
  - rewrite (oprf_m_blind L), Hr. reflexivity.
  - exact (oprf_client_reloads L _ _ _ Hb).
  - now apply (oprf_server_reloads L).
  - exact Hs.
  - rewrite (oprf_served L sk _ _ _ _ _ Hsk Hb Hsv).
    unfold prf_result. destruct (N.leb_spec (len input) 65535); [reflexivity|lia].
Qed.

(** In the verifiable modes the run fails exactly if one of the two scalars
    of the proof is zero: such a proof cannot be deserialized. *)
Theorem C32_voprf_wire :
  forall (CS : CipherSuite) (L : SuiteLaws CS) (sk : scalar CS) (input : bytes) (info : option bytes)
         (Rc : Rng) (stc : rng_state Rc) (Rs : Rng) (sts : rng_state Rs),
  let G := CSGroup CS in
  sk <> zero_scalar G -> len input <= 65535 ->
  H2G L modeVOPRF input <> identity_elem G ->
  sampling_ends G Rc stc -> sampling_ends G Rs sts ->
  exists reply answer,
    wire_run (voprf_mode CS) (mkVoprfServer sk (elem_mul G (base_elem G) sk)) input info
      Rc stc Rs sts reply answer /\
    (zero_in_proof (CS := CS) reply -> answer = Err EDeserialization) /\
    (~ zero_in_proof (CS := CS) reply -> answer = Ok (PRF L modeVOPRF sk input)).
Proof.
  intros CS L sk input info Rc stc Rs sts G Hsk Hi Hid Hc Hss. subst G.
  destruct (sampling_cases L Rc stc Hc) as (r & stc' & Hr & Hz).
  destruct (sampling_cases L Rs sts Hss) as (w & sts' & Hw & _).
  assert (Hb : blinded_by (voprf_mode CS) input
            (mkVoprfClient r (elem_mul (CSGroup CS) (H2G L modeVOPRF input) r))
            (serialize_elem (CSGroup CS) (elem_mul (CSGroup CS) (H2G L modeVOPRF input) r))).
  { exists Rc, stc, stc'. rewrite (voprf_m_blind L), Hr. reflexivity. }
  assert (Hs := voprf_m_serve L Rs sk _ info sts (mul_neq_id (group_laws L) _ _ Hz Hid)).
  rewrite Hw in Hs.
  assert (Hsv := ex_intro _ Rs (ex_intro _ sts (ex_intro _ sts' Hs)) : served_by (voprf_mode CS) (voprf_srv sk) _ info _).
  destruct (voprf_served L sk _ _ _ _ _ Hsk Hb Hsv) as [H1 H2].
  do 2 eexists. split; [|split; [exact H1|]].
  - eexists. do 3 eexists. split; [|split; [|split; [|split]]].
    + rewrite (voprf_m_blind L), Hr. reflexivity.
    + exact (proj1 (voprf_client_reloads L _ _ _ Hb) Hid).
    + now apply (voprf_server_reloads L).
    + exact Hs.
    + reflexivity.
  - intros Hn. specialize (H2 Hn). unfold prf_result in H2.
    destruct (N.leb_spec (len input) 65535); [exact H2|lia].
Qed.

Theorem C32_poprf_wire :
  forall (CS : CipherSuite) (L : SuiteLaws CS) (sk : scalar CS) (input : bytes) (info : option bytes)
         (Rc : Rng) (stc : rng_state Rc) (Rs : Rng) (sts : rng_state Rs),
  let G := CSGroup CS in
  let i := match info with Some i => i | None => [] end in
  sk <> zero_scalar G -> len input <= 65535 -> len i <= 65535 ->
  H2G L modePOPRF input <> identity_elem G ->
  tweaked_scalar L sk i <> zero_scalar G ->
  sampling_ends G Rc stc -> sampling_ends G Rs sts ->
  exists reply answer,
    wire_run (poprf_mode CS) (mkPoprfServer sk (elem_mul G (base_elem G) sk)) input info
      Rc stc Rs sts reply answer /\
    (zero_in_proof (CS := CS) reply -> answer = Err EDeserialization) /\
    (~ zero_in_proof (CS := CS) reply -> answer = Ok (POPRF L sk input i)).
Proof.
  intros CS L sk input info Rc stc Rs sts G i Hsk Hi Hl Hid Ht Hc Hss. subst G.
  destruct (sampling_cases L Rc stc Hc) as (r & stc' & Hr & Hz).
  destruct (sampling_cases L Rs sts Hss) as (w & sts' & Hw & _).
  assert (Hb : blinded_by (poprf_mode CS) input
            (mkPoprfClient r (elem_mul (CSGroup CS) (H2G L modePOPRF input) r))
            (serialize_elem (CSGroup CS) (elem_mul (CSGroup CS) (H2G L modePOPRF input) r))).
  { exists Rc, stc, stc'. rewrite (poprf_m_blind L), Hr. reflexivity. }
  assert (Hs := poprf_m_serve L Rs sk _ info sts (mul_neq_id (group_laws L) _ _ Hz Hid) Hl Ht).
  rewrite Hw in Hs.
  assert (Hsv := ex_intro _ Rs (ex_intro _ sts (ex_intro _ sts' Hs)) : served_by (poprf_mode CS) (poprf_srv sk) _ info _).
  destruct (poprf_served L sk _ _ _ _ _ Hsk Hb Hsv) as [H1 H2].
  do 2 eexists. split; [|split; [exact H1|]].
  - eexists. do 3 eexists. split; [|split; [|split; [|split]]].
    + rewrite (poprf_m_blind L), Hr. reflexivity.
    + exact (proj1 (poprf_client_reloads L _ _ _ Hb) Hid).
    + now apply (poprf_server_reloads L).
    + exact Hs.
    + reflexivity.
  - intros Hn. specialize (H2 Hn). unfold poprf_result in H2.
    destruct (N.leb_spec (len input) 65535); [exact H2|lia].
Qed.

(** ** C33 *)

Theorem C33_oprf_histories :
  forall (CS : CipherSuite) (L : SuiteLaws CS) (sk : scalar CS) (pk : bytes) (w : world (oprf_mode CS)),
  sk <> zero_scalar (CSGroup CS) ->
  history (oprf_mode CS) pk false (initial (oprf_mode CS) (mkOprfServer sk)) w ->
  forall s reply result, In s (w_sessions w) -> In (reply, result) (s_results s) ->
  (len (s_input s) <= 65535 -> result = Ok (PRF L modeOPRF sk (s_input s))) /\
  (65535 < len (s_input s) -> result = Err EInput).
Proof.
  intros CS L sk pk w Hsk Hh s reply result Hs Hr.
  destruct (history_results (oprf_mode CS) pk false (oprf_srv sk) (oprf_server_reloads L sk Hsk)
              ltac:(intros i c m c' Hb He; rewrite (oprf_client_reloads L _ _ _ Hb) in He; congruence) w Hh s Hs)
    as (c & Hb & Hres).
  destruct (Hres _ _ Hr) as (-> & [?|Hv]); [discriminate|].
  rewrite (oprf_served L sk _ _ _ _ _ Hsk Hb Hv). unfold prf_result.
  destruct (N.leb_spec (len (s_input s)) 65535); split; auto; lia.
Qed.

Theorem C33_voprf_histories :
  forall (CS : CipherSuite) (L : SuiteLaws CS) (sk : scalar CS) (w : world (voprf_mode CS)),
  let G := CSGroup CS in
  let srv := mkVoprfServer sk (elem_mul G (base_elem G) sk) in
  sk <> zero_scalar G ->
  history (voprf_mode CS) (serialize_elem G (voprf_server_get_public_key CS srv)) false
    (initial (voprf_mode CS) srv) w ->
  forall s reply result, In s (w_sessions w) -> In (reply, result) (s_results s) ->
  (zero_in_proof (CS := CS) reply -> result = Err EDeserialization) /\
  (~ zero_in_proof (CS := CS) reply ->
     (len (s_input s) <= 65535 -> result = Ok (PRF L modeVOPRF sk (s_input s))) /\
     (65535 < len (s_input s) -> result = Err EInput)).
Proof.
  intros CS L sk w G srv Hsk Hh s reply result Hs Hr. subst G.
  destruct (history_results (voprf_mode CS) _ false (voprf_srv sk) (voprf_server_reloads L sk Hsk)
              ltac:(intros i c m c' Hb He; destruct (voprf_client_reloads L _ _ _ Hb) as [H1 H2];
                    destruct (elem_eq_dec (group_laws L) (H2G L modeVOPRF i) (identity_elem (CSGroup CS))) as [E|E];
                    [rewrite (H2 E) in He|rewrite (H1 E) in He]; congruence) w Hh s Hs)
    as (c & Hb & Hres).
  destruct (Hres _ _ Hr) as (-> & [?|Hv]); [discriminate|].
  destruct (voprf_served L sk _ _ _ _ _ Hsk Hb Hv) as [H1 H2]. split; [exact H1|].
  intros Hn. specialize (H2 Hn). unfold prf_result in H2.
  destruct (N.leb_spec (len (s_input s)) 65535); split; intros; auto; lia.
Qed.

Theorem C33_poprf_histories :
  forall (CS : CipherSuite) (L : SuiteLaws CS) (sk : scalar CS) (w : world (poprf_mode CS)),
  let G := CSGroup CS in
  let srv := mkPoprfServer sk (elem_mul G (base_elem G) sk) in
  sk <> zero_scalar G ->
  history (poprf_mode CS) (serialize_elem G (poprf_server_get_public_key CS srv)) false
    (initial (poprf_mode CS) srv) w ->
  forall s reply result, In s (w_sessions w) -> In (reply, result) (s_results s) ->
  let i := match s_info s with Some i => i | None => [] end in
  (zero_in_proof (CS := CS) reply -> result = Err EDeserialization) /\
  (~ zero_in_proof (CS := CS) reply ->
     (len (s_input s) <= 65535 -> result = Ok (POPRF L sk (s_input s) i)) /\
     (65535 < len (s_input s) -> result = Err EInput)).
Proof.
  intros CS L sk w G srv Hsk Hh s reply result Hs Hr. subst G.
  destruct (history_results (poprf_mode CS) _ false (poprf_srv sk) (poprf_server_reloads L sk Hsk)
              ltac:(intros i c m c' Hb He; destruct (poprf_client_reloads L _ _ _ Hb) as [H1 H2];
                    destruct (elem_eq_dec (group_laws L) (H2G L modePOPRF i) (identity_elem (CSGroup CS))) as [E|E];
                    [rewrite (H2 E) in He|rewrite (H1 E) in He]; congruence) w Hh s Hs)
    as (c & Hb & Hres).
  destruct (Hres _ _ Hr) as (-> & [?|Hv]); [discriminate|].
  destruct (poprf_served L sk _ _ _ _ _ Hsk Hb Hv) as [H1 H2]. split; [exact H1|].
  intros Hn. specialize (H2 Hn). unfold poprf_result in H2.
  destruct (N.leb_spec (len (s_input s)) 65535); split; intros; auto; lia.
Qed.

(** A session whose state was not lost (it is in memory or on disk) can
    always be completed, whatever happened before: the saved server can be
    restarted, answer the original message again, and the answer gives the
    output. *)
Section Progress.
Context (M : Protocol) (srv0 : server M) (pk : bytes).
Hypothesis server_reloads : load_server M (save_server M srv0) = Ok srv0.
Hypothesis client_reloads : forall input c message c',
  blinded_by M input c message -> load_client M (save_client M c) = Ok c' -> c' = c.

Lemma history_trans w0 w1 w2 :
  history M pk false w0 w1 -> history M pk false w1 w2 -> history M pk false w0 w2.
Proof. intros H1. induction 1; auto. eapply history_step; eauto. Qed.

Lemma progress w i s R st :
  history M pk false (initial M srv0) w ->
  nth_error (w_sessions w) i = Some s ->
  (s_memory s <> None \/ s_disk s <> None) ->
  (forall c, blinded_by M (s_input s) c (s_message s) -> load_client M (save_client M c) = Ok c) ->
  (exists reply st', m_serve M R srv0 (s_message s) (s_info s) st = (Ok reply, st')) ->
  exists w' s' reply c st', history M pk false w w' /\ nth_error (w_sessions w') i = Some s' /\
    s_input s' = s_input s /\ s_info s' = s_info s /\
    m_serve M R srv0 (s_message s) (s_info s) st = (Ok reply, st') /\
    blinded_by M (s_input s) c (s_message s) /\
    In (reply, m_finish M c (s_input s) (s_info s) pk reply) (s_results s').
Proof.
  intros Hh Hi Hst Hre (reply & st' & Hserve).
  destruct (history_keeps M pk false srv0 server_reloads client_reloads _ _ Hh (initial_ok M pk false srv0))
    as (_ & Hdisk & Hss & _).
  rewrite Forall_forall in Hss. destruct (Hss s (nth_error_In _ _ Hi)) as (c & Hb & Hm & Hd & _).
  (* restart the server *)
  set (w1 := mkWorld (Some srv0) (w_disk w) (w_sessions w) (w_replies w) : world M).
  assert (S1 : step M pk false w w1).
  { apply ServerRestore. rewrite Hdisk. exact server_reloads. }
  set (w2 := mkWorld (w_server w1) (w_disk w1) (w_sessions w1) ((i, reply) :: w_replies w1) : world M).
  assert (S2 : step M pk false w1 w2).
  { eapply Serve; [exact Hi|reflexivity|exact Hserve]. }
  (* bring the client back *)
  assert (H3 : exists w3 s3, history M pk false w2 w3 /\ nth_error (w_sessions w3) i = Some s3 /\
             s_input s3 = s_input s /\ s_info s3 = s_info s /\ s_memory s3 = Some c /\
             In (i, reply) (w_replies w3)).
  { destruct Hm as [Hm|Hm].
    - destruct Hst as [Hst|Hst]; [congruence|]. destruct Hd as [Hd|Hd]; [congruence|].
      do 2 eexists. split; [|split; [|split; [|split; [|split]]]].
      + eapply history_step; [apply history_start|]. eapply (Restore M pk false w2 i s); [exact Hi|exact Hd|].
        apply Hre. exact Hb.
      + cbn. eapply update_nth_same. exact Hi.
      + reflexivity.
      + reflexivity.
      + reflexivity.
      + cbn. auto.
    - exists w2, s. split; [apply history_start|]. cbn. auto 10. }
  destruct H3 as (w3 & s3 & Hh3 & Hi3 & E1 & E2 & Hm3 & Hr3).
  do 5 eexists. split; [|split; [|split; [|split; [|split; [|split]]]]].
  - eapply history_trans; [|eapply history_step; [exact Hh3|]].
    + eapply history_step; [eapply history_step; [apply history_start|exact S1]|exact S2].
    + eapply Finish; [exact Hi3|exact Hm3|right; exact Hr3].
  - cbn. eapply update_nth_same. exact Hi3.
  - cbn. exact E1.
  - cbn. exact E2.
  - exact Hserve.
  - exact Hb.
  - cbn. left. now rewrite E1, E2.
Qed.
End Progress.

Theorem C33_oprf_progress :
  forall (CS : CipherSuite) (L : SuiteLaws CS) (sk : scalar CS) (pk : bytes) (w : world (oprf_mode CS)) i s,
  sk <> zero_scalar (CSGroup CS) ->
  history (oprf_mode CS) pk false (initial (oprf_mode CS) (mkOprfServer sk)) w ->
  nth_error (w_sessions w) i = Some s ->
  s_memory s <> None \/ s_disk s <> None ->
  len (s_input s) <= 65535 -> H2G L modeOPRF (s_input s) <> identity_elem (CSGroup CS) ->
  exists w' s' reply, history (oprf_mode CS) pk false w w' /\
    nth_error (w_sessions w') i = Some s' /\ s_input s' = s_input s /\
    In (reply, Ok (PRF L modeOPRF sk (s_input s))) (s_results s').
Proof.
  intros CS L sk pk w i s Hsk Hh Hi Hst Hl Hid.
  assert (Hcr : forall i c m c', blinded_by (oprf_mode CS) i c m ->
            load_client (oprf_mode CS) (save_client (oprf_mode CS) c) = Ok c' -> c' = c).
  { intros j c m c' Hb He. rewrite (oprf_client_reloads L _ _ _ Hb) in He. congruence. }
  destruct (history_results (oprf_mode CS) pk false (oprf_srv sk) (oprf_server_reloads L sk Hsk) Hcr
              w Hh s (nth_error_In _ _ Hi)) as (c & Hb & _).
  destruct (oprf_blinded_by L _ _ _ Hb) as (r & Hr & _ & Em).
  destruct (progress (oprf_mode CS) (oprf_srv sk) pk (oprf_server_reloads L sk Hsk) Hcr w i s CtrRng 17%N Hh Hi Hst)
    as (w' & s' & reply & c' & st' & H1 & H2 & H3 & H4 & H5 & H6 & H7).
  - intros c' Hb'. exact (oprf_client_reloads L _ _ _ Hb').
  - do 2 eexists. rewrite Em. apply (oprf_m_serve L). now apply (mul_neq_id (group_laws L)).
  - exists w', s', reply. split; auto. split; auto. split; auto.
    assert (Hsv : served_by (oprf_mode CS) (oprf_srv sk) (s_message s) (s_info s) reply)
      by (exists CtrRng, 17%N, st'; exact H5).
    rewrite (oprf_served L sk _ _ _ _ _ Hsk H6 Hsv) in H7.
    unfold prf_result in H7. destruct (N.leb_spec (len (s_input s)) 65535); [exact H7|lia].
Qed.

(** In the verifiable modes this needs one RNG with which the server's proof
    has no zero scalar. *)
Theorem C33_voprf_progress :
  forall (CS : CipherSuite) (L : SuiteLaws CS) (sk : scalar CS) (w : world (voprf_mode CS)) i s
         (R : Rng) (st st' : rng_state R) reply,
  let G := CSGroup CS in
  let srv := mkVoprfServer sk (elem_mul G (base_elem G) sk) in
  let pk := serialize_elem G (voprf_server_get_public_key CS srv) in
  sk <> zero_scalar G ->
  history (voprf_mode CS) pk false (initial (voprf_mode CS) srv) w ->
  nth_error (w_sessions w) i = Some s ->
  s_memory s <> None \/ s_disk s <> None ->
  len (s_input s) <= 65535 -> H2G L modeVOPRF (s_input s) <> identity_elem G ->
  m_serve (voprf_mode CS) R srv (s_message s) (s_info s) st = (Ok reply, st') ->
  ~ zero_in_proof (CS := CS) reply ->
  exists w' s', history (voprf_mode CS) pk false w w' /\
    nth_error (w_sessions w') i = Some s' /\ s_input s' = s_input s /\
    In (reply, Ok (PRF L modeVOPRF sk (s_input s))) (s_results s').
Proof.
  intros CS L sk w i s R st st' reply G srv pk Hsk Hh Hi Hst Hl Hid Hserve Hnz. subst G.
  assert (Hcr : forall i c m c', blinded_by (voprf_mode CS) i c m ->
            load_client (voprf_mode CS) (save_client (voprf_mode CS) c) = Ok c' -> c' = c).
  { intros j c m c' Hb He; destruct (voprf_client_reloads L _ _ _ Hb) as [H1 H2];
    destruct (elem_eq_dec (group_laws L) (H2G L modeVOPRF j) (identity_elem (CSGroup CS))) as [E|E];
    [rewrite (H2 E) in He|rewrite (H1 E) in He]; congruence. }
  destruct (progress (voprf_mode CS) (voprf_srv sk) pk (voprf_server_reloads L sk Hsk) Hcr w i s R st Hh Hi Hst)
    as (w' & s' & reply' & c' & st'' & H1 & H2 & H3 & H4 & H5 & H6 & H7).
  - intros c' Hb'. exact (proj1 (voprf_client_reloads L _ _ _ Hb') Hid).
  - eauto.
  - assert (reply' = reply) as -> by (unfold srv, voprf_srv in *; congruence).
    exists w', s'. split; auto. split; auto. split; auto.
    unfold pk in H7.
    assert (Hsv : served_by (voprf_mode CS) (voprf_srv sk) (s_message s) (s_info s) reply)
      by (exists R, st, st''; exact H5).
    destruct (voprf_served L sk _ _ _ _ _ Hsk H6 Hsv) as [_ H8].
    specialize (H8 Hnz). cbv zeta in H8. cbn [m_public_key voprf_mode] in H8.
    unfold srv in H7. unfold voprf_srv in H8. rewrite H8 in H7.
    unfold prf_result in H7. destruct (N.leb_spec (len (s_input s)) 65535); [exact H7|lia].
Qed.

(** ** C34 *)

(** A reply read as an evaluation element and a proof. *)
Definition reads_as {CS} (reply : bytes * bytes) (Z : elem CS) (c s : scalar CS) : Prop :=
  exists rest1 rest2 a b d,
    fst reply = a ++ rest1 /\ snd reply = b ++ d ++ rest2 /\
    len a = elem_len (CSGroup CS) /\ len b = scalar_len (CSGroup CS) /\ len d = scalar_len (CSGroup CS) /\
    deserialize_elem (CSGroup CS) a = Ok Z /\
    deserialize_scalar (CSGroup CS) b = Ok c /\ deserialize_scalar (CSGroup CS) d = Ok s.

Lemma reply_reads {CS} (L : SuiteLaws CS) (reply : bytes * bytes) e p :
  evaluation_deserialize CS (fst reply) = Ok e -> proof_deserialize CS (snd reply) = Ok p ->
  reads_as reply (evaluation_value e) (c_scalar p) (s_scalar p).
Proof.
  intros He Hp. unfold evaluation_deserialize in He. unfold proof_deserialize in Hp.
  destruct (de_elem_cases (group_laws L) (fst reply)) as [E|(a & r1 & Z & Ea & Hla & Hda & _ & E)];
    rewrite E in He; [discriminate|]. cbn in He. injection He as <-.
  destruct (de_scalar_cases (group_laws L) (snd reply)) as [E1|(b & r2 & c & Eb & Hlb & Hdb & _ & E1)];
    rewrite E1 in Hp; [discriminate|]. cbn [bind] in Hp.
  destruct (de_scalar_cases (group_laws L) r2) as [E2|(d & r3 & s & Ed & Hld & Hdd & _ & E2)];
    rewrite E2 in Hp; [discriminate|]. cbn in Hp. injection Hp as <-.
  exists r1, r3, a, b, d. cbn. subst r2. auto 10.
Qed.

Theorem C34_voprf_hostile_network :
  forall (CS : CipherSuite) (L : SuiteLaws CS) (k : scalar CS) (srv : VoprfServer CS)
         (w : world (voprf_mode CS)),
  let G := CSGroup CS in
  let pk := elem_mul G (base_elem G) k in
  voprf_server_deserialize CS (voprf_server_serialize CS srv) = Ok srv ->   (* any server at all *)
  history (voprf_mode CS) (serialize_elem G pk) true (initial (voprf_mode CS) srv) w ->
  forall s reply out, In s (w_sessions w) -> In (reply, Ok out) (s_results s) ->
  out = PRF L modeVOPRF k (s_input s) \/
  exists (B Z : elem CS) (c t : scalar CS),
    s_message s = serialize_elem G B /\ reads_as reply Z c t /\
    (weight L modeVOPRF (proof_seed (CS := CS) modeVOPRF pk) 0 B Z = zero_scalar G \/
     challenge_pinned L modeVOPRF (base_elem G) pk [B] [Z] c).
Proof.
  intros CS L k srv w G pk Hsrv Hh s reply out Hs Hr. subst G.
  destruct (history_results (voprf_mode CS) _ true srv Hsrv
              ltac:(intros i c m c' Hb He; destruct (voprf_client_reloads L _ _ _ Hb) as [H1 H2];
                    destruct (elem_eq_dec (group_laws L) (H2G L modeVOPRF i) (identity_elem (CSGroup CS))) as [E|E];
                    [rewrite (H2 E) in He|rewrite (H1 E) in He]; congruence) w Hh s Hs)
    as (c & Hb & Hres).
  destruct (Hres _ _ Hr) as (Hf & _). clear Hres Hr.
  destruct Hb as (R & st & st' & Hb). cbn [m_blind voprf_mode] in Hb. unfold rbind, rret in Hb.
  destruct (voprf_client_blind CS R (s_input s) st) as [[[c0 m0]| | |] st1] eqn:Eb; try discriminate.
  cbn in Hb. injection Hb as -> Hm _.
  cbn [m_finish voprf_mode] in Hf.
  destruct (evaluation_deserialize CS (fst reply)) as [e| | |] eqn:Ee; try discriminate. cbn [bind] in Hf.
  destruct (proof_deserialize CS (snd reply)) as [p| | |] eqn:Ep; try discriminate. cbn [bind] in Hf.
  assert (Hpk : pk <> identity_elem (CSGroup CS)).
  { intros E. rewrite E, (deserialize_identity _ (group_laws L)) in Hf. discriminate. }
  rewrite (deserialize_serialize_elem _ (group_laws L)) in Hf by exact Hpk. cbn [bind] in Hf.
  symmetry in Hf.
  destruct (C12_voprf_single_sound CS L k R st st1 (s_input s) c m0 e p out Eb Hf) as [H|H]; auto.
  right. exists (blinded_value m0), (evaluation_value e), (c_scalar p), (s_scalar p).
  split; [symmetry; exact Hm|]. split; [now apply (reply_reads L)|]. exact H.
Qed.

Theorem C34_poprf_hostile_network :
  forall (CS : CipherSuite) (L : SuiteLaws CS) (k : scalar CS) (srv : PoprfServer CS)
         (w : world (poprf_mode CS)),
  let G := CSGroup CS in
  let pk := elem_mul G (base_elem G) k in
  poprf_server_deserialize CS (poprf_server_serialize CS srv) = Ok srv ->   (* any server at all *)
  history (poprf_mode CS) (serialize_elem G pk) true (initial (poprf_mode CS) srv) w ->
  forall s reply out, In s (w_sessions w) -> In (reply, Ok out) (s_results s) ->
  let i := match s_info s with Some i => i | None => [] end in
  let tk := elem_mul G (base_elem G) (tweaked_scalar L k i) in
  out = POPRF L k (s_input s) i \/
  exists (B Z : elem CS) (c t : scalar CS),
    s_message s = serialize_elem G B /\ reads_as reply Z c t /\
    (weight L modePOPRF (proof_seed (CS := CS) modePOPRF tk) 0 Z B = zero_scalar G \/
     challenge_pinned L modePOPRF (base_elem G) tk [Z] [B] c).
Proof.
  intros CS L k srv w G pk Hsrv Hh s reply out Hs Hr. subst G.
  destruct (history_results (poprf_mode CS) _ true srv Hsrv
              ltac:(intros i c m c' Hb He; destruct (poprf_client_reloads L _ _ _ Hb) as [H1 H2];
                    destruct (elem_eq_dec (group_laws L) (H2G L modePOPRF i) (identity_elem (CSGroup CS))) as [E|E];
                    [rewrite (H2 E) in He|rewrite (H1 E) in He]; congruence) w Hh s Hs)
    as (c & Hb & Hres).
  destruct (Hres _ _ Hr) as (Hf & _). clear Hres Hr.
  destruct Hb as (R & st & st' & Hb). cbn [m_blind poprf_mode] in Hb. unfold rbind, rret in Hb.
  destruct (poprf_client_blind CS R (s_input s) st) as [[[c0 m0]| | |] st1] eqn:Eb; try discriminate.
  cbn in Hb. injection Hb as -> Hm _.
  cbn [m_finish poprf_mode] in Hf.
  destruct (evaluation_deserialize CS (fst reply)) as [e| | |] eqn:Ee; try discriminate. cbn [bind] in Hf.
  destruct (proof_deserialize CS (snd reply)) as [p| | |] eqn:Ep; try discriminate. cbn [bind] in Hf.
  assert (Hpk : pk <> identity_elem (CSGroup CS)).
  { intros E. rewrite E, (deserialize_identity _ (group_laws L)) in Hf. discriminate. }
  rewrite (deserialize_serialize_elem _ (group_laws L)) in Hf by exact Hpk. cbn [bind] in Hf.
  symmetry in Hf.
  destruct (C12_poprf_single_sound CS L k R st st1 (s_input s) (s_info s) c m0 e p out Eb Hf) as [H|H]; auto.
  right. exists (blinded_value m0), (evaluation_value e), (c_scalar p), (s_scalar p).
  split; [symmetry; exact Hm|]. split; [now apply (reply_reads L)|]. exact H.
Qed.

Theorem C33_poprf_progress :
  forall (CS : CipherSuite) (L : SuiteLaws CS) (sk : scalar CS) (w : world (poprf_mode CS)) i s
         (R : Rng) (st st' : rng_state R) reply,
  let G := CSGroup CS in
  let srv := mkPoprfServer sk (elem_mul G (base_elem G) sk) in
  let pk := serialize_elem G (poprf_server_get_public_key CS srv) in
  let info := match s_info s with Some i => i | None => [] end in
  sk <> zero_scalar G ->
  history (poprf_mode CS) pk false (initial (poprf_mode CS) srv) w ->
  nth_error (w_sessions w) i = Some s ->
  s_memory s <> None \/ s_disk s <> None ->
  len (s_input s) <= 65535 -> H2G L modePOPRF (s_input s) <> identity_elem G ->
  m_serve (poprf_mode CS) R srv (s_message s) (s_info s) st = (Ok reply, st') ->
  ~ zero_in_proof (CS := CS) reply ->
  exists w' s', history (poprf_mode CS) pk false w w' /\
    nth_error (w_sessions w') i = Some s' /\ s_input s' = s_input s /\ s_info s' = s_info s /\
    In (reply, Ok (POPRF L sk (s_input s) info)) (s_results s').
Proof.
  intros CS L sk w i s R st st' reply G srv pk info Hsk Hh Hi Hst Hl Hid Hserve Hnz. subst G.
  assert (Hcr : forall i c m c', blinded_by (poprf_mode CS) i c m ->
            load_client (poprf_mode CS) (save_client (poprf_mode CS) c) = Ok c' -> c' = c).
  { intros j c m c' Hb He; destruct (poprf_client_reloads L _ _ _ Hb) as [H1 H2];
    destruct (elem_eq_dec (group_laws L) (H2G L modePOPRF j) (identity_elem (CSGroup CS))) as [E|E];
    [rewrite (H2 E) in He|rewrite (H1 E) in He]; congruence. }
  destruct (progress (poprf_mode CS) (poprf_srv sk) pk (poprf_server_reloads L sk Hsk) Hcr w i s R st Hh Hi Hst)
    as (w' & s' & reply' & c' & st'' & H1 & H2 & H3 & H4 & H5 & H6 & H7).
  - intros c' Hb'. exact (proj1 (poprf_client_reloads L _ _ _ Hb') Hid).
  - eauto.
  - assert (reply' = reply) as -> by (unfold srv, poprf_srv in *; congruence).
    exists w', s'. split; auto. split; auto. split; auto. split; auto.
    unfold pk in H7.
    assert (Hsv : served_by (poprf_mode CS) (poprf_srv sk) (s_message s) (s_info s) reply)
      by (exists R, st, st''; exact H5).
    destruct (poprf_served L sk _ _ _ _ _ Hsk H6 Hsv) as [_ H8].
    specialize (H8 Hnz). cbv zeta in H8. cbn [m_public_key poprf_mode] in H8.
    unfold srv in H7. unfold poprf_srv in H8. rewrite H8 in H7.
    unfold poprf_result in H7. destruct (N.leb_spec (len (s_input s)) 65535); [exact H7|lia].
Qed.

(** ** Concrete cases *)

(** A history in which a session starts, saves, crashes and the server
    crashes, so that both must be restored. *)
Lemma crash_history (M : Protocol) pk hostile srv R st c message st' input info :
  m_blind M R input st = (Ok (c, message), st') ->
  exists w, history M pk hostile (initial M srv) w /\ w_server w = None /\
    w_sessions w = [mkSession input info message None (Some (save_client M c)) []].
Proof.
  intros Hb. eexists. split.
  - eapply history_step; [eapply history_step; [eapply history_step; [eapply history_step; [apply history_start|]|]|]|].
    + eapply (Start M pk hostile _ input info). exact Hb.
    + eapply (Save M pk hostile _ 0%nat); reflexivity.
    + eapply (Crash M pk hostile _ 0%nat); reflexivity.
    + eapply ServerCrash.
  - split; reflexivity.
Qed.

Example C32_case :
  exists answer reply,
    wire_run (voprf_mode TS) (mkVoprfServer (ex_scalar 42) ex_pk) ex_input None CtrRng 17 CtrRng 201 reply
      (Ok answer) /\ ~ zero_in_proof (CS := TS) reply.
Proof.
  destruct (C32_voprf_wire TS TL (ex_scalar 42) ex_input None CtrRng 17 CtrRng 201)
    as (reply & answer & Hrun & H1 & H2).
  - apply ex_neq. vm_compute. reflexivity.
  - vm_compute. discriminate.
  - apply ex_neq. vm_compute. reflexivity.
  - unfold sampling_ends. vm_compute. discriminate.
  - unfold sampling_ends. vm_compute. discriminate.
  - assert (Hnz : ~ zero_in_proof (CS := TS) reply).
    { intros Hz. specialize (H1 Hz). subst answer.
      destruct Hrun as (c & message & stc' & sts' & Hb & _ & _ & Hs & Hf).
      assert (Hbad : match m_blind (voprf_mode TS) CtrRng ex_input 17 with
        | (Ok (c, message), _) =>
          match m_serve (voprf_mode TS) CtrRng (mkVoprfServer (ex_scalar 42) ex_pk) message None 201 with
          | (Ok reply, _) => match m_finish (voprf_mode TS) c ex_input None
              (m_public_key (voprf_mode TS) (mkVoprfServer (ex_scalar 42) ex_pk)) reply with
              | Ok _ => true | _ => false end
          | _ => false end
        | _ => false end = true) by (vm_compute; reflexivity).
      rewrite Hb in Hbad. unfold ex_pk in Hbad. rewrite Hs, Hf in Hbad. discriminate. }
    rewrite (H2 Hnz) in Hrun. eauto.
Qed.

Example C33_case :
  exists (w : world (oprf_mode TS)) s,
    history (oprf_mode TS) [] false (initial (oprf_mode TS) (mkOprfServer (ex_scalar 42))) w /\
    w_server w = None /\ nth_error (w_sessions w) 0 = Some s /\ s_memory s = None /\ s_disk s <> None /\
    s_input s = ex_input /\
    exists w' s' reply, history (oprf_mode TS) [] false w w' /\
      nth_error (w_sessions w') 0 = Some s' /\
      In (reply, Ok (PRF TL modeOPRF (ex_scalar 42) ex_input)) (s_results s').
Proof.
  destruct (sampling_cases TL CtrRng 17) as (r & st' & Hr & _).
  { unfold sampling_ends. vm_compute. discriminate. }
  destruct (crash_history (oprf_mode TS) [] false (mkOprfServer (ex_scalar 42)) CtrRng 17
              (mkOprfClient r) (serialize_elem (CSGroup TS) (elem_mul (CSGroup TS) (H2G TL modeOPRF ex_input) r))
              st' ex_input None) as (w & Hh & Hs & Hw).
  { rewrite (oprf_m_blind TL), Hr. reflexivity. }
  exists w. eexists. split; [exact Hh|]. split; [exact Hs|]. rewrite Hw.
  split; [reflexivity|]. split; [reflexivity|]. split; [discriminate|]. split; [reflexivity|].
  destruct (C33_oprf_progress TS TL (ex_scalar 42) [] w 0
      (mkSession ex_input None (serialize_elem (CSGroup TS) (elem_mul (CSGroup TS) (H2G TL modeOPRF ex_input) r))
         None (Some (save_client (oprf_mode TS) (mkOprfClient r))) []))
    as (w' & s' & reply & H1 & H2 & _ & H3).
  - apply ex_neq. vm_compute. reflexivity.
  - exact Hh.
  - rewrite Hw. reflexivity.
  - right. discriminate.
  - vm_compute. discriminate.
  - apply ex_neq. vm_compute. reflexivity.
  - eauto 10.
Qed.

(** A hostile history: the network answers a session with garbage of the
    right form, and the session obtains an error instead of an output. *)
Example C34_case :
  exists (w : world (voprf_mode TS)) s reply,
    history (voprf_mode TS) (serialize_elem (CSGroup TS) ex_pk) true
      (initial (voprf_mode TS) (mkVoprfServer (ex_scalar 42) ex_pk)) w /\
    In s (w_sessions w) /\ In (reply, Err EProofVerification) (s_results s).
Proof.
  set (M := voprf_mode TS).
  set (garbage := (serialize_elem (CSGroup TS) (ex_elem 9),
                   serialize_scalar (CSGroup TS) (ex_scalar 3) ++ serialize_scalar (CSGroup TS) (ex_scalar 4))).
  destruct (sampling_cases TL CtrRng 17) as (r & st' & Hr & _).
  { unfold sampling_ends. vm_compute. discriminate. }
  pose (c := mkVoprfClient r (elem_mul (CSGroup TS) (H2G TL modeVOPRF ex_input) r) : client M).
  pose (message := serialize_elem (CSGroup TS) (elem_mul (CSGroup TS) (H2G TL modeVOPRF ex_input) r)).
  assert (Hb : m_blind M CtrRng ex_input 17 = (Ok (c, message), st')).
  { unfold M, c, message. rewrite (voprf_m_blind TL), Hr. reflexivity. }
  assert (Hf : m_finish M c ex_input None (serialize_elem (CSGroup TS) ex_pk) garbage = Err EProofVerification).
  { assert (Hc : match m_blind M CtrRng ex_input 17 with
        | (Ok (c, _), _) => match m_finish M c ex_input None (serialize_elem (CSGroup TS) ex_pk) garbage with
           | Err EProofVerification => true | _ => false end
        | _ => false end = true) by (vm_compute; reflexivity).
    rewrite Hb in Hc. destruct (m_finish M c _ _ _ _) as [|[]| |]; try discriminate. reflexivity. }
  eexists. eexists. exists garbage. split; [|split].
  - eapply history_step; [eapply history_step; [apply history_start|]|].
    + eapply (Start M _ true _ ex_input None). exact Hb.
    + eapply (Finish M _ true _ 0%nat _ c garbage); [reflexivity|reflexivity|left; reflexivity].
  - cbn [w_sessions]. left. reflexivity.
  - cbn [s_results s_input s_info]. left. now rewrite Hf.
Qed.
