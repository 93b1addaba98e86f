(** * PropErrors: which errors the API returns, and when.

    Properties C25, C27 and C28. *)
From Verif Require Import Oprf Voprf Poprf Spec OprfFacts VoprfFacts PoprfFacts Zq.
From Verif Require Import Serialization SerializationFacts PropCorrectness PropBatch PropSerialization.
Open Scope N_scope.

(** A call that returns an error returns one of [allowed]. *)
Definition only_errors {A} (allowed : list Error) (r : res A) : Prop :=
  forall e, r = Err e -> In e allowed.

Lemma only_errors_ok {A} allowed (a : A) : only_errors allowed (Ok a).
Proof. intros e H. discriminate. Qed.
Lemma only_errors_err {A} allowed e : In e allowed -> only_errors (A := A) allowed (Err e).
Proof. intros Hi e' H. now injection H as <-. Qed.
Lemma only_errors_panic {A} allowed : only_errors (A := A) allowed Panic.
Proof. intros e H. discriminate. Qed.
Lemma only_errors_diverge {A} allowed : only_errors (A := A) allowed Diverge.
Proof. intros e H. discriminate. Qed.
Lemma only_errors_bind {A B} allowed (r : res A) (f : A -> res B) :
  only_errors allowed r -> (forall a, r = Ok a -> only_errors allowed (f a)) ->
  only_errors allowed (bind r f).
Proof.
  intros Hr Hf. destruct r as [a|e| |]; cbn [bind].
  - now apply Hf.
  - intros e' H. injection H as <-. now apply Hr.
  - apply only_errors_panic.
  - apply only_errors_diverge.
Qed.
Lemma only_errors_mono {A} (l l' : list Error) (r : res A) :
  incl l l' -> only_errors l r -> only_errors l' r.
Proof. intros Hl H e He. apply Hl, H, He. Qed.
Lemma only_errors_unwrap {E A} allowed (r : outcome E A) : only_errors allowed (unwrap r).
Proof. destruct r; cbn; intros e' H; discriminate. Qed.
Global Hint Resolve only_errors_ok only_errors_err only_errors_panic only_errors_diverge
  only_errors_unwrap : oe.
Global Hint Extern 1 (In _ _) => (simpl; tauto) : oe.

Lemma only_errors_map_err {E A} allowed (r : outcome E A) e :
  In e allowed -> only_errors allowed (map_err r e).
Proof. destruct r; cbn; auto with oe. Qed.

Section Facts.
Context {CS : CipherSuite} (L : SuiteLaws CS).
Local Notation G := (CSGroup CS).
Local Notation GL := (group_laws L).

Lemma invert_errors a allowed : only_errors allowed (invert_scalar G a).
Proof. intros e E. now elim (invert_not_err G GL a e). Qed.

Lemma derive_errors seed info mode :
  only_errors [EDeriveKeyPair; EProtocol] (derive_key_internal CS seed info mode).
Proof.
  destruct (N.leb_spec (len info) 65535) as [H|H].
  - destruct (derive_key_internal_cases L seed info mode H) as [(sk & -> & _)|[-> _]]; auto with oe.
  - rewrite (derive_key_internal_long L) by auto. auto with oe.
Qed.

Lemma derive_short_errors seed info mode : len info <= 65535 ->
  only_errors [EProtocol] (derive_key_internal CS seed info mode).
Proof.
  intros H. destruct (derive_key_internal_cases L seed info mode H) as [(sk & -> & _)|[-> _]]; auto with oe.
Qed.

Lemma random_errors R st allowed : only_errors allowed (fst (random_scalar G R st)).
Proof.
  destruct (random_cases L R st) as [(r & st' & -> & _)|(st' & ->)]; cbn; auto with oe.
Qed.

Lemma tweak_errors sk info : only_errors [EInfo; EProtocol] (compute_tweak CS sk info).
Proof.
  destruct (N.leb_spec (len (info_or_default info)) 65535) as [H|H].
  - rewrite (compute_tweak_ok L) by auto. destruct (is_zero_scalar _ _); auto with oe.
  - rewrite (compute_tweak_long (CS := CS)) by auto. auto with oe.
Qed.

Lemma tweaked_key_errors pk info : only_errors [EInfo; EProtocol] (compute_tweaked_key CS pk info).
Proof.
  destruct (N.leb_spec (len (info_or_default info)) 65535) as [H|H].
  - rewrite (compute_tweaked_key_ok L) by auto. destruct (is_identity_elem _ _); auto with oe.
  - rewrite (compute_tweaked_key_long (CS := CS)) by auto. auto with oe.
Qed.

Lemma evaluate_hash_errors input info e :
  only_errors [EInput] (server_evaluate_hash_input CS input info e).
Proof.
  unfold server_evaluate_hash_input.
  apply only_errors_bind; [apply only_errors_map_err; auto with oe|]. intros il _.
  apply only_errors_bind.
  - destruct info; auto with oe.
    apply only_errors_bind; [apply only_errors_map_err; auto with oe|]. auto with oe.
  - intros h _. apply only_errors_bind; [apply only_errors_map_err; auto with oe|]. auto with oe.
Qed.
End Facts.

(** ** C25 *)

(** Clients: [blind] never returns any error at all, [finalize] only those
    documented. *)
Theorem C25_client_errors :
  forall (CS : CipherSuite) (L : SuiteLaws CS),
  (forall R input st,
     only_errors [] (fst (oprf_client_blind CS R input st)) /\
     only_errors [] (fst (voprf_client_blind CS R input st)) /\
     only_errors [] (fst (poprf_client_blind CS R input st))) /\
  (forall client input reply, only_errors [EInput] (oprf_client_finalize CS client input reply)) /\
  (forall client input reply proof pk,
     only_errors [EInput; EProofVerification] (voprf_client_finalize CS client input reply proof pk)) /\
  (forall client input reply proof pk info,
     only_errors [EInfo; EInput; EProtocol; EProofVerification]
       (poprf_client_finalize CS client input reply proof pk info)) /\
  (forall inputs clients messages proof pk,
     only_errors [EBatch; EProofVerification]
       (voprf_client_batch_finalize CS inputs clients messages proof pk) /\
     forall items, voprf_client_batch_finalize CS inputs clients messages proof pk = Ok items ->
       Forall (only_errors [EInput]) items) /\
  (forall inputs clients messages proof pk info,
     only_errors [EInfo; EProtocol; EBatch; EProofVerification]
       (poprf_client_batch_finalize CS inputs clients messages proof pk info) /\
     forall items, poprf_client_batch_finalize CS inputs clients messages proof pk info = Ok items ->
       Forall (only_errors [EInput; EInfo]) items).
Proof.
  intros CS L.
  assert (Hone : forall input e, only_errors [EInput] (oprf_finalize_one CS input e)).
  { intros. unfold oprf_finalize_one. apply only_errors_bind; [apply only_errors_map_err|]; auto with oe. }
  assert (Hone' : forall input e, only_errors [EInput] (voprf_finalize_one CS input e)) by exact Hone.
  assert (Hpone : forall e input info, only_errors [EInput; EInfo] (poprf_finalize_one CS e input info)).
  { intros. unfold poprf_finalize_one.
    apply only_errors_bind; [apply only_errors_map_err; auto with oe|]. intros ? _.
    apply only_errors_bind; [apply only_errors_map_err; auto with oe|]. auto with oe. }
  assert (Hvone : forall blind x, only_errors [] (voprf_unblind_one CS blind x)).
  { intros. unfold voprf_unblind_one. apply only_errors_bind; [apply (invert_errors L)|]; auto with oe. }
  assert (Hvb : forall inputs clients messages proof pk items,
     voprf_client_batch_finalize CS inputs clients messages proof pk = Ok items ->
       Forall (only_errors [EInput]) items).
  { intros inputs clients messages proof pk items. unfold voprf_client_batch_finalize, verifiable_unblind.
    destruct (verify_proof _ _ _ _ _ _ _); try discriminate. cbn [bind]. intros H. injection H as <-.
    apply Forall_forall. intros x Hx. apply in_map_iff in Hx as ((input & u) & <- & Hin).
    apply in_combine_r in Hin. apply in_map_iff in Hin as ((blind & ev) & <- & _).
    apply only_errors_bind; [|intros; apply Hone'].
    eapply only_errors_mono; [|apply Hvone]. intros ? []. }
  assert (Hve : forall inputs clients messages proof pk,
     only_errors [EBatch; EProofVerification]
       (voprf_client_batch_finalize CS inputs clients messages proof pk)).
  { intros. unfold voprf_client_batch_finalize, verifiable_unblind.
    apply only_errors_bind; auto with oe. apply only_errors_bind; auto with oe.
    destruct (verify_proof_cases L (base_elem (CSGroup CS)) pk
                (map voprf_blinded_element clients) (map evaluation_value messages) proof Voprf)
      as [->|[->| ->]]; auto with oe. }
  assert (Hpb : forall inputs clients messages proof pk info items,
     poprf_client_batch_finalize CS inputs clients messages proof pk info = Ok items ->
       Forall (only_errors [EInput; EInfo]) items).
  { intros inputs clients messages proof pk info items. unfold poprf_client_batch_finalize, poprf_unblind.
    destruct (compute_tweaked_key _ _ _); try discriminate. cbn [bind].
    destruct (verify_proof _ _ _ _ _ _ _); try discriminate. cbn [bind].
    unfold poprf_finalize_after_unblind. destruct (negb _); try discriminate. intros H. injection H as <-.
    apply Forall_forall. intros x Hx. apply in_map_iff in Hx as (((u & input) & i) & <- & Hin).
    apply in_combine_l in Hin. apply in_combine_l in Hin.
    apply in_map_iff in Hin as ((blind & ev) & <- & _).
    apply only_errors_bind; [|intros; apply Hpone].
    eapply only_errors_mono; [|apply Hvone]. intros ? []. }
  assert (Hpe : forall inputs clients messages proof pk info,
     only_errors [EInfo; EProtocol; EBatch; EProofVerification]
       (poprf_client_batch_finalize CS inputs clients messages proof pk info)).
  { intros. unfold poprf_client_batch_finalize, poprf_unblind.
    apply only_errors_bind.
    - apply only_errors_bind.
      + eapply only_errors_mono; [|apply (tweaked_key_errors L)]. intros ? [<-|[<-|[]]]; simpl; tauto.
      + intros tk _. apply only_errors_bind; auto with oe.
        destruct (verify_proof_cases L (base_elem (CSGroup CS)) tk
                (map evaluation_value messages) (map poprf_blinded_element clients) proof Poprf)
          as [->|[->| ->]]; auto with oe.
    - intros u _. unfold poprf_finalize_after_unblind. destruct (negb _); auto with oe. }
  split; [|split; [|split; [|split; [|split]]]].
  - intros R input st.
    rewrite (oprf_blind_ok L), (voprf_blind_ok L), (poprf_blind_ok L).
    destruct (random_cases L R st) as [(r & st' & -> & _)|(st' & ->)]; cbn [fst]; auto with oe.
  - intros. unfold oprf_client_finalize.
    apply only_errors_bind; [apply (invert_errors L)|]. intros inv _. cbn. apply Hone.
  - intros client input reply proof pk. unfold voprf_client_finalize. intros e He.
    pose proof (Hve [input] [client] [reply] proof pk e) as H1.
    pose proof (C07_voprf_client_limits CS L [input] [client] [reply] proof pk) as Hb.
    pose proof (Hvb [input] [client] [reply] proof pk) as H2.
    destruct (voprf_client_batch_finalize CS [input] [client] [reply] proof pk) as [items|e'| |];
      try discriminate.
    + cbn [bind] in He. specialize (H2 items eq_refl). destruct items; try discriminate.
      cbn in He. apply Forall_inv in H2. apply H2 in He as [<-|[]]. auto with oe.
    + cbn [bind] in He. injection He as ->. destruct (H1 eq_refl) as [<-|[<-|[]]]; auto with oe.
      exfalso. destruct (proj1 Hb eq_refl) as [H|H]; [now apply H|]. cbn in H. lia.
  - intros client input reply proof pk info. unfold poprf_client_finalize. intros e He.
    pose proof (Hpe [input] [client] [reply] proof pk info e) as H1.
    pose proof (Hpb [input] [client] [reply] proof pk info) as H2.
    destruct (poprf_client_batch_finalize CS [input] [client] [reply] proof pk info) as [items|e'| |] eqn:E;
      try discriminate.
    + cbn [bind] in He. specialize (H2 items eq_refl). destruct items; try discriminate.
      cbn in He. apply Forall_inv in H2. apply H2 in He as [<-|[<-|[]]]; auto with oe.
    + cbn [bind] in He. injection He as ->. destruct (H1 eq_refl) as [<-|[<-|[<-|[<-|[]]]]]; auto with oe.
      exfalso. revert E. unfold poprf_client_batch_finalize, poprf_unblind.
      pose proof (tweaked_key_errors L pk (Some (info_or_default info))) as Ht.
      destruct (compute_tweaked_key _ _ _) as [tk|e| |]; try discriminate; cbn [bind].
      2:{ intros E. injection E as ->. destruct (Ht _ eq_refl) as [|[|[]]]; discriminate. }
      
      unfold verify_proof. rewrite (compute_composites_ok L) by (cbn; lia). cbn [bind].
      rewrite (dst_new_ok L) by (vm_compute; discriminate). cbn [bind].
      rewrite (challenge_input_ok L). cbn [unwrap bind].
      destruct (scalar_ct_eq _ _ _); discriminate.
  - split; auto. apply Hvb.
  - split; auto. apply Hpb.
Qed.

(** Servers. *)
Theorem C25_server_errors :
  forall (CS : CipherSuite) (L : SuiteLaws CS),
  (forall server input, only_errors [EInput] (oprf_server_evaluate CS server input)) /\
  (forall server input, only_errors [EInput] (voprf_server_evaluate CS server input)) /\
  (forall server input info,
     only_errors [EInput; EInfo; EProtocol] (poprf_server_evaluate CS server input info)) /\
  (forall server R blinded st, only_errors [] (fst (voprf_server_blind_evaluate CS server R blinded st))) /\
  (forall server R blinded info st,
     only_errors [EInfo; EProtocol] (fst (poprf_server_blind_evaluate CS server R blinded info st))) /\
  (forall server R blinded st,
     only_errors [EBatch] (fst (voprf_server_batch_blind_evaluate CS server R blinded st))) /\
  (forall server R blinded info st,
     only_errors [EInfo; EProtocol] (fst (poprf_server_batch_blind_evaluate CS server R blinded info st))) /\
  (forall server blinded info,
     only_errors [EInfo; EProtocol] (poprf_server_batch_blind_evaluate_prepare CS server blinded info)) /\
  (forall server R blinded prepared st,
     only_errors [EBatch] (fst (voprf_server_batch_blind_evaluate_finish CS server R blinded prepared st))) /\
  (forall R blinded prepared tweak st,
     only_errors [EBatch] (fst (poprf_server_batch_blind_evaluate_finish CS R blinded prepared tweak st))).
Proof.
  intros CS L.
  assert (Hprep : forall server blinded info,
     only_errors [EInfo; EProtocol] (poprf_server_batch_blind_evaluate_prepare CS server blinded info)).
  { intros. unfold poprf_server_batch_blind_evaluate_prepare.
    apply only_errors_bind; [apply (tweak_errors L)|]. auto with oe. }
  assert (Hrun : forall S A B (m : rcomp S A) (f : A -> rcomp S B) st l,
     only_errors l (fst (m st)) -> (forall a st', m st = (Ok a, st') -> only_errors l (fst (f a st'))) ->
     only_errors l (fst (rbind m f st))).
  { intros S A B m f st l Hm Hf. unfold rbind. destruct (m st) as [[a|e| |] st']; cbn [fst] in *; auto with oe.
  }
  assert (Hrw : forall S A (m : rcomp S A) st l, only_errors l (fst (runwrap m st))).
  { intros S A m st l. unfold runwrap. destruct (m st) as [[a|e| |] st']; cbn; auto with oe. }
  assert (Hrr : forall S A (m : res A) (st : S) l, only_errors l m -> only_errors l (fst (rret m st))) by auto.
  assert (Hopt : forall A (o : option A) l, only_errors l (unwrap_opt (E := Error) o)) by (intros ? [] ?; cbn; auto with oe).
  assert (Hinv : forall a l, only_errors l (invert_scalar (CSGroup CS) a)) by (intros; apply (invert_errors L)).
  split; [|split; [|split; [|split; [|split; [|split; [|split; [|split; [|split]]]]]]]]; auto.
  - intros. unfold oprf_server_evaluate. rewrite (hash_to_group_ok L). cbn [bind].
    destruct (is_identity_elem _ _); auto with oe. apply (evaluate_hash_errors (CS := CS)).
  - intros. unfold voprf_server_evaluate. rewrite (hash_to_group_ok L). cbn [bind].
    destruct (is_identity_elem _ _); auto with oe. apply (evaluate_hash_errors (CS := CS)).
  - intros. unfold poprf_server_evaluate. rewrite (hash_to_group_ok L). cbn [bind].
    destruct (is_identity_elem _ _); auto with oe.
    apply only_errors_bind; [|intros t _; apply only_errors_bind; auto].
    + eapply only_errors_mono; [|apply (tweak_errors L)]. intros ? [<-|[<-|[]]]; simpl; tauto.
    + intros inv _. eapply only_errors_mono; [|apply (evaluate_hash_errors (CS := CS))].
      intros ? [<-|[]]; simpl; tauto.
  - intros. unfold voprf_server_blind_evaluate. apply Hrun; auto. intros p st1 _.
    apply Hrun; auto. intros r st2 _. apply Hrun; auto with oe.
  - intros server R blinded info st.
    destruct (N.leb_spec (len (info_or_default info)) 65535) as [H|H].
    + destruct (scalar_eq_dec (group_laws L) (tweaked_scalar L (poprf_sk server) (info_or_default info))
                  (zero_scalar (CSGroup CS))) as [Hz|Hz].
      * unfold poprf_server_blind_evaluate, rbind, rret, poprf_server_batch_blind_evaluate_prepare.
        rewrite (compute_tweak_ok L) by auto.
        rewrite (proj2 (is_zero_spec _ (group_laws L) _) Hz). cbn. auto with oe.
      * rewrite (poprf_single_ok L) by auto.
        destruct (random_scalar (CSGroup CS) R st) as [[a|e| |] st']; cbn [fst]; auto with oe.
    + unfold poprf_server_blind_evaluate, rbind, rret, poprf_server_batch_blind_evaluate_prepare.
      rewrite compute_tweak_long by auto. cbn. auto with oe.
  - intros server R blinded st.
    destruct (N.leb_spec (len blinded) 65535) as [H|H].
    + rewrite (voprf_batch_ok L) by auto.
      destruct (random_cases L R st) as [(r & st' & -> & _)|(st' & ->)]; cbn [fst]; auto with oe.
    + rewrite (voprf_batch_err (CS := CS)) by auto. cbn [fst]. auto with oe.
  - intros server R blinded info st.
    unfold poprf_server_batch_blind_evaluate. apply Hrun; auto. intros p st1 Hp.
    apply Hrun; [|intros; apply Hrun; auto; intros; cbn; auto with oe].
    apply Hrr. unfold rret in Hp. injection Hp as Hp _.
    unfold poprf_server_batch_blind_evaluate_prepare in Hp.
    destruct (compute_tweak _ _ _) as [t|e| |]; try discriminate. cbn [bind] in Hp. injection Hp as <-.
    cbn [poprf_prepared_elements].
    generalize (combine blinded (repeat t (length blinded))). intros l.
    induction l as [|[b t'] l IH]; cbn [map collect]; auto with oe.
    apply only_errors_bind; [apply only_errors_bind; auto with oe|]. intros a _.
    apply only_errors_bind; auto with oe.
  - intros server R blinded prepared st.
    destruct (bad_batch_dec blinded prepared) as [H|H].
    + apply bad_batch_len in H. rewrite (voprf_finish_err (CS := CS)) by auto. cbn. auto with oe.
    + apply not_bad_batch in H as [He Hl]. rewrite (voprf_finish_ok L) by auto. cbv zeta.
      destruct (random_cases L R st) as [(r & st' & -> & _)|(st' & ->)]; cbn [fst]; auto with oe.
  - intros R blinded prepared tweak st.
    destruct (bad_batch_dec blinded prepared) as [H|H].
    + apply bad_batch_len in H. rewrite (poprf_finish_err (CS := CS)) by auto. cbn. auto with oe.
    + apply not_bad_batch in H as [He Hl]. rewrite (poprf_finish_ok L) by auto. cbv zeta.
      destruct (random_cases L R st) as [(r & st' & -> & _)|(st' & ->)]; cbn [fst]; auto with oe.
Qed.

(** Constructors and decoders. *)
Theorem C25_constructor_errors :
  forall (CS : CipherSuite) (L : SuiteLaws CS),
  (forall seed info,
     only_errors [EDeriveKeyPair; EProtocol] (oprf_server_new_from_seed CS seed info) /\
     only_errors [EDeriveKeyPair; EProtocol] (voprf_server_new_from_seed CS seed info) /\
     only_errors [EDeriveKeyPair; EProtocol] (poprf_server_new_from_seed CS seed info) /\
     forall mode, only_errors [EDeriveKeyPair; EProtocol] (derive_keypair CS seed info mode)) /\
  (forall R st,
     only_errors [EProtocol] (fst (oprf_server_new CS R st)) /\
     only_errors [EProtocol] (fst (voprf_server_new CS R st)) /\
     only_errors [EProtocol] (fst (poprf_server_new CS R st))) /\
  (forall b,
     only_errors [EDeserialization] (oprf_server_new_with_key CS b) /\
     only_errors [EDeserialization] (voprf_server_new_with_key CS b) /\
     only_errors [EDeserialization] (poprf_server_new_with_key CS b) /\
     only_errors [EDeserialization] (oprf_client_deserialize CS b) /\
     only_errors [EDeserialization] (voprf_client_deserialize CS b) /\
     only_errors [EDeserialization] (poprf_client_deserialize CS b) /\
     only_errors [EDeserialization] (oprf_server_deserialize CS b) /\
     only_errors [EDeserialization] (voprf_server_deserialize CS b) /\
     only_errors [EDeserialization] (poprf_server_deserialize CS b) /\
     only_errors [EDeserialization] (proof_deserialize CS b) /\
     only_errors [EDeserialization] (blinded_deserialize CS b) /\
     only_errors [EDeserialization] (evaluation_deserialize CS b)).
Proof.
  intros CS L. split; [|split].
  - intros seed info. unfold oprf_server_new_from_seed, voprf_server_new_from_seed,
      poprf_server_new_from_seed, derive_keypair.
    assert (H : forall mode, only_errors [EDeriveKeyPair; EProtocol] (derive_key_internal CS seed info mode))
      by (intros; apply (derive_errors L)).
    split; [|split; [|split]].
    + apply only_errors_bind; auto with oe.
    + apply only_errors_bind; [apply only_errors_bind; auto with oe|]. intros [] _. auto with oe.
    + apply only_errors_bind; [apply only_errors_bind; auto with oe|]. intros [] _. auto with oe.
    + intros. apply only_errors_bind; auto with oe.
  - intros R st.
    assert (H : forall seed mode, only_errors [EProtocol] (derive_key_internal CS seed [] mode))
      by (intros; apply (derive_short_errors L); cbn; lia).
    unfold oprf_server_new, voprf_server_new, poprf_server_new.
    destruct (fill_bytes _ _ _) as [seed st']. cbn [fst].
    unfold oprf_server_new_from_seed, voprf_server_new_from_seed,
      poprf_server_new_from_seed, derive_keypair.
    split; [|split].
    + apply only_errors_bind; auto with oe.
    + apply only_errors_bind; [apply only_errors_bind; auto with oe|]. intros [] _. auto with oe.
    + apply only_errors_bind; [apply only_errors_bind; auto with oe|]. intros [] _. auto with oe.
  - intros b.
    assert (T : forall T (de : bytes -> res T) n ok, total_and_safe de n ok -> only_errors [EDeserialization] (de b)).
    { intros T de n ok (H & _) e He. destruct (H b) as [(x & E & _)|E]; rewrite E in He; try discriminate.
      injection He as <-. now left. }
    destruct (C24_total_and_safe CS L) as (T1 & T2 & T3 & T4 & T5 & T6 & T7 & T8 & T9).
    destruct (C24_new_with_key_safe CS L b) as (K1 & K2 & K3).
    assert (K : forall A (r : res A) P, ((exists s, r = Ok s /\ P s) \/ r = Err EDeserialization) ->
                only_errors [EDeserialization] r).
    { intros A r P [(s & -> & _)| ->]; auto with oe. }
    repeat match goal with |- _ /\ _ => split end; try (eapply T; eassumption);
      [exact (K _ _ _ K1)|exact (K _ _ _ K2)|exact (K _ _ _ K3)].
Qed.

(** An error of each documented kind does occur. *)
Example C25_case :
  match voprf_client_finalize TS (mkVoprfClient (ex_scalar 2) (ex_elem 9)) ex_input (mkEvaluation (ex_elem 17))
    (mkProof (ex_scalar 3) (ex_scalar 4)) (ex_elem 77) with
  | Err EProofVerification => true | _ => false end = true /\
  match voprf_server_new_with_key TS [x00] with
  | Err EDeserialization => true | _ => false end = true.
Proof. vm_compute. auto. Qed.

(** ** C27 *)

(** The base mode: [finalize] checks exactly the 65535-byte limit; [evaluate]
    that limit and the identity. *)
Theorem C27_oprf_limits :
  forall (CS : CipherSuite) (L : SuiteLaws CS) (input : bytes),
  let G := CSGroup CS in
  (forall (client : OprfClient CS) reply, oprf_blind client <> zero_scalar G ->
     (oprf_client_finalize CS client input reply = Err EInput <-> 65535 < len input) /\
     (len input <= 65535 -> exists out, oprf_client_finalize CS client input reply = Ok out)) /\
  (forall server,
     (oprf_server_evaluate CS server input = Err EInput <->
        65535 < len input \/ H2G L modeOPRF input = identity_elem G) /\
     (oprf_server_evaluate CS server input <> Err EInput ->
        exists out, oprf_server_evaluate CS server input = Ok out)).
Proof.
  intros CS L input G. split.
  - intros client reply Hb. destruct (N.leb_spec (len input) 65535) as [H|H].
    + rewrite (oprf_finalize_ok L) by auto. split; [split; [discriminate|lia]|]. eauto.
    + rewrite (oprf_finalize_long L) by auto. split; [split; auto|lia].
  - intros [sk]. destruct (N.leb_spec (len input) 65535) as [H|H].
    + destruct (elem_eq_dec (group_laws L) (H2G L modeOPRF input) (identity_elem G)) as [E|E].
      * rewrite (oprf_evaluate_err L) by auto. split; [tauto|congruence].
      * rewrite (oprf_evaluate_ok L) by auto. split; [|eauto].
        split; [discriminate|]. intros [Hx|Hx]; [lia|contradiction].
    + rewrite (oprf_evaluate_err L) by auto. split; [tauto|congruence].
Qed.

(** VOPRF: the same limit, checked after the proof. *)
Theorem C27_voprf_limits :
  forall (CS : CipherSuite) (L : SuiteLaws CS) (input : bytes),
  let G := CSGroup CS in
  (forall (client : VoprfClient CS) reply proof pk, voprf_blind client <> zero_scalar G ->
     let run := fun i => voprf_client_finalize CS client i reply proof pk in
     (run input = Err EInput -> 65535 < len input) /\
     (forall short, len short <= 65535 ->
        (exists out, run short = Ok out) \/ run short = Err EProofVerification) /\
     (forall short, len short <= 65535 -> 65535 < len input ->
        ((exists out, run short = Ok out) <-> run input = Err EInput) /\
        (run short = Err EProofVerification <-> run input = Err EProofVerification))) /\
  (forall server,
     (voprf_server_evaluate CS server input = Err EInput <->
        65535 < len input \/ H2G L modeVOPRF input = identity_elem G) /\
     (voprf_server_evaluate CS server input <> Err EInput ->
        exists out, voprf_server_evaluate CS server input = Ok out)).
Proof.
  intros CS L input G. split.
  - intros client reply proof pk Hb run.
    assert (Hrun : (forall i, len i <= 65535 -> exists out, run i = Ok out) /\
                   (forall i, 65535 < len i -> run i = Err EInput) \/
                   (forall i, run i = Err EProofVerification)).
    { destruct (verify_proof_cases L (base_elem (CSGroup CS)) pk
                (map voprf_blinded_element [client]) (map evaluation_value [reply]) proof Voprf) as [Hv|[Hv|Hv]].
      - left. assert (E : forall i, run i = voprf_finalize_one CS i
            (elem_mul G (evaluation_value reply) (s_inv (group_laws L) (voprf_blind client)))).
        { intros i. unfold run, voprf_client_finalize.
          rewrite (voprf_batch_finalize_ok L) by (auto; intros c [<-|[]]; auto). reflexivity. }
        split; intros i Hi; rewrite E.
        + rewrite (voprf_finalize_one_ok L) by auto. eauto.
        + now apply voprf_finalize_one_long.
      - exfalso. unfold verify_proof in Hv. rewrite (compute_composites_ok L) in Hv by (cbn; lia).
        cbn [bind] in Hv. rewrite (dst_new_ok L) in Hv by (vm_compute; discriminate). cbn [bind] in Hv.
        rewrite (challenge_input_ok L) in Hv. cbn [unwrap bind] in Hv.
        destruct (scalar_ct_eq _ _ _) in Hv; discriminate.
      - right. intros i. unfold run, voprf_client_finalize.
        now rewrite (voprf_batch_finalize_fail _ _ _ _ _ _ Hv). }
    destruct Hrun as [[H1 H2]|H].
    + split; [|split].
      * intros E. destruct (N.leb_spec (len input) 65535) as [Hl|Hl]; auto.
        apply H1 in Hl as (o & Hl). congruence.
      * intros s Hs. left. auto.
      * intros s Hs Hi. destruct (H1 s Hs) as (o & Ho). rewrite (H2 _ Hi), Ho.
        split; split; intros; try discriminate; eauto.
    + split; [|split]; intros; rewrite ?H in *; try discriminate; auto.
      split; split; intros; auto; try discriminate. destruct H2; discriminate.
  - intros server. destruct (N.leb_spec (len input) 65535) as [H|H].
    + destruct (elem_eq_dec (group_laws L) (H2G L modeVOPRF input) (identity_elem G)) as [E|E].
      * rewrite (voprf_evaluate_err L) by auto. split; [tauto|congruence].
      * destruct server as [sk pk]. rewrite (voprf_evaluate_ok L) by auto. split; [|eauto].
        split; [discriminate|]. intros [Hx|Hx]; [lia|contradiction].
    + rewrite (voprf_evaluate_err L) by auto. split; [tauto|congruence].
Qed.

Local Ltac done4 :=
  split; [|split; [|split]]; split; intros HH;
  repeat match goal with
         | H : exists _, _ |- _ => destruct H
         | H : _ /\ _ |- _ => destruct H
         | H : _ \/ _ |- _ => destruct H
         end;
  try discriminate; try contradiction; try lia; eauto; repeat split; auto.

(** POPRF.  [evaluate] checks the identity first, then the info, then the
    tweak, then the input length; [finalize] checks the info, the tweak, the
    proof, then the input length. *)
Theorem C27_poprf_limits :
  forall (CS : CipherSuite) (L : SuiteLaws CS) (input : bytes) (info : option bytes),
  let G := CSGroup CS in
  let i := match info with Some i => i | None => [] end in
  (forall (client : PoprfClient CS) reply proof pk, poprf_blind client <> zero_scalar G ->
     let run := fun x => poprf_client_finalize CS client x reply proof pk info in
     (run input = Err EInput -> 65535 < len input) /\
     (forall short, len short <= 65535 -> 65535 < len input ->
        ((exists out, run short = Ok out) <-> run input = Err EInput) /\
        forall e, e <> EInput -> (run short = Err e <-> run input = Err e))) /\
  (forall server,
     let t := tweaked_scalar L (poprf_sk server) i in
     let run := poprf_server_evaluate CS server input info in
     (run = Err EInput <->
        H2G L modePOPRF input = identity_elem G \/
        (len i <= 65535 /\ t <> zero_scalar G /\ 65535 < len input)) /\
     (run = Err EInfo <-> H2G L modePOPRF input <> identity_elem G /\ 65535 < len i) /\
     (run = Err EProtocol <->
        H2G L modePOPRF input <> identity_elem G /\ len i <= 65535 /\ t = zero_scalar G) /\
     ((exists out, run = Ok out) <->
        H2G L modePOPRF input <> identity_elem G /\ len i <= 65535 /\ t <> zero_scalar G /\
        len input <= 65535)).
Proof.
  intros CS L input info G i. change i with (info_or_default info). split.
  - intros client reply proof pk Hb run.
    assert (Hrun : (forall x, len x <= 65535 -> exists out, run x = Ok out) /\
                   (forall x, 65535 < len x -> run x = Err EInput) \/
                   (exists e, e <> EInput /\ forall x, run x = Err e)).
    { destruct (N.leb_spec (len (info_or_default info)) 65535) as [Hi|Hi].
      2:{ right. exists EInfo. split; [discriminate|]. intros x. unfold run, poprf_client_finalize.
          rewrite (poprf_batch_finalize_tweak_fail _ _ _ _ _ _ EInfo); auto.
          apply compute_tweaked_key_long. auto. }
      destruct (elem_eq_dec (group_laws L) (tweaked_element L pk (info_or_default info)) (identity_elem G)) as [Ht|Ht].
      { right. exists EProtocol. split; [discriminate|]. intros x. unfold run, poprf_client_finalize.
        rewrite (poprf_batch_finalize_tweak_fail _ _ _ _ _ _ EProtocol); auto.
        rewrite (compute_tweaked_key_ok L) by auto. cbn [info_or_default].
        now rewrite (proj2 (is_identity_spec (group_laws L) _) Ht). }
      destruct (verify_proof_cases L (base_elem (CSGroup CS)) (tweaked_element L pk (info_or_default info))
                (map evaluation_value [reply]) (map poprf_blinded_element [client]) proof Poprf) as [Hv|[Hv|Hv]].
      - left. assert (E : forall x, run x = poprf_finalize_one CS
            (elem_mul G (evaluation_value reply) (s_inv (group_laws L) (poprf_blind client))) x (info_or_default info)).
        { intros x. unfold run, poprf_client_finalize.
          rewrite (poprf_batch_finalize_ok L) by (auto; intros c [<-|[]]; auto). reflexivity. }
        split; intros x Hx; rewrite E.
        + rewrite (poprf_finalize_one_ok L) by auto. eauto.
        + now apply poprf_finalize_one_long.
      - exfalso. unfold verify_proof in Hv. rewrite (compute_composites_ok L) in Hv by (cbn; lia).
        cbn [bind] in Hv. rewrite (dst_new_ok L) in Hv by (vm_compute; discriminate). cbn [bind] in Hv.
        rewrite (challenge_input_ok L) in Hv. cbn [unwrap bind] in Hv.
        destruct (scalar_ct_eq _ _ _) in Hv; discriminate.
      - right. exists EProofVerification. split; [discriminate|].
        intros x. unfold run, poprf_client_finalize.
        now rewrite (poprf_batch_finalize_fail L _ _ _ _ _ _ _ Hi Ht Hv). }
    destruct Hrun as [[H1 H2]|(e & Hne & H)].
    + split.
      * intros E. destruct (N.leb_spec (len input) 65535) as [Hl|Hl]; auto.
        apply H1 in Hl as (o & Hl). congruence.
      * intros s Hs Hi. destruct (H1 s Hs) as (o & Ho). rewrite (H2 _ Hi), Ho. split.
        -- split; intros; eauto.
        -- intros e He. split; congruence.
    + split.
      * rewrite H. congruence.
      * intros s Hs Hi. rewrite !H. split; [split; [intros []; discriminate|congruence]|]. tauto.
  - intros [sk pk] t run. subst run. unfold poprf_server_evaluate. rewrite (hash_to_group_ok L). cbn [bind mode_id].
    unfold t. clear t. cbn [poprf_sk].
    destruct (elem_eq_dec (group_laws L) (H2G L modePOPRF input) (identity_elem G)) as [E|E].
    { rewrite (proj2 (is_identity_spec (group_laws L) _) E).
      done4. }
    rewrite (proj2 (is_identity_false (group_laws L) _) E).
    destruct (N.leb_spec (len (info_or_default info)) 65535) as [Hi|Hi].
    2:{ rewrite compute_tweak_long by auto. cbn [bind].
        done4. }
    rewrite (compute_tweak_ok L) by auto.
    destruct (scalar_eq_dec (group_laws L) (tweaked_scalar L sk (info_or_default info)) (zero_scalar G)) as [Ht|Ht].
    { rewrite (proj2 (is_zero_spec _ (group_laws L) _) Ht). cbn [bind].
      done4. }
    rewrite (proj2 (is_zero_false (group_laws L) _) Ht). cbn [bind].
    rewrite (invert_nonzero _ (group_laws L)) by auto. cbn [bind].
    destruct (N.leb_spec (len input) 65535) as [Hl|Hl].
    + assert (exists out, server_evaluate_hash_input CS input info
        (serialize_elem (CSGroup CS) (elem_mul (CSGroup CS) (H2G L modePOPRF input)
           (s_inv (group_laws L) (tweaked_scalar L sk (info_or_default info))))) = Ok out) as [out Ho].
      { destruct info as [inf|].
        - rewrite (server_evaluate_hash_input_some L) by auto. eauto.
        - rewrite (server_evaluate_hash_input_none L) by auto. eauto. }
      rewrite Ho. done4.
    + rewrite server_evaluate_hash_input_long by auto.
      done4.
Qed.

(** What the documentation promises and the code does not do: [blind] accepts
    inputs of every length (including empty and over-long ones), and
    [new_from_seed] accepts seeds of every length. *)
Theorem C27_blind_accepts_every_length :
  forall (CS : CipherSuite) (L : SuiteLaws CS) (input : bytes) (R : Rng) (st : rng_state R),
  sampling_ends (CSGroup CS) R st ->
  (exists r st', oprf_client_blind CS R input st = (Ok r, st')) /\
  (exists r st', voprf_client_blind CS R input st = (Ok r, st')) /\
  (exists r st', poprf_client_blind CS R input st = (Ok r, st')).
Proof.
  intros CS L input R st Hs. destruct (sampling_cases L R st Hs) as (r & st' & Hr & _).
  rewrite (oprf_blind_ok L), (voprf_blind_ok L), (poprf_blind_ok L), Hr.
  split; [|split]; do 2 eexists; reflexivity.
Qed.

Theorem C27_derive_limits :
  forall (CS : CipherSuite) (L : SuiteLaws CS) (seed info : bytes),
  (oprf_server_new_from_seed CS seed info = Err EDeriveKeyPair <-> 65535 < len info) /\
  (voprf_server_new_from_seed CS seed info = Err EDeriveKeyPair <-> 65535 < len info) /\
  (poprf_server_new_from_seed CS seed info = Err EDeriveKeyPair <-> 65535 < len info).
Proof.
  intros CS L seed info.
  unfold oprf_server_new_from_seed, voprf_server_new_from_seed, poprf_server_new_from_seed, derive_keypair.
  destruct (N.leb_spec (len info) 65535) as [H|H].
  - assert (forall mode, (exists sk, derive_key_internal CS seed info mode = Ok sk) \/
                         derive_key_internal CS seed info mode = Err EProtocol) as Hd.
    { intros mode. destruct (derive_key_internal_cases L seed info mode H) as [(sk & -> & _)|[-> _]]; eauto. }
    split; [|split];
      [destruct (Hd Oprf) as [[sk ->]| ->]|destruct (Hd Voprf) as [[sk ->]| ->]|destruct (Hd Poprf) as [[sk ->]| ->]];
      cbn; (split; [discriminate|lia]).
  - rewrite !(derive_key_internal_long L) by auto. cbn. tauto.
Qed.

(** The over-long and empty inputs and the over-long seed exist in a suite
    with all the laws, and sampling ends there. *)
Example C27_case :
  sampling_ends (CSGroup TS) CtrRng 17 /\
  (exists input : bytes, 65535 < len input) /\
  (exists seed info : bytes, 65532 < len seed + len info /\ len info <= 65535).
Proof.
  split; [unfold sampling_ends; vm_compute; discriminate|].
  split; [exists (repeat x00 (N.to_nat 65536))|exists (repeat x00 (N.to_nat 65536)), []];
    unfold len; rewrite ?repeat_length, ?N2Nat.id; cbn [length]; lia.
Qed.

(** ** C28 *)

(** RFC 9497 (sections 3.3.1, 3.3.2): an input that hashes to the identity is
    an InvalidInputError in Blind and in Evaluate.  The servers' [evaluate]
    does that; the clients' [blind] returns the identity as its message, and
    no server that decodes messages accepts it. *)
Theorem C28_identity_inputs :
  forall (CS : CipherSuite) (L : SuiteLaws CS) (input : bytes),
  let G := CSGroup CS in
  (H2G L modeOPRF input = identity_elem G ->
     (forall server, oprf_server_evaluate CS server input = Err EInput) /\
     forall R st, sampling_ends G R st ->
     exists r st', oprf_client_blind CS R input st = (Ok r, st') /\
       oprf_message r = mkBlinded (identity_elem G) /\
       blinded_deserialize CS (blinded_serialize CS (oprf_message r)) = Err EDeserialization) /\
  (H2G L modeVOPRF input = identity_elem G ->
     (forall server, voprf_server_evaluate CS server input = Err EInput) /\
     forall R st, sampling_ends G R st ->
     exists r st', voprf_client_blind CS R input st = (Ok r, st') /\
       voprf_message r = mkBlinded (identity_elem G) /\
       blinded_deserialize CS (blinded_serialize CS (voprf_message r)) = Err EDeserialization /\
       voprf_client_deserialize CS (voprf_client_serialize CS (voprf_state r)) = Err EDeserialization) /\
  (H2G L modePOPRF input = identity_elem G ->
     (forall server info, poprf_server_evaluate CS server input info = Err EInput) /\
     forall R st, sampling_ends G R st ->
     exists r st', poprf_client_blind CS R input st = (Ok r, st') /\
       poprf_message r = mkBlinded (identity_elem G) /\
       blinded_deserialize CS (blinded_serialize CS (poprf_message r)) = Err EDeserialization /\
       poprf_client_deserialize CS (poprf_client_serialize CS (poprf_state r)) = Err EDeserialization).
Proof.
  intros CS L input G. subst G.
  destruct (C23_zero_fields_rejected CS L) as (_ & Z2 & Z3 & _ & _ & _ & _ & Zb & _).
  split; [|split]; intros Hid; split.
  - intros server. destruct (C27_oprf_limits CS L input) as (_ & H). apply H. auto.
  - intros R st Hs. destruct (sampling_cases L R st Hs) as (r & st' & Hr & _).
    rewrite (oprf_blind_ok L), Hr. do 2 eexists. split; [reflexivity|]. cbn [oprf_message].
    rewrite Hid, (id_mul (group_laws L)). auto.
  - intros server. destruct (C27_voprf_limits CS L input) as (_ & H). apply H. auto.
  - intros R st Hs. destruct (sampling_cases L R st Hs) as (r & st' & Hr & _).
    rewrite (voprf_blind_ok L), Hr. do 2 eexists. split; [reflexivity|]. cbn [voprf_message voprf_state].
    rewrite Hid, (id_mul (group_laws L)). repeat split; auto; apply Z2; auto.
  - intros server info. destruct (C27_poprf_limits CS L input info) as (_ & H). apply H. auto.
  - intros R st Hs. destruct (sampling_cases L R st Hs) as (r & st' & Hr & _).
    rewrite (poprf_blind_ok L), Hr. do 2 eexists. split; [reflexivity|]. cbn [poprf_message poprf_state].
    rewrite Hid, (id_mul (group_laws L)). repeat split; auto; apply Z3; auto.
Qed.

(** Inputs that hash to the identity exist in a suite with all the laws. *)
Example C28_case :
  H2G TL modeOPRF [x87; x00] = identity_elem (CSGroup TS) /\
  H2G TL modeVOPRF [xf8; x00] = identity_elem (CSGroup TS) /\
  H2G TL modePOPRF [x6e; x00] = identity_elem (CSGroup TS).
Proof. split; [|split]; apply Fq_eq; vm_compute; reflexivity. Qed.
