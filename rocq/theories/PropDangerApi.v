(** * PropDangerApi: what a program compiled with the "danger" feature can
    rely on.

    Property C44. *)
From Verif Require Import Api Danger Spec OprfFacts VoprfFacts PoprfFacts Zq.
From Verif Require Import SerializationFacts PropCorrectness PropBatch PropSerialization PropErrors PropApi.
Open Scope N_scope.

(** ** C44: the functions *)

(** A raw element put into a message can be read back, and is what the other
    party computes with; the blinding factor of a client reproduces its
    message. *)
Theorem C44_values :
  forall (CS : CipherSuite) (R : Rng),
  (forall x, blinded_get_value CS (blinded_from_value_unchecked CS x) = x) /\
  (forall b, blinded_from_value_unchecked CS (blinded_get_value CS b) = b) /\
  (forall x, evaluation_get_value CS (evaluation_from_value_unchecked CS x) = x) /\
  (forall e, evaluation_from_value_unchecked CS (evaluation_get_value CS e) = e) /\
  (forall input st r st', oprf_client_blind CS R input st = (Ok r, st') ->
     oprf_client_deterministic_blind_unchecked CS input (oprf_client_get_blind CS (oprf_state r)) = Ok r).
Proof.
  intros CS R. repeat split; try (now intros []).
  intros input st r st' H. unfold oprf_client_blind, rbind, rret in H.
  destruct (random_scalar _ _ _) as [[b|e| |] s1]; try discriminate. injection H as H _.
  assert (E : oprf_client_get_blind CS (oprf_state r) = b); [|now rewrite E].
  revert H. unfold oprf_client_deterministic_blind_unchecked.
  destruct (deterministic_blind_unchecked _ _ _ _); cbn [bind]; try discriminate.
  intros H. injection H as <-. reflexivity.
Qed.

(** A deterministic blinding never fails, whatever the blinding factor; and
    with a factor that is not zero it is one that [blind] makes too, provided
    the random source can produce the factor. *)
Theorem C44_deterministic_blind :
  forall (CS : CipherSuite) (L : SuiteLaws CS) (R : Rng) (input : bytes) (blind : scalar CS),
  let message mode := elem_mul (CSGroup CS) (H2G L mode input) blind in
  oprf_client_deterministic_blind_unchecked CS input blind
    = Ok (mkOprfClientBlindResult (mkOprfClient blind) (mkBlinded (message modeOPRF))) /\
  voprf_client_deterministic_blind_unchecked CS input blind
    = Ok (mkVoprfClientBlindResult (mkVoprfClient blind (message modeVOPRF)) (mkBlinded (message modeVOPRF))) /\
  poprf_client_deterministic_blind_unchecked CS input blind
    = Ok (mkPoprfClientBlindResult (mkPoprfClient blind (message modePOPRF)) (mkBlinded (message modePOPRF))) /\
  (forall st st', random_scalar (CSGroup CS) R st = (Ok blind, st') ->
     oprf_client_blind CS R input st = (oprf_client_deterministic_blind_unchecked CS input blind, st') /\
     voprf_client_blind CS R input st = (voprf_client_deterministic_blind_unchecked CS input blind, st') /\
     poprf_client_blind CS R input st = (poprf_client_deterministic_blind_unchecked CS input blind, st')).
Proof.
  intros CS L R input blind message. subst message. cbv beta.
  rewrite (oprf_blind_unchecked_ok L), (voprf_blind_unchecked_ok L), (poprf_blind_unchecked_ok L).
  split; [reflexivity|]. split; [reflexivity|]. split; [reflexivity|].
  intros st st' H. rewrite (oprf_blind_ok L), (voprf_blind_ok L), (poprf_blind_ok L), H. auto.
Qed.

(** [derive_key] computes the private key that the server constructors
    compute, in each mode, with the same failures. *)
Definition keep_key {A B} (f : A -> B) (r : res A) : res B :=
  match r with Ok a => Ok (f a) | Err e => Err e | Panic => Panic | Diverge => Diverge end.

Theorem C44_derive_key :
  forall (CS : CipherSuite) (seed info : bytes),
  derive_key CS seed info Oprf = keep_key oprf_sk (oprf_server_new_from_seed CS seed info) /\
  derive_key CS seed info Voprf = keep_key voprf_sk (voprf_server_new_from_seed CS seed info) /\
  derive_key CS seed info Poprf = keep_key poprf_sk (poprf_server_new_from_seed CS seed info) /\
  forall mode, SuiteLaws CS ->
    (exists k, derive_key CS seed info mode = Ok k /\ k <> zero_scalar (CSGroup CS)) \/
    derive_key CS seed info mode = Err EDeriveKeyPair \/
    derive_key CS seed info mode = Err EProtocol.
Proof.
  intros CS seed info. unfold derive_key, oprf_server_new_from_seed, voprf_server_new_from_seed,
    poprf_server_new_from_seed, derive_keypair.
  split; [now destruct (derive_key_internal _ _ _ _)|].
  split; [now destruct (derive_key_internal _ _ _ _)|].
  split; [now destruct (derive_key_internal _ _ _ _)|].
  intros mode L. destruct (N.leb_spec (len info) 65535) as [H|H].
  - destruct (derive_key_internal_cases L seed info mode H) as [(sk & -> & (c & _ & _ & Hz & _))|[-> _]]; eauto.
  - rewrite (derive_key_internal_long L); auto.
Qed.

(** ** C44: histories *)

(** The clients a call unblinds with. *)
Definition finalizes {CS : CipherSuite} (c : dcall CS) (blind : scalar CS) : Prop :=
  match c with
  | DSafe _ (COprfFinalize _ cl _ _) => oprf_blind cl = blind
  | DSafe _ (CVoprfFinalize _ cl _ _ _ _) => voprf_blind cl = blind
  | DSafe _ (CPoprfFinalize _ cl _ _ _ _ _) => poprf_blind cl = blind
  | DSafe _ (CVoprfBatchFinalize _ _ cls _ _ _) => In blind (map voprf_blind cls)
  | DSafe _ (CPoprfBatchFinalize _ _ cls _ _ _ _) => In blind (map poprf_blind cls)
  | _ => False
  end.

(** With the "danger" functions, the secrets of servers are still not zero. *)
Definition server_sound {CS : CipherSuite} (o : obj CS) : Prop :=
  match o with
  | OOprfClient _ | OVoprfClient _ | OPoprfClient _ => True
  | _ => sound_obj o
  end.

Definition is_client {CS : CipherSuite} (o : obj CS) : Prop :=
  match o with OOprfClient _ | OVoprfClient _ | OPoprfClient _ => True | _ => False end.

Section Facts.
Context {CS : CipherSuite} (L : SuiteLaws CS) (R : Rng).
Local Notation G := (CSGroup CS).
Local Notation GL := (group_laws L).

Lemma sound_server_sound (o : obj CS) : sound_obj o -> server_sound o.
Proof. destruct o; cbn; auto. Qed.

Lemma zero_dec (l : list (scalar CS)) : In (zero_scalar G) l \/ Forall (fun b => b <> zero_scalar G) l.
Proof.
  induction l as [|b l [IH|IH]]; [right; constructor|left; now right|].
  destruct (scalar_eq_dec GL b (zero_scalar G)) as [->|H]; [left; now left|right; now constructor].
Qed.

Lemma no_clients (l : list (obj CS)) : Forall server_sound l -> (forall o, In o l -> ~ is_client o) -> Forall sound_obj l.
Proof.
  intros H Hc. apply Forall_forall. intros o Ho. rewrite Forall_forall in H. specialize (H o Ho). specialize (Hc o Ho).
  destruct o; cbn in *; auto; tauto.
Qed.

Lemma finalize_objects_one {A} (r : res A) (f : A -> bytes) x :
  In x (obtained CS (one CS (fun a => [OOutput (f a)]) r)) -> sound_obj x.
Proof. destruct r; cbn; intros H; try contradiction. destruct H as [<-|[]]. exact I. Qed.

Lemma finalize_objects_many (r : res (list (res bytes))) x :
  In x (obtained CS (many CS (@OOutput CS) r)) -> sound_obj x.
Proof.
  destruct r as [l| | |]; cbn; try contradiction. intros H. unfold obtained in H.
  apply in_flat_map in H as (y & Hy & Hx). apply in_map_iff in Hy as (z & <- & _).
  destruct z; cbn in Hx; try contradiction. destruct Hx as [<-|[]]. exact I.
Qed.

(** A call of the extended API is a zero-blind finalization, or the long
    batch, or fine. *)
Lemma dperform_cases (c : dcall CS) st rs st' :
  Forall server_sound (darguments CS c) ->
  dperform CS R c st = (rs, st') ->
  (finalizes c (zero_scalar G) /\ Forall sound_obj (obtained CS rs)) \/
  (exists c', c = DSafe CS c' /\ long_poprf_batch c') \/
  (Forall (fun r => match r with Ok o => server_sound o | Err _ => True | Panic => False
                    | Diverge => ~ sampling_ends G R st end) rs).
Proof.
  intros Ha Hp.
  assert (Hfine : forall c', c = DSafe CS c' -> Forall sound_obj (arguments CS c') ->
    (exists c', c = DSafe CS c' /\ long_poprf_batch c') \/
    (Forall (fun r => match r with Ok o => server_sound o | Err _ => True | Panic => False
                    | Diverge => ~ sampling_ends G R st end) rs)).
  { intros c' -> Hs. destruct (long_dec c') as [Hl|Hl]; [left; eauto|right].
    pose proof (perform_fine L R c' st rs st' Hs Hl Hp) as H.
    eapply Forall_impl; [|exact H]. intros [o|e| |]; cbn; auto. apply sound_server_sound. }
  destruct c as [c| | | | | | | | |];
    [| cbn [dperform] in Hp; unfold pure in Hp; injection Hp as <- <-; right; right ..].
  - cbn [darguments] in Ha.
    destruct c; try (right; apply (Hfine _ eq_refl); apply no_clients; [exact Ha|];
      intros o Ho; cbn [arguments] in Ho;
      repeat (first [apply in_app_iff in Ho; destruct Ho as [Ho|Ho] | destruct Ho as [<-|Ho]
                    | apply in_map_iff in Ho as (? & <- & _)]); first [exact (False_ind _ Ho) | now intros []]).
    + (* oprf finalize *)
      destruct (scalar_eq_dec GL (oprf_blind c) (zero_scalar G)) as [Hz|Hz].
      * left. split; [exact Hz|]. apply Forall_forall. intros x Hx. cbn [dperform perform] in Hp.
        unfold pure in Hp. injection Hp as <- <-. now apply finalize_objects_one in Hx.
      * right. apply (Hfine _ eq_refl). repeat constructor; auto.
    + destruct (scalar_eq_dec GL (voprf_blind c) (zero_scalar G)) as [Hz|Hz].
      * left. split; [exact Hz|]. apply Forall_forall. intros x Hx. cbn [dperform perform] in Hp.
        unfold pure in Hp. injection Hp as <- <-. now apply finalize_objects_one in Hx.
      * right. apply (Hfine _ eq_refl). repeat constructor; auto.
    + destruct (zero_dec (map voprf_blind cs)) as [Hz|Hz].
      * left. split; [exact Hz|]. apply Forall_forall. intros x Hx. cbn [dperform perform] in Hp.
        unfold pure in Hp. injection Hp as <- <-. now apply finalize_objects_many in Hx.
      * right. apply (Hfine _ eq_refl). cbn [arguments]. apply Forall_app. split.
        -- apply Forall_forall. intros o Ho. apply in_map_iff in Ho as (cl & <- & Hc).
           rewrite Forall_forall in Hz. apply Hz. now apply in_map.
        -- apply Forall_app. split; [|repeat constructor]. apply Forall_forall.
           intros o Ho. apply in_map_iff in Ho as (cl & <- & Hc). exact I.
    + destruct (scalar_eq_dec GL (poprf_blind c) (zero_scalar G)) as [Hz|Hz].
      * left. split; [exact Hz|]. apply Forall_forall. intros x Hx. cbn [dperform perform] in Hp.
        unfold pure in Hp. injection Hp as <- <-. now apply finalize_objects_one in Hx.
      * right. apply (Hfine _ eq_refl). repeat constructor; auto.
    + destruct (zero_dec (map poprf_blind cs)) as [Hz|Hz].
      * left. split; [exact Hz|]. apply Forall_forall. intros x Hx. cbn [dperform perform] in Hp.
        unfold pure in Hp. injection Hp as <- <-. now apply finalize_objects_many in Hx.
      * right. apply (Hfine _ eq_refl). cbn [arguments]. apply Forall_app. split.
        -- apply Forall_forall. intros o Ho. apply in_map_iff in Ho as (cl & <- & Hc).
           rewrite Forall_forall in Hz. apply Hz. now apply in_map.
        -- apply Forall_app. split; [|repeat constructor]. apply Forall_forall.
           intros o Ho. apply in_map_iff in Ho as (cl & <- & Hc). exact I.
    + (* serialize *) right. right. cbn [dperform perform] in Hp. unfold pure in Hp. injection Hp as <- <-.
      repeat constructor.
  - rewrite (oprf_blind_unchecked_ok L). repeat constructor.
  - rewrite (voprf_blind_unchecked_ok L). repeat constructor.
  - rewrite (poprf_blind_unchecked_ok L). repeat constructor.
  - repeat constructor.
  - repeat constructor.
  - repeat constructor.
  - repeat constructor.
  - repeat constructor.
  - pose proof (derive_sound L seed info mode) as H. unfold derive_key.
    destruct (derive_key_internal _ _ _ _); cbn; repeat constructor; contradiction.
Qed.

Lemma dreachable_sound st0 store st : dreachable CS R st0 store st -> Forall server_sound store.
Proof.
  induction 1 as [|store st c rs st' Hr IH Hi Hp]; [constructor|].
  apply Forall_app. split; auto.
  assert (Ha : Forall server_sound (darguments CS c)).
  { apply Forall_forall. intros o Ho. rewrite Forall_forall in IH. auto. }
  destruct (dperform_cases c st rs st' Ha Hp) as [[_ H]|[(c' & -> & (s & bs & i & -> & Hl))|H]].
  - eapply Forall_impl; [|exact H]. apply sound_server_sound.
  - apply (long_batch_results L) in Hp as [->|(e & ->)]; auto; repeat constructor.
  - apply Forall_forall. intros o Ho. unfold obtained in Ho. apply in_flat_map in Ho as (r & Hin & Ho).
    rewrite Forall_forall in H. apply H in Hin. destruct r; cbn in Ho; try contradiction.
    destruct Ho as [<-|[]]. exact Hin.
Qed.
End Facts.

(** In every history, with the "danger" functions called on any scalars and
    elements, a call panics only if it is [PoprfServer::batch_blind_evaluate]
    with more than 65535 elements, or finalizes a client whose blinding
    factor is zero.  (Whether the latter panics depends on the group: C37.) *)
Theorem C44_no_panic :
  forall (CS : CipherSuite) (L : SuiteLaws CS) (R : Rng) (st0 st st' : rng_state R)
         (store : list (obj CS)) (c : dcall CS) (rs : results CS),
  dreachable CS R st0 store st ->
  incl (darguments CS c) store ->
  dperform CS R c st = (rs, st') ->
  ~ finalizes c (zero_scalar (CSGroup CS)) ->
  (In Panic rs ->
     exists server blinded info,
       c = DSafe CS (CPoprfBatchBlindEvaluate CS server blinded info) /\ 65535 < len blinded) /\
  (In Diverge rs -> ~ sampling_ends (CSGroup CS) R st).
Proof.
  intros CS L R st0 st st' store c rs Hr Hi Hp Hz.
  assert (Ha : Forall server_sound (darguments CS c)).
  { apply Forall_forall. intros o Ho. pose proof (dreachable_sound L R st0 store st Hr) as H.
    rewrite Forall_forall in H. auto. }
  destruct (dperform_cases L R c st rs st' Ha Hp) as [[H _]|[(c' & -> & (s & bs & i & -> & Hl))|H]].
  - contradiction.
  - split; [intros _; exists s, bs, i; auto|].
    apply (long_batch_results L) in Hp as [->|(e & ->)]; auto; intros [H|[]]; discriminate.
  - rewrite Forall_forall in H. split; intros Hin; apply H in Hin; [destruct Hin|exact Hin].
Qed.

(** The danger functions do not make a zero key: whatever is done with them,
    the private key of every server and every prepared tweak obtained is not
    zero. *)
Theorem C44_server_secrets_nonzero :
  forall (CS : CipherSuite) (L : SuiteLaws CS) (R : Rng) (st0 st : rng_state R) (store : list (obj CS)),
  dreachable CS R st0 store st ->
  forall o, In o store ->
  match o with
  | OOprfServer s => oprf_sk s <> zero_scalar (CSGroup CS)
  | OVoprfServer s => voprf_sk s <> zero_scalar (CSGroup CS)
  | OPoprfServer s => poprf_sk s <> zero_scalar (CSGroup CS)
  | OTweak t => tweak_value t <> zero_scalar (CSGroup CS)
  | _ => True
  end.
Proof.
  intros CS L R st0 st store Hr o Ho. pose proof (dreachable_sound L R st0 store st Hr) as H.
  rewrite Forall_forall in H. specialize (H o Ho). destruct o; cbn in *; auto.
Qed.

(** A history that reaches a client with a zero blinding factor, and one with
    the factor 5: the exception in [C44_no_panic] can occur. *)
Example C44_case :
  exists store st c0 c5,
    dreachable TS CtrRng 17 store st /\
    In (OOprfClient c0) store /\ oprf_blind c0 = zero_scalar (CSGroup TS) /\
    In (OOprfClient c5) store /\ oprf_blind c5 = ex_scalar 5 /\
    oprf_blind c5 <> zero_scalar (CSGroup TS) /\
    In (OBlinded (mkBlinded (ex_elem 9))) store /\
    forall e, finalizes (DSafe TS (COprfFinalize TS c0 ex_input e)) (zero_scalar (CSGroup TS)) /\
              ~ finalizes (DSafe TS (COprfFinalize TS c5 ex_input e)) (zero_scalar (CSGroup TS)).
Proof.
  assert (Hne : ex_scalar 5 <> zero_scalar (CSGroup TS)) by (apply ex_neq; vm_compute; reflexivity).
  pose proof (dreach_start TS CtrRng 17) as R0.
  pose proof (dreach_call TS CtrRng 17 _ _ (DOprfBlind TS ex_input (zero_scalar (CSGroup TS))) _ _ R0
                (incl_nil_l _) eq_refl) as R1.
  rewrite (oprf_blind_unchecked_ok TL) in R1.
  pose proof (dreach_call TS CtrRng 17 _ _ (DOprfBlind TS ex_input (ex_scalar 5)) _ _ R1
                (incl_nil_l _) eq_refl) as R2.
  rewrite (oprf_blind_unchecked_ok TL) in R2.
  pose proof (dreach_call TS CtrRng 17 _ _ (DBlindedFrom TS (ex_elem 9)) _ _ R2
                (incl_nil_l _) eq_refl) as R3.
  eexists _, _, _, _. split; [exact R3|].
  split; [right; right; right; left; reflexivity|]. split; [reflexivity|].
  split; [right; left; reflexivity|]. split; [reflexivity|]. split; [exact Hne|].
  split; [left; reflexivity|]. intros e. split; [reflexivity|exact Hne].
Qed.
