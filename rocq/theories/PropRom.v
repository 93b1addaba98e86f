(** * PropRom: forged proofs in the random oracle model (C52, C53).

    The hash to scalar is any function; the server is any program that queries
    it a bounded number of times.  The theorems bound the fraction of the
    functions for which the client outputs a wrong value. *)
From Verif Require Import Oprf Voprf Poprf Spec OprfFacts VoprfFacts PoprfFacts GroupFacts Zq.
From Verif Require Import PropCorrectness PropBatch PropEncoding PropSoundness PropSimulation Reprogram Oracle RomFacts.
From Coq Require Import Lia.
Open Scope N_scope.

(** [scalars] lists all scalars, each once. *)
Definition enumerates {T} (l : list T) : Prop := NoDup l /\ forall x, In x l.

(** ** The games *)

(** A client state, used with the suite whose hash to scalar is [O]. *)
Definition voprf_with {CS} (O : oracle (scalar CS)) (c : VoprfClient CS) : VoprfClient (with_oracle CS O) :=
  mkVoprfClient (CS := with_oracle CS O) (voprf_blind c) (voprf_blinded_element c).
Definition poprf_with {CS} (O : oracle (scalar CS)) (c : PoprfClient CS) : PoprfClient (with_oracle CS O) :=
  mkPoprfClient (CS := with_oracle CS O) (poprf_blind c) (poprf_blinded_element c).

(** The server queries the hash and replies with a key, an evaluation element
    and a proof (c, s); it wins if the client outputs anything but the PRF
    value under that key. *)
Definition voprf_forges {CS} (L : SuiteLaws CS) (client : VoprfClient CS) (input : bytes)
    (server : program (scalar CS) (scalar CS * elem CS * (scalar CS * scalar CS))) (O : oracle (scalar CS)) : bool :=
  let CS' := with_oracle CS O in
  let G := CSGroup CS in
  let '(k, reply, (c, s)) := run O server in
  match voprf_client_finalize CS' (voprf_with O client) input (mkEvaluation (CS := CS') reply)
          (mkProof (CS := CS') c s) (elem_mul G (base_elem G) k) with
  | Ok out => negb (bytes_eqb out (PRF L modeVOPRF k input))
  | _ => false
  end.

(** Here the server chooses the public info as well. *)
Definition poprf_forges {CS} (L : SuiteLaws CS) (client : PoprfClient CS) (input : bytes)
    (server : program (scalar CS) (scalar CS * option bytes * elem CS * (scalar CS * scalar CS)))
    (O : oracle (scalar CS)) : bool :=
  let CS' := with_oracle CS O in
  let G := CSGroup CS in
  let '(k, info, reply, (c, s)) := run O server in
  let i := match info with Some i => i | None => [] end in
  match poprf_client_finalize CS' (poprf_with O client) input (mkEvaluation (CS := CS') reply)
          (mkProof (CS := CS') c s) (elem_mul G (base_elem G) k) info with
  | Ok out => negb (bytes_eqb out (POPRF (CS := CS') (oracle_laws L O) k input i))
  | _ => false
  end.

(** Batches: the key is fixed; the server wins if some output is wrong. *)
Definition some_wrong (right : bytes -> bytes) (inputs : list bytes) (outs : list (res bytes)) : bool :=
  existsb (fun io : bytes * res bytes =>
    match snd io with Ok out => negb (bytes_eqb out (right (fst io))) | _ => false end) (combine inputs outs).

Definition voprf_batch_forges {CS} (L : SuiteLaws CS) (k : scalar CS) (clients : list (VoprfClient CS)) (inputs : list bytes)
    (server : program (scalar CS) (list (elem CS) * (scalar CS * scalar CS))) (O : oracle (scalar CS)) : bool :=
  let CS' := with_oracle CS O in
  let G := CSGroup CS in
  let '(replies, (c, s)) := run O server in
  match voprf_client_batch_finalize CS' inputs (map (voprf_with O) clients) (map (mkEvaluation (CS := CS')) replies)
          (mkProof (CS := CS') c s) (elem_mul G (base_elem G) k) with
  | Ok outs => some_wrong (PRF L modeVOPRF k) inputs outs
  | _ => false
  end.

Definition poprf_batch_forges {CS} (L : SuiteLaws CS) (k : scalar CS) (info : option bytes) (clients : list (PoprfClient CS))
    (inputs : list bytes) (server : program (scalar CS) (list (elem CS) * (scalar CS * scalar CS)))
    (O : oracle (scalar CS)) : bool :=
  let CS' := with_oracle CS O in
  let G := CSGroup CS in
  let i := match info with Some i => i | None => [] end in
  let '(replies, (c, s)) := run O server in
  match poprf_client_batch_finalize CS' inputs (map (poprf_with O) clients) (map (mkEvaluation (CS := CS')) replies)
          (mkProof (CS := CS') c s) (elem_mul G (base_elem G) k) info with
  | Ok outs => some_wrong (fun input => POPRF (CS := CS') (oracle_laws L O) k input i) inputs outs
  | _ => false
  end.

(** ** Sessions of the suite and of the suite with an oracle *)
Section With.
Context {CS : CipherSuite} (L : SuiteLaws CS) (O : oracle (scalar CS)).
Local Notation CS' := (with_oracle CS O).

Definition vsession_with (r : VoprfClientBlindResult CS) : VoprfClientBlindResult CS' :=
  mkVoprfClientBlindResult (CS := CS') (voprf_with O (voprf_state r)) (mkBlinded (CS := CS') (blinded_value (voprf_message r))).
Definition psession_with (r : PoprfClientBlindResult CS) : PoprfClientBlindResult CS' :=
  mkPoprfClientBlindResult (CS := CS') (poprf_with O (poprf_state r)) (mkBlinded (CS := CS') (blinded_value (poprf_message r))).

Lemma voprf_blinded_with input r : voprf_blinded CS input r -> voprf_blinded CS' input (vsession_with r).
Proof.
  intros (R & st & st' & H). exists R, st, st'.
  unfold voprf_client_blind, voprf_client_deterministic_blind_unchecked, rbind, rret in *.
  change (random_scalar (CSGroup CS') R st) with (random_scalar (CSGroup CS) R st).
  destruct (random_scalar (CSGroup CS) R st) as [[b| | |] st1]; try discriminate H.
  injection H as H <-. f_equal.
  unfold deterministic_blind_unchecked, hash_to_group in *.
  change (dst_new CS' STR_HASH_TO_GROUP Voprf) with (dst_new CS STR_HASH_TO_GROUP Voprf).
  destruct (dst_new CS STR_HASH_TO_GROUP Voprf) as [d| | |]; try discriminate H. cbn [bind] in *.
  change (hash_to_curve (CSGroup CS') (CSHash CS') [input] (as_dst d))
    with (hash_to_curve (CSGroup CS) (CSHash CS) [input] (as_dst d)).
  destruct (hash_to_curve (CSGroup CS) (CSHash CS) [input] (as_dst d)) as [P| | |]; try discriminate H.
  cbn in *. injection H as <-. reflexivity.
Qed.
Lemma poprf_blinded_with input r : poprf_blinded CS input r -> poprf_blinded CS' input (psession_with r).
Proof.
  intros (R & st & st' & H). exists R, st, st'.
  unfold poprf_client_blind, poprf_client_deterministic_blind_unchecked, rbind, rret in *.
  change (random_scalar (CSGroup CS') R st) with (random_scalar (CSGroup CS) R st).
  destruct (random_scalar (CSGroup CS) R st) as [[b| | |] st1]; try discriminate H.
  injection H as H <-. f_equal.
  unfold deterministic_blind_unchecked, hash_to_group in *.
  change (dst_new CS' STR_HASH_TO_GROUP Poprf) with (dst_new CS STR_HASH_TO_GROUP Poprf).
  destruct (dst_new CS STR_HASH_TO_GROUP Poprf) as [d| | |]; try discriminate H. cbn [bind] in *.
  change (hash_to_curve (CSGroup CS') (CSHash CS') [input] (as_dst d))
    with (hash_to_curve (CSGroup CS) (CSHash CS) [input] (as_dst d)).
  destruct (hash_to_curve (CSGroup CS) (CSHash CS) [input] (as_dst d)) as [P| | |]; try discriminate H.
  cbn in *. injection H as <-. reflexivity.
Qed.

Lemma some_wrong_not (right : bytes -> bytes) (f : bytes -> res bytes) inputs :
  (forall i o, f i = Ok o -> o = right i) -> some_wrong right inputs (map f inputs) = false.
Proof.
  intros H. unfold some_wrong. induction inputs as [|i inputs IH]; simpl; auto. rewrite IH, Bool.orb_false_r.
  destruct (f i) as [o| | |] eqn:E; auto. apply H in E as ->. now rewrite bytes_eqb_refl.
Qed.

Lemma voprf_wrong_inv k inputs (sessions : list (VoprfClientBlindResult CS)) (replies : list (elem CS)) c s outs :
  let G := CSGroup CS in
  let C := map (fun r => blinded_value (voprf_message r)) sessions in
  Forall2 (voprf_blinded CS) inputs sessions ->
  voprf_client_batch_finalize CS' inputs (map (voprf_with O) (map voprf_state sessions)) (map (mkEvaluation (CS := CS')) replies)
    (mkProof (CS := CS') c s) (elem_mul G (base_elem G) k) = Ok outs ->
  some_wrong (PRF L modeVOPRF k) inputs outs = true ->
  length C = length replies /\ len C <= 65535 /\
  VerifyProof (CS := CS') (oracle_laws L O) modeVOPRF (base_elem G) (elem_mul G (base_elem G) k) C replies c s /\
  ~ Forall2 (fun C D => D = elem_mul G C k) C replies.
Proof.
  intros G C Hs Hfin Hwrong.
  set (messages := map (mkEvaluation (CS := CS')) replies) in *.
  assert (Hs' : Forall2 (voprf_blinded CS') inputs (map vsession_with sessions)).
  { clear - Hs. induction Hs; constructor; auto. now apply voprf_blinded_with. }
  assert (Est : map (voprf_with O) (map voprf_state sessions) = map voprf_state (map vsession_with sessions)).
  { rewrite !map_map. reflexivity. }
  rewrite Est in Hfin.
  assert (Em : map evaluation_value messages = replies).
  { unfold messages. rewrite map_map. cbn. apply map_id. }
  assert (EC : map voprf_blinded_element (map voprf_state (map vsession_with sessions)) = C).
  { rewrite <- Est, !map_map. unfold C. cbn.
    clear - Hs L. induction Hs as [|i r inputs sessions Hr Hs IH]; simpl; auto. f_equal; [|exact IH].
    destruct (voprf_blinded_inv L i r Hr) as (b & _ & ->). reflexivity. }
  pose proof (voprf_accept_inv _ _ _ _ _ _ Hfin) as Hvp. rewrite Em in Hvp.
  destruct (verify_ok_inv (oracle_laws L O) _ _ _ _ _ _ Hvp) as (Hl & Hb & HV). rewrite EC in Hl, Hb, HV.
  split; [exact Hl|]. split; [exact Hb|]. split; [exact HV|]. intros HF.
  pose proof (voprf_right_outputs (oracle_laws L O) k inputs (map vsession_with sessions) messages (mkProof (CS := CS') c s) (elem_mul G (base_elem G) k) outs Hs') as Hr.
  assert (EC' : map (fun r => blinded_value (voprf_message r)) (map vsession_with sessions) = C).
  { unfold C. rewrite map_map. reflexivity. }
  assert (HF' : Forall2 (fun c d : elem CS => d = elem_mul G c k)
     (map (fun r => blinded_value (voprf_message r)) (map vsession_with sessions)) (map evaluation_value messages)).
  { rewrite EC', Em. exact HF. }
  pose proof (Hr HF' Hfin) as Ho. clear Hr. rewrite Ho in Hwrong.
  rewrite some_wrong_not in Hwrong; [discriminate|].
  intros i o. unfold prf_result. destruct (len i <=? 65535); [|discriminate]. intros E. injection E as <-. reflexivity.
Qed.

Lemma poprf_wrong_inv k info inputs (sessions : list (PoprfClientBlindResult CS)) (replies : list (elem CS)) c s outs :
  let G := CSGroup CS in
  let i := match info with Some i => i | None => [] end in
  let t := tweaked_scalar (CS := CS') (oracle_laws L O) k i in
  let D := map (fun r => blinded_value (poprf_message r)) sessions in
  Forall2 (poprf_blinded CS) inputs sessions ->
  poprf_client_batch_finalize CS' inputs (map (poprf_with O) (map poprf_state sessions)) (map (mkEvaluation (CS := CS')) replies)
    (mkProof (CS := CS') c s) (elem_mul G (base_elem G) k) info = Ok outs ->
  some_wrong (fun input => POPRF (CS := CS') (oracle_laws L O) k input i) inputs outs = true ->
  length replies = length D /\ len D <= 65535 /\
  VerifyProof (CS := CS') (oracle_laws L O) modePOPRF (base_elem G) (elem_mul G (base_elem G) t) replies D c s /\
  ~ Forall2 (fun C D => D = elem_mul G C t) replies D.
Proof.
  intros G i t D Hs Hfin Hwrong.
  set (messages := map (mkEvaluation (CS := CS')) replies) in *.
  assert (Hs' : Forall2 (poprf_blinded CS') inputs (map psession_with sessions)).
  { clear - Hs. induction Hs; constructor; auto. now apply poprf_blinded_with. }
  assert (Est : map (poprf_with O) (map poprf_state sessions) = map poprf_state (map psession_with sessions)).
  { rewrite !map_map. reflexivity. }
  rewrite Est in Hfin.
  assert (Em : map evaluation_value messages = replies).
  { unfold messages. rewrite map_map. cbn. apply map_id. }
  assert (ED : map poprf_blinded_element (map poprf_state (map psession_with sessions)) = D).
  { rewrite <- Est, !map_map. unfold D. cbn.
    clear - Hs L. induction Hs as [|j r inputs sessions Hr Hs IH]; simpl; auto. f_equal; [|exact IH].
    destruct (poprf_blinded_inv L j r Hr) as (b & _ & ->). reflexivity. }
  destruct (poprf_accept_inv (oracle_laws L O) _ _ _ _ _ _ _ Hfin) as (Hi & Htk & Hvp & _).
  change (info_or_default info) with i in *. rewrite Em in Hvp.
  assert (Hte : tweaked_element (CS := CS') (oracle_laws L O) (elem_mul G (base_elem G) k) i = elem_mul G (base_elem G) t)
    by apply (tweaked_element_gen (oracle_laws L O)).
  assert (Ht : t <> zero_scalar G).
  { intros E. apply Htk. refine (eq_trans Hte _). rewrite E. apply (elem_mul_zero G (group_laws L)). }
  rewrite Hte in Hvp.
  destruct (verify_ok_inv (oracle_laws L O) _ _ _ _ _ _ Hvp) as (Hl & Hb & HV). rewrite ED in Hl, HV.
  split; [exact Hl|]. split; [exact (eq_ind _ (fun n => N.of_nat n <= 65535) Hb _ Hl)|]. split; [exact HV|]. intros HF.
  pose proof (poprf_right_outputs (oracle_laws L O) k info inputs (map psession_with sessions) messages (mkProof (CS := CS') c s) (elem_mul G (base_elem G) k) outs Hs' Ht) as Hr.
  assert (ED' : map (fun r => blinded_value (poprf_message r)) (map psession_with sessions) = D).
  { unfold D. rewrite map_map. reflexivity. }
  assert (HF' : Forall2 (fun c d : elem CS => d = elem_mul G c t) (map evaluation_value messages)
     (map (fun r => blinded_value (poprf_message r)) (map psession_with sessions))).
  { rewrite ED', Em. exact HF. }
  pose proof (Hr HF' Hfin) as Ho. clear Hr. fold i in Ho. rewrite Ho in Hwrong.
  rewrite some_wrong_not in Hwrong; [discriminate|].
  intros j o. unfold poprf_result. destruct (len j <=? 65535); [|discriminate]. intros E. injection E as <-. reflexivity.
Qed.
End With.

(** ** C52: one item *)

(** A server that queries the hash at most [Q] times, and chooses its key and
    its reply by the answers, makes the client output a wrong value for at most
    Q + 2 in q of the hash functions, q the number of scalars. *)
Theorem C52_voprf_forgery :
  forall (CS : CipherSuite) (L : SuiteLaws CS) (scalars : list (scalar CS)), enumerates scalars ->
  forall (R : Rng) (st st' : rng_state R) (input : bytes) (client : VoprfClient CS) (message : BlindedElement CS),
  voprf_client_blind CS R input st = (Ok (mkVoprfClientBlindResult client message), st') ->
  forall (Q : nat) (server : program (scalar CS) (scalar CS * elem CS * (scalar CS * scalar CS))),
  at_most Q server ->
  chance_at_most scalars (Q + 2) (voprf_forges L client input server).
Proof.
  intros CS L scalars [Hnd Hall] R st st' input client message Hb Q server HQ.
  replace (Q + 2)%nat with ((Q + 2) * 1)%nat by lia.
  set (G := CSGroup CS).
  set (T := andthen server (fun out => let '(k, reply, (c, s)) := out in
     verifier (CS := CS) modeVOPRF (elem_mul G (base_elem G) k) [blinded_value message] [reply] c s)).
  apply (chance_of_hits scalars (scalar_eq_dec (group_laws L)) (bad_single modeVOPRF scalars) (Q + 2) 1 _ T); auto.
  { intros h x _. apply bad_single_length. }
  { unfold T. apply at_most_andthen; auto. intros [[k reply] [c s]]. apply (verifier_at_most modeVOPRF _ _ _ _ _ 1). reflexivity. }
  intros O Hw. unfold voprf_forges in Hw. unfold T. rewrite hits_continue.
  destruct (run O server) as [[k reply] [c s]].
  destruct (voprf_client_finalize _ _ _ _ _ _) as [out| | |] eqn:Hf; try discriminate Hw.
  destruct (C09_single_is_batch_of_one (with_oracle CS O) (oracle_laws L O)) as (_ & _ & _ & H9 & _). apply H9 in Hf.
  destruct (voprf_wrong_inv L O k [input] [mkVoprfClientBlindResult client message] [reply] c s [Ok out]) as (_ & _ & HV & Hn).
  - constructor; [|constructor]. now exists R, st, st'.
  - exact Hf.
  - unfold some_wrong. simpl. now rewrite Bool.orb_false_r.
  - apply (forgery_hits_single L modeVOPRF scalars Hall O server k (blinded_value message) reply c s HV).
    intros E. apply Hn. constructor; [exact E|constructor].
Qed.

(** The info query of the client. *)
Definition info_query (CS : CipherSuite) (i : bytes) : bytes * bytes := (str "Info" ++ lv i, h2s_tag CS modePOPRF).

Theorem C52_poprf_forgery :
  forall (CS : CipherSuite) (L : SuiteLaws CS) (scalars : list (scalar CS)), enumerates scalars ->
  forall (R : Rng) (st st' : rng_state R) (input : bytes) (client : PoprfClient CS) (message : BlindedElement CS),
  poprf_client_blind CS R input st = (Ok (mkPoprfClientBlindResult client message), st') ->
  forall (Q : nat) (server : program (scalar CS) (scalar CS * option bytes * elem CS * (scalar CS * scalar CS))),
  at_most Q server ->
  chance_at_most scalars (Q + 3) (poprf_forges L client input server).
Proof.
  intros CS L scalars [Hnd Hall] R st st' input client message Hb Q server HQ.
  replace (Q + 3)%nat with ((Q + 3) * 1)%nat by lia.
  set (G := CSGroup CS).
  set (T := andthen (andthen server (fun out => let '(k, info, reply, (c, s)) := out in
       let i := match info with Some i => i | None => [] end in
       Ask (fst (info_query CS i)) (snd (info_query CS i)) (fun m => Done (scalar_add G k m, reply, (c, s)))))
     (fun out => let '(t, reply, (c, s)) := out in
     verifier (CS := CS) modePOPRF (elem_mul G (base_elem G) t) [reply] [blinded_value message] c s)).
  apply (chance_of_hits scalars (scalar_eq_dec (group_laws L)) (bad_single modePOPRF scalars) (Q + 3) 1 _ T); auto.
  { intros h x _. apply bad_single_length. }
  { unfold T. replace (Q + 3)%nat with ((Q + 1) + 2)%nat by lia. apply at_most_andthen.
    - apply at_most_andthen; auto. intros [[[k info] reply] [c s]]. simpl. auto.
    - intros [[t reply] [c s]]. apply (verifier_at_most modePOPRF _ _ _ _ _ 1). reflexivity. }
  intros O Hw. unfold poprf_forges in Hw. unfold T. rewrite hits_continue, run_andthen.
  destruct (run O server) as [[[k info] reply] [c s]]. cbn [run].
  set (i := match info with Some i => i | None => [] end) in *.
  destruct (poprf_client_finalize _ _ _ _ _ _ _) as [out| | |] eqn:Hf; try discriminate Hw.
  destruct (C09_single_is_batch_of_one (with_oracle CS O) (oracle_laws L O)) as (_ & _ & _ & _ & _ & H9 & _). apply H9 in Hf.
  destruct (poprf_wrong_inv L O k info [input] [mkPoprfClientBlindResult client message] [reply] c s [Ok out]) as (_ & _ & HV & Hn).
  - constructor; [|constructor]. now exists R, st, st'.
  - exact Hf.
  - unfold some_wrong. simpl. now rewrite Bool.orb_false_r.
  - refine (forgery_hits_single L modePOPRF scalars Hall O _ _ reply (blinded_value message) c s HV _).
    intros E. apply Hn. constructor; [exact E|constructor].
Qed.

(** ** C53: batches *)

Lemma chance_never {T} (scalars : list T) num wins : (forall O, wins O = false) -> chance_at_most scalars num wins.
Proof.
  intros H. exists []. intros points O _ _ all.
  assert (E : count wins all = 0%nat).
  { unfold count. induction all as [|O' all IH]; simpl; auto. now rewrite H. }
  rewrite E. simpl. lia.
Qed.
Lemma pow_pred N n : (1 <= n)%nat -> (N ^ n = N * N ^ (n - 1))%nat.
Proof. intros H. destruct n as [|n]; [lia|]. rewrite Nat.pow_succ_r'. do 2 f_equal. lia. Qed.

(** The key is fixed before the game.  A server that queries the hash at most
    [Q] times makes some output of a batch of n items wrong for at most
    (Q + n + 1)^n in q of the hash functions. *)
Theorem C53_voprf_batch_forgery :
  forall (CS : CipherSuite) (L : SuiteLaws CS) (scalars : list (scalar CS)), enumerates scalars ->
  forall (k : scalar CS) (inputs : list bytes) (sessions : list (VoprfClientBlindResult CS)),
  Forall2 (voprf_blinded CS) inputs sessions ->
  forall (Q : nat) (server : program (scalar CS) (list (elem CS) * (scalar CS * scalar CS))),
  at_most Q server ->
  let n := length inputs in
  chance_at_most scalars ((Q + n + 1) ^ n) (voprf_batch_forges L k (map voprf_state sessions) inputs server).
Proof.
  intros CS L scalars [Hnd Hall] k inputs sessions Hs Q server HQ n.
  assert (Hls : length sessions = n) by (unfold n; clear - Hs; induction Hs; simpl; auto).
  set (G := CSGroup CS).
  set (C := map (fun r => blinded_value (voprf_message r)) sessions).
  assert (HC : length C = n) by (unfold C; now rewrite map_length).
  assert (Hinv : forall O, voprf_batch_forges L k (map voprf_state sessions) inputs server O = true ->
    exists replies c s, run O server = (replies, (c, s)) /\
    length C = length replies /\ len C <= 65535 /\
    VerifyProof (CS := with_oracle CS O) (oracle_laws L O) modeVOPRF (base_elem G) (elem_mul G (base_elem G) k) C replies c s /\
    ~ Forall2 (fun C D => D = elem_mul G C k) C replies).
  { intros O Hw. unfold voprf_batch_forges in Hw. destruct (run O server) as [replies [c s]].
    destruct (voprf_client_batch_finalize _ _ _ _ _ _) as [outs| | |] eqn:Hf; try discriminate Hw.
    exists replies, c, s. split; [reflexivity|].
    exact (voprf_wrong_inv L O k inputs sessions replies c s outs Hs Hf Hw). }
  destruct (Nat.eq_dec n 0) as [Hz|Hz].
  { apply chance_never. intros O. destruct (voprf_batch_forges _ _ _ _ _ O) eqn:Hw; auto. exfalso.
    specialize (Hinv O Hw). destruct Hinv as (replies & c & s & Er & Hl & _ & _ & Hn).
    apply Hn. rewrite HC, Hz in Hl. destruct C; [|simpl in HC; lia]. destruct replies; [constructor|discriminate]. }
  destruct (N.leb_spec (N.of_nat n) 65535) as [Hb|Hb].
  2:{ apply chance_never. intros O. destruct (voprf_batch_forges _ _ _ _ _ O) eqn:Hw; auto. exfalso.
    specialize (Hinv O Hw). destruct Hinv as (replies & c & s & Er & _ & Hl & _ & _).
    unfold len in Hl. lia. }
  rewrite pow_pred by lia.
  set (T := andthen server (fun out => let '(replies, (c, s)) := out in
     verifier (CS := CS) modeVOPRF (elem_mul G (base_elem G) k) C replies c s)).
  apply (chance_of_hits scalars (scalar_eq_dec (group_laws L)) (bad_batch L modeVOPRF scalars k n) (Q + n + 1) _ _ T); auto.
  { intros h x Hh. now apply bad_batch_length. }
  { unfold T. rewrite <- Nat.add_assoc. apply at_most_andthen; auto. intros [replies [c s]]. now apply verifier_at_most. }
  intros O Hw. specialize (Hinv O Hw). unfold T. rewrite hits_continue.
  destruct Hinv as (replies & c & s & Er & Hl & _ & HV & Hn). rewrite Er.
  apply (forgery_hits L modeVOPRF scalars Hall k n Hb O server C replies c s); auto. congruence.
Qed.

(** The info query is none of the verifier's. *)
Lemma info_not_bad {CS} (L : SuiteLaws CS) scalars t n h i :
  elem_len (CSGroup CS) < 256 -> bad_batch L modePOPRF scalars t n h (info_query CS i) = [].
Proof.
  intros He. unfold bad_batch.
  assert (E : error_in L modePOPRF scalars t n (info_query CS i) = None).
  { unfold error_in. destruct (find _ _) as [[j [P Q]]|] eqn:E; auto. exfalso.
    apply find_some in E as [_ E]. unfold is_composite in E. apply point_eqb_spec in E.
    apply (f_equal fst) in E. unfold info_query in E. cbn [fst] in E. unfold composite_string in E.
    set (sd := proof_seed _ _) in E.
    assert (Hsd : N.of_nat (length sd) < 256).
    { unfold sd, proof_seed. pose proof (digest_len _ L) as Hd. unfold len in Hd. rewrite Hd. apply (output_size_bound _ L). }
    clearbody sd. unfold lv at 1 in E.
    assert (Hx : exists y, I2OSP (N.of_nat (length sd)) 2 = [x00; y]).
    { simpl. eexists. rewrite N.div_small by auto. reflexivity. }
    destruct Hx as [y Hy]. rewrite Hy in E. discriminate E. }
  rewrite E. unfold bad_challenge.
  destruct (find _ _) as [[B [M [Z [t2 t3]]]]|] eqn:Ef; auto. exfalso.
  apply find_some in Ef as [_ Ef]. unfold is_challenge in Ef. apply point_eqb_spec in Ef.
  apply (f_equal fst) in Ef. unfold info_query in Ef. cbn [fst] in Ef. symmetry in Ef.
  exact (not_info L B M Z t2 t3 i He Ef).
Qed.

Lemma verifier_at_most' {CS} mode B (C D : list (elem CS)) c s n : length D = n -> at_most (n + 1) (verifier (CS := CS) mode B C D c s).
Proof.
  intros <-. unfold verifier. apply (at_most_mono (length (combine C D) + 1)).
  - rewrite combine_length. lia.
  - apply ask_weights_at_most. intros ws. simpl. auto.
Qed.

(** POPRF: the key and the public info are fixed before the game.  The
    elements of the built-in suites are at most 67 bytes long. *)
Theorem C53_poprf_batch_forgery :
  forall (CS : CipherSuite) (L : SuiteLaws CS) (scalars : list (scalar CS)), enumerates scalars ->
  elem_len (CSGroup CS) < 256 ->
  forall (k : scalar CS) (info : option bytes) (inputs : list bytes) (sessions : list (PoprfClientBlindResult CS)),
  Forall2 (poprf_blinded CS) inputs sessions ->
  forall (Q : nat) (server : program (scalar CS) (list (elem CS) * (scalar CS * scalar CS))),
  at_most Q server ->
  let n := length inputs in
  chance_at_most scalars ((Q + n + 1) ^ n) (poprf_batch_forges L k info (map poprf_state sessions) inputs server).
Proof.
  intros CS L scalars [Hnd Hall] He k info inputs sessions Hs Q server HQ n.
  assert (Hls : length sessions = n) by (unfold n; clear - Hs; induction Hs; simpl; auto).
  set (G := CSGroup CS).
  set (i := match info with Some i => i | None => [] end).
  set (C := map (fun r => blinded_value (poprf_message r)) sessions).
  assert (HC : length C = n) by (unfold C; now rewrite map_length).
  set (x0 := info_query CS i).
  assert (Hinv : forall O, poprf_batch_forges L k info (map poprf_state sessions) inputs server O = true ->
    exists replies c s, let t := scalar_add G k (O (fst x0) (snd x0)) in
    run O server = (replies, (c, s)) /\
    length replies = length C /\ len C <= 65535 /\
    VerifyProof (CS := with_oracle CS O) (oracle_laws L O) modePOPRF (base_elem G) (elem_mul G (base_elem G) t) replies C c s /\
    ~ Forall2 (fun C D => D = elem_mul G C t) replies C).
  { intros O Hw. unfold poprf_batch_forges in Hw. destruct (run O server) as [replies [c s]].
    destruct (poprf_client_batch_finalize _ _ _ _ _ _ _) as [outs| | |] eqn:Hf; try discriminate Hw.
    exists replies, c, s. split; [reflexivity|].
    exact (poprf_wrong_inv L O k info inputs sessions replies c s outs Hs Hf Hw). }
  destruct (Nat.eq_dec n 0) as [Hz|Hz].
  { apply chance_never. intros O. destruct (poprf_batch_forges _ _ _ _ _ _ O) eqn:Hw; auto. exfalso.
    specialize (Hinv O Hw). destruct Hinv as (replies & c & s & Er & Hl & _ & _ & Hn).
    apply Hn. rewrite HC, Hz in Hl. destruct C; [|simpl in HC; lia]. destruct replies; [constructor|discriminate]. }
  destruct (N.leb_spec (N.of_nat n) 65535) as [Hb|Hb].
  2:{ apply chance_never. intros O. destruct (poprf_batch_forges _ _ _ _ _ _ O) eqn:Hw; auto. exfalso.
    specialize (Hinv O Hw). destruct Hinv as (replies & c & s & Er & _ & Hl & _ & _).
    unfold len in Hl. lia. }
  rewrite pow_pred by lia.
  set (T := fun m => andthen server (fun out => let '(replies, (c, s)) := out in
     verifier (CS := CS) modePOPRF (elem_mul G (base_elem G) (scalar_add G k m)) replies C c s)).
  apply (chance_given scalars (scalar_eq_dec (group_laws L)) x0
           (fun m => bad_batch L modePOPRF scalars (scalar_add G k m) n) (Q + n + 1) _ _ T); auto.
  { intros m h x Hh. now apply bad_batch_length. }
  { intros m h. now apply info_not_bad. }
  { intros m. unfold T. rewrite <- Nat.add_assoc. apply at_most_andthen; auto. intros [replies [c s]]. now apply verifier_at_most'. }
  intros O Hw. specialize (Hinv O Hw). unfold T. rewrite hits_continue.
  destruct Hinv as (replies & c & s & Er & Hl & _ & HV & Hn). rewrite Er.
  apply (forgery_hits L modePOPRF scalars Hall _ n Hb O server replies C c s); auto. congruence.
Qed.

(** The weight of an item depends on the key and on this item only, not on
    the rest of the batch (as in RFC 9497).  So errors that the weights cancel
    are accepted, and the server can look for such errors item by item: this
    is why the bound of C53 is a power of the number of queries. *)
Fixpoint dot {CS} (ws es : list (scalar CS)) : scalar CS :=
  let G := CSGroup CS in
  match ws, es with
  | w :: ws, e :: es => scalar_add G (scalar_mul G w e) (dot ws es)
  | _, _ => zero_scalar G
  end.

(** What the server replies to the messages [C] with errors: k*C_j + e_j*P,
    for an element P of its choice. *)
Definition with_errors {CS} (k : scalar CS) (P : elem CS) (C : list (elem CS)) (es : list (scalar CS)) : list (elem CS) :=
  let G := CSGroup CS in
  map (fun ce : elem CS * scalar CS => elem_add G (elem_mul G (fst ce) k) (elem_mul G P (snd ce))) (combine C es).

Section Cancel.
Context {CS : CipherSuite} (L : SuiteLaws CS).
Local Notation G := (CSGroup CS).
Local Notation GL := (group_laws L).
Add Field scalar_field_cancel : (scalar_field G GL).
Lemma lincomb_errors (k : scalar CS) P ws (C : list (elem CS)) es : length C = length es -> length ws = length C ->
  lincomb ws (with_errors k P C es) = elem_add G (elem_mul G (lincomb ws C) k) (elem_mul G P (dot ws es)).
Proof.
  revert C es. induction ws as [|w ws IH]; intros [|c C] [|e es] H1 H2; try discriminate; simpl.
  - rewrite (id_mul GL), (elem_mul_zero _ GL). symmetry. apply (elem_add_id _ GL).
  - change (map _ (combine C es)) with (with_errors k P C es). rewrite IH by (simpl in *; congruence).
    destruct (elem_generated _ GL c) as [a ->]. destruct (elem_generated _ GL P) as [p ->]. destruct (elem_generated _ GL (lincomb ws C)) as [b ->].
    rewrite !(elem_mul_mul _ GL), !(add_mul GL), !(elem_mul_mul _ GL), !(add_mul GL). f_equal. ring.
Qed.
Lemma weights_from_length mode sd i (CD : list (elem CS * elem CS)) : length (weights_from L mode sd i CD) = length CD.
Proof. revert i. induction CD as [|[c d] CD IH]; intros i; simpl; auto. Qed.

Lemma cancel_verifies mode (k r : scalar CS) P (C : list (elem CS)) es :
  length C = length es ->
  let pk := elem_mul G (base_elem G) k in
  let D := with_errors k P C es in
  dot (weights L mode pk C D) es = zero_scalar G ->
  VerifyProof L mode (base_elem G) pk C D (fst (GenerateProof L mode k (base_elem G) pk C D r))
    (snd (GenerateProof L mode k (base_elem G) pk C D r)).
Proof.
  intros Hl pk D Hd.
  assert (HD : length D = length C) by (unfold D, with_errors; rewrite map_length, combine_length; lia).
  assert (HZ : compositeZ L mode pk C D = elem_mul G (compositeM L mode pk C D) k).
  { unfold compositeZ, compositeM. unfold D at 2. rewrite lincomb_errors; auto.
    - fold D. rewrite Hd, (elem_mul_zero _ GL). apply (add_id_r GL).
    - unfold weights. rewrite weights_from_length, combine_length. lia. }
  exact (verify_complete L mode (base_elem G) k C D r _ _ eq_refl eq_refl HZ).
Qed.
End Cancel.

(** If the weights cancel the errors then the proof of the usual prover is
    accepted, and every item with a non-zero error is finalized with an element
    that is not the right one.  If the errors of the first item and of the
    others are multiples of the first message, the first output is the PRF
    value under another key. *)
Theorem C53_voprf_cancelling_errors :
  forall (CS : CipherSuite) (L : SuiteLaws CS) (k r : scalar CS) (inputs : list bytes)
         (sessions : list (VoprfClientBlindResult CS)) (errors : list (scalar CS)) (P : elem CS),
  let G := CSGroup CS in
  let pk := elem_mul G (base_elem G) k in
  let C := map (fun r => blinded_value (voprf_message r)) sessions in
  let replies := with_errors k P C errors in
  let '(c, s) := GenerateProof L modeVOPRF k (base_elem G) pk C replies r in
  Forall2 (voprf_blinded CS) inputs sessions ->
  len inputs <= 65535 -> length errors = length inputs -> P <> identity_elem G ->
  dot (weights L modeVOPRF pk C replies) errors = zero_scalar G ->
  exists outs,
    voprf_client_batch_finalize CS inputs (map voprf_state sessions) (map mkEvaluation replies) (mkProof c s) pk = Ok outs /\
    Forall2 (fun ie out => let '(input, e) := ie in len input <= 65535 ->
      exists N0 : elem CS, out = Ok (FinalizeHash (CS := CS) input N0) /\
        (N0 = elem_mul G (H2G L modeVOPRF input) k <-> e = zero_scalar G)) (combine inputs errors) outs /\
    (forall input inputs' e errors' C', inputs = input :: inputs' -> errors = e :: errors' -> C = P :: C' ->
      len input <= 65535 -> exists outs', outs = Ok (PRF L modeVOPRF (scalar_add G k e) input) :: outs').
Proof.
  intros CS L k r inputs sessions errors P G pk C replies.
  destruct (GenerateProof L modeVOPRF k (base_elem G) pk C replies r) as [c s] eqn:Egp.
  intros Hs Hlen Hle HP Hd.
  destruct (voprf_blinded_clients L inputs sessions Hs) as (Hc1 & Hc2 & Hc3).
  assert (HC : length C = length inputs) by (unfold C; now rewrite map_length).
  assert (Hv : VerifyProof L modeVOPRF (base_elem G) pk C replies c s).
  { pose proof (cancel_verifies L modeVOPRF k r P C errors ltac:(congruence) Hd) as H.
    change (elem_mul (CSGroup CS) (base_elem (CSGroup CS)) k) with pk in H.
    change (with_errors k P C errors) with replies in H. fold G in H. rewrite Egp in H. exact H. }
  eexists. split; [|split].
  - apply (voprf_batch_finalize_ok L); auto.
    apply (verify_proof_ok L).
    + unfold len. rewrite !map_length.
      unfold replies, with_errors. rewrite map_length, combine_length, HC, Hle. f_equal. rewrite Nat.min_id. exact Hc3.
    + unfold len in *. rewrite !map_length. rewrite Hc3. exact Hlen.
    + rewrite Hc1, !map_map. cbn [evaluation_value c_scalar s_scalar mode_id]. rewrite map_id. exact Hv.
  - clear - Hs Hle HC HP L. unfold replies. clear replies. revert errors Hle.
    unfold C in *. clear C HC. induction Hs as [|i ses inputs sessions Hr Hs IH]; intros [|e errors] Hle; try discriminate; simpl.
    + constructor.
    + constructor.
      * intros Hi. destruct (voprf_blinded_inv L i ses Hr) as (b & Hb & ->). cbn.
        eexists. split; [apply (voprf_finalize_one_ok L); exact Hi|].
        set (H := H2G L modeVOPRF i).
        rewrite (elem_mul_eadd _ (group_laws L)), (mul_comm2 (group_laws L) (elem_mul (CSGroup CS) H b) (s_inv (group_laws L) b) k), (mul_inv_cancel (group_laws L)) by exact Hb.
        split; intros E.
        -- rewrite <- (add_id_r (group_laws L)) in E. apply (add_cancel_l (group_laws L)) in E.
           rewrite <- (id_mul (group_laws L) (s_inv (group_laws L) b)) in E. apply (mul_elem_inj (group_laws L)) in E; [|now apply (inv_neq_zero (group_laws L))].
           rewrite <- (elem_mul_zero _ (group_laws L) P) in E. now apply (mul_scalar_inj (group_laws L)) in E.
        -- rewrite E, (elem_mul_zero _ (group_laws L)), (id_mul (group_laws L)). apply (add_id_r (group_laws L)).
      * apply IH. now injection Hle.
  - intros input inputs' e errors' C' Ei Ee EC Hi. unfold replies. clear Hd Hv Egp. unfold C in *. clear C replies.
    subst inputs errors. inversion Hs as [|? ses ? sessions' Hr Hs']; subst.
    destruct (voprf_blinded_inv L input ses Hr) as (b & Hb & ->). simpl in EC. injection EC as EP _. cbn.
    rewrite (voprf_finalize_one_ok L) by exact Hi. eexists. f_equal. f_equal. unfold PRF. f_equal.
    rewrite <- EP. rewrite (add_mul (group_laws L)), (mul_comm2 (group_laws L)), (mul_inv_cancel (group_laws L)) by exact Hb.
    reflexivity.
Qed.

(** ** How many hash functions accept given wrong replies *)

(** The replies with these errors, with the proof of the usual prover. *)
Definition voprf_accepts_errors {CS} (L : SuiteLaws CS) (k r : scalar CS) (P : elem CS) (inputs : list bytes)
    (sessions : list (VoprfClientBlindResult CS)) (errors : list (scalar CS)) (O : oracle (scalar CS)) : bool :=
  let CS' := with_oracle CS O in
  let G := CSGroup CS in
  let pk := elem_mul G (base_elem G) k in
  let C := map (fun r => blinded_value (voprf_message r)) sessions in
  let replies := with_errors k P C errors in
  let '(c, s) := GenerateProof (CS := CS') (oracle_laws L O) modeVOPRF k (base_elem G) pk C replies r in
  match voprf_client_batch_finalize CS' inputs (map (voprf_with O) (map voprf_state sessions))
          (map (mkEvaluation (CS := CS')) replies) (mkProof (CS := CS') c s) pk with
  | Ok _ => true
  | _ => false
  end.

Lemma dot_with {CS} (O : oracle (scalar CS)) (ws es : list (scalar CS)) :
  dot (CS := with_oracle CS O) ws es = dot (CS := CS) ws es.
Proof. revert es. induction ws as [|w ws IH]; intros [|e es]; auto. cbn [dot]. now rewrite IH. Qed.

Lemma count_shift {S} (scalars : list S) f D O x a : respects f -> ~ In x D ->
  count f (oracles scalars D (update O x a)) = count (fun O' => f (update O' x a)) (oracles scalars D O).
Proof.
  intros Hf. revert O. induction D as [|y D IH]; intros O Hx; simpl in *.
  - unfold count. cbn [filter]. now destruct (f (update O x a)).
  - rewrite !count_flat_map. apply sum_ext. intros b _. rewrite <- IH by tauto.
    apply count_same; auto. apply update_comm. intros ->. tauto.
Qed.

Section Average.
Context {CS : CipherSuite} (L : SuiteLaws CS) (mode : N).
Local Notation G := (CSGroup CS).
Local Notation GL := (group_laws L).
Local Notation tag := (h2s_tag CS mode).
Add Field scalar_field_average : (scalar_field G GL).

Lemma oweights_update O sd i CD x a :
  (forall j C D, nth_error CD j = Some (C, D) -> (composite_string (CS := CS) sd (i + j) C D, tag) <> x) ->
  oweights mode (update O x a) sd i CD = oweights mode O sd i CD.
Proof.
  revert i. induction CD as [|[C D] CD IH]; intros i H; auto. cbn [oweights]. f_equal.
  - rewrite update_other; auto. intros E. apply (H 0%nat C D eq_refl). now rewrite Nat.add_0_r.
  - apply IH. intros j C' D' E. specialize (H (Datatypes.S j) C' D' E). now rewrite Nat.add_succ_r in H.
Qed.

Lemma dot_update (O : oracle (scalar CS)) sd CD es j C D e : len sd <= 65535 ->
  forall i, N.of_nat (i + length CD) <= 65536 ->
  nth_error CD j = Some (C, D) -> nth_error es j = Some e ->
  exists K, forall a,
    dot (oweights mode (update O (composite_string (CS := CS) sd (i + j) C D, tag) a) sd i CD) es
    = scalar_add G (scalar_mul G a e) K.
Proof.
  intros Hsd. revert CD es. induction j as [|j IH]; intros [|[C' D'] CD] [|e' es] i Hi E1 E2; try discriminate; cbn [length] in Hi.
  - injection E1 as -> ->. injection E2 as ->. rewrite Nat.add_0_r. exists (dot (oweights mode O sd (Datatypes.S i) CD) es).
    intros a. cbn [oweights dot]. f_equal.
    + f_equal. apply (update_at O (composite_string sd i C D, tag) a).
    + f_equal. apply oweights_update. intros j C' D' E. intros Ex.
      assert (Hj : (j < length CD)%nat) by (apply nth_error_Some; congruence).
      apply (f_equal fst) in Ex; cbn [fst] in Ex. apply (composite_string_inj L) in Ex as (_ & Ei & _); auto; lia.
  - simpl in E1, E2. destruct (IH CD es (Datatypes.S i)) as [K HK]; auto; [lia|].
    exists (scalar_add G (scalar_mul G (O (composite_string sd i C' D') tag) e') K).
    intros a. cbn [oweights dot].
    rewrite update_other.
    + replace (i + Datatypes.S j)%nat with (Datatypes.S i + j)%nat by lia. rewrite HK. ring.
    + intros Ex. assert (Hj : (j < length CD)%nat) by (apply nth_error_Some; congruence).
      apply (f_equal fst) in Ex; cbn [fst] in Ex. apply (composite_string_inj L) in Ex as (_ & Ei & _); auto; lia.
Qed.

Lemma solve_linear (e K : scalar CS) : e <> zero_scalar G ->
  exists a, scalar_add G (scalar_mul G a e) K = zero_scalar G.
Proof. intros He. exists (scalar_mul G (s_opp GL K) (s_inv GL e)). field. exact He. Qed.
End Average.

(** Whatever wrong replies the server prepares (some error is not zero), at
    least 1 in q of the hash functions accept them. *)
Theorem C53_voprf_wrong_accepted :
  forall (CS : CipherSuite) (L : SuiteLaws CS) (scalars : list (scalar CS)), enumerates scalars ->
  forall (k r : scalar CS) (inputs : list bytes) (sessions : list (VoprfClientBlindResult CS))
         (P : elem CS) (errors : list (scalar CS)),
  Forall2 (voprf_blinded CS) inputs sessions ->
  len inputs <= 65535 -> length errors = length inputs -> P <> identity_elem (CSGroup CS) ->
  (exists e, In e errors /\ e <> zero_scalar (CSGroup CS)) ->
  exists needed : list point, forall (points : list point) (O : oracle (scalar CS)),
  NoDup points -> incl needed points ->
  let all := oracles scalars points O in
  (length all <= count (voprf_accepts_errors L k r P inputs sessions errors) all * length scalars)%nat.
Proof.
  intros CS L scalars [Hnd Hall] k r inputs sessions P errors Hs Hlen Hle HP (e & He & Hne).
  set (G := CSGroup CS). pose (GL := group_laws L).
  set (pk := elem_mul G (base_elem G) k).
  set (C := map (fun r => blinded_value (voprf_message r)) sessions).
  set (D := with_errors k P C errors). set (sd := proof_seed (CS := CS) modeVOPRF pk).
  destruct (voprf_blinded_clients L inputs sessions Hs) as (Hc1 & Hc2 & Hc3).
  assert (HC : length C = length inputs) by (unfold C; now rewrite map_length).
  assert (HD : length D = length inputs) by (unfold D, with_errors; rewrite map_length, combine_length; lia).
  apply In_nth_error in He as [j Hj].
  assert (Hjn : (j < length errors)%nat) by (apply nth_error_Some; congruence).
  destruct (nth_error (combine C D) j) as [[Cj Dj]|] eqn:ECD.
  2:{ apply nth_error_None in ECD. rewrite combine_length in ECD. lia. }
  set (x := (composite_string sd j Cj Dj, h2s_tag CS modeVOPRF)).
  exists [x]. intros points O Hp Hinc all.
  pose (f := fun O : oracle (scalar CS) => scalar_ct_eq G (dot (oweights modeVOPRF O sd 0 (combine C D)) errors) (zero_scalar G)).
  assert (Hacc : forall O, f O = true -> voprf_accepts_errors L k r P inputs sessions errors O = true).
  { intros O' H. unfold f in H. apply (scalar_ct_eq_spec _ GL) in H.
    pose proof (C53_voprf_cancelling_errors (with_oracle CS O') (oracle_laws L O') k r inputs (map (vsession_with O') sessions)
      errors P) as HT. cbv zeta in HT.
    assert (EC : map (fun r => blinded_value (voprf_message r)) (map (vsession_with O') sessions) = C).
    { unfold C. rewrite map_map. reflexivity. }
    rewrite EC in HT.
    change (with_errors (CS := with_oracle CS O') k P C errors) with D in HT.
    change (elem_mul (CSGroup (with_oracle CS O')) (base_elem (CSGroup (with_oracle CS O'))) k) with pk in HT.
    change (base_elem (CSGroup (with_oracle CS O'))) with (base_elem G) in HT.
    cbv beta iota zeta delta [GenerateProof] in HT.
    destruct HT as (outs & HT & _); auto.
    - clear - Hs. induction Hs; constructor; auto. now apply voprf_blinded_with.
    - refine (eq_trans _ H). rewrite (dot_with O'). exact (f_equal (fun w => dot (CS := CS) w errors) (oweights_eq L modeVOPRF O' pk C D)).
    - assert (Est : map (voprf_with O') (map voprf_state sessions) = map voprf_state (map (vsession_with O') sessions)).
      { rewrite !map_map. reflexivity. }
      unfold voprf_accepts_errors. cbv zeta. rewrite Est.
      change (map (fun r0 => blinded_value (voprf_message r0)) sessions) with C.
      change (with_errors k P C errors) with D.
      exact (f_equal (fun o : res (list (res bytes)) => match o with Ok _ => true | _ => false end) HT). }
  assert (Hresp : respects f).
  { intros O1 O2 H. unfold f. do 2 f_equal. generalize 0%nat. generalize (combine C D). clear - H.
    induction l as [|[c d] l IH]; intros i; cbn [oweights]; auto. now rewrite (H (composite_string sd i c d)), IH. }
  assert (Hmono : (count f all <= count (voprf_accepts_errors L k r P inputs sessions errors) all)%nat)
    by (apply count_mono; auto).
  enough (Hf : (length all <= count f all * length scalars)%nat).
  { exact (Nat.le_trans _ _ _ Hf (Nat.mul_le_mono_r _ _ (length scalars) Hmono)). }
  unfold all. rewrite oracles_length.
  destruct (count_split scalars f points x Hp) as (D' & Hd & Hx & Hiff & Hl & Hc); auto.
  { apply Hinc. now left. }
  rewrite Hc, Hl, Nat.pow_succ_r', Nat.mul_comm. apply Nat.mul_le_mono_r.
  refine (Nat.le_trans _ (length (oracles scalars D' O)) _ _ _); [rewrite oracles_length; apply le_n|].
  rewrite (sum_ext _ (fun a => sum (fun O' => if f (update O' x a) then 1 else 0)%nat (oracles scalars D' O))).
  2:{ intros a _. rewrite count_shift by auto. apply count_sum. }
  rewrite sum_swap. rewrite <- (Nat.mul_1_r (length _)), <- sum_const. apply sum_le. intros O' _.
  rewrite <- count_sum.
  destruct (dot_update L modeVOPRF O' sd (combine C D) errors j Cj Dj e) with (i := 0%nat) as [K HK]; auto.
  { exact (sd_len L modeVOPRF k). }
  { rewrite combine_length. unfold len in Hlen. lia. }
  assert (Hex : exists a, scalar_add G (scalar_mul G a e) K = zero_scalar G).
  { now apply (solve_linear L). }
  destruct Hex as [a Ha]. unfold count.
  assert (Hin : In a (filter (fun a => f (update O' x a)) scalars)).
  { apply filter_In. split; auto. unfold f. apply (scalar_ct_eq_spec _ GL). rewrite <- Ha. apply HK. }
  destruct (filter _ scalars); [destruct Hin|simpl; lia].
Qed.

(** So a server that prepares any number of wrong reply lists can, on average
    over the hash functions, use (their number)/q of them.  With m candidates
    for each of the n items there are m^n lists, but only n*m weights to ask
    for. *)
Theorem C53_voprf_average :
  forall (CS : CipherSuite) (L : SuiteLaws CS) (scalars : list (scalar CS)), enumerates scalars ->
  forall (k r : scalar CS) (inputs : list bytes) (sessions : list (VoprfClientBlindResult CS)) (P : elem CS)
         (choices : list (list (scalar CS))),
  Forall2 (voprf_blinded CS) inputs sessions ->
  len inputs <= 65535 -> P <> identity_elem (CSGroup CS) ->
  Forall (fun errors => length errors = length inputs /\ exists e, In e errors /\ e <> zero_scalar (CSGroup CS)) choices ->
  exists needed : list point, forall (points : list point) (O : oracle (scalar CS)),
  NoDup points -> incl needed points ->
  let all := oracles scalars points O in
  (length choices * length all <=
   sum (fun errors => count (voprf_accepts_errors L k r P inputs sessions errors) all) choices * length scalars)%nat.
Proof.
  intros CS L scalars Hen k r inputs sessions P choices Hs Hlen HP Hch.
  induction Hch as [|errors choices [Hle Hex] Hch [needed IH]].
  - exists []. intros. simpl. lia.
  - destruct (C53_voprf_wrong_accepted CS L scalars Hen k r inputs sessions P errors Hs Hlen Hle HP Hex) as [needed' H].
    exists (needed' ++ needed). intros points O Hp Hinc all.
    specialize (IH points O Hp (fun x Hx => Hinc x (in_or_app _ _ _ (or_intror Hx)))). cbv zeta in IH. fold all in IH.
    specialize (H points O Hp (fun x Hx => Hinc x (in_or_app _ _ _ (or_introl Hx)))). cbv zeta in H. fold all in H.
    cbn [length sum fold_right]. unfold sum in IH.
    set (X := count _ all) in *. set (Y := fold_right _ _ choices) in *. nia.
Qed.

(** ** Concrete cases *)

Definition ex_scalars : list (scalar TS) := map (fun n => ex_scalar (Z.of_nat n)) (seq 0 251).
Lemma ex_scalars_all : enumerates ex_scalars.
Proof.
  assert (Hv : forall n, (n < 251)%nat -> fval (q := 251) (ex_scalar (Z.of_nat n)) = Z.of_nat n).
  { intros n Hn. unfold ex_scalar, of_Z. cbn [fval]. apply Z.mod_small. lia. }
  split.
  - unfold ex_scalars. apply (NoDup_map_inv (fval (q := 251))). rewrite map_map.
    rewrite (map_ext_in _ Z.of_nat).
    + apply FinFun.Injective_map_NoDup; [intros a b; apply Nat2Z.inj|apply seq_NoDup].
    + intros n Hn. apply Hv. apply in_seq in Hn. lia.
  - intros x. unfold ex_scalars. apply in_map_iff. exists (Z.to_nat (fval (q := 251) x)).
    pose proof (fval_range 251 prime_251 x) as Hx. rewrite Z2Nat.id by lia. split.
    + apply (of_Z_fval (q := 251)).
    + apply in_seq. lia.
Qed.

(** A server that asks one query and guesses, and the values of the game for
    two hash functions: the bound is not about an empty set. *)
Definition ex_server : program (scalar TS) (scalar TS * elem TS * (scalar TS * scalar TS)) :=
  Ask (bstr "guess") (bstr "tag") (fun a => Done (ex_scalar 42, ex_elem 7, (a, a))).
Definition ex_poprf_server : program (scalar TS) (scalar TS * option bytes * elem TS * (scalar TS * scalar TS)) :=
  Ask (bstr "guess") (bstr "tag") (fun a => Done (ex_scalar 42, Some (bstr "info"), ex_elem 7, (a, a))).
Definition ex_forges (O : oracle (scalar TS)) : option bool :=
  match fst (voprf_client_blind TS CtrRng ex_input 17) with
  | Ok r => Some (voprf_forges TL (voprf_state r) ex_input ex_server O)
  | _ => None
  end.
Definition ex_poprf_forges (O : oracle (scalar TS)) : option bool :=
  match fst (poprf_client_blind TS CtrRng ex_input 17) with
  | Ok r => Some (poprf_forges TL (poprf_state r) ex_input ex_poprf_server O)
  | _ => None
  end.
Example C52_case :
  enumerates ex_scalars /\ at_most 1 ex_server /\ at_most 1 ex_poprf_server /\
  ex_forges (fun _ _ => ex_scalar 0) = Some true /\ ex_forges (fun m _ => ex_scalar (Z.of_nat (length m))) = Some false /\
  ex_poprf_forges (fun _ _ => ex_scalar 0) = Some true /\ ex_poprf_forges (fun m _ => ex_scalar (Z.of_nat (length m))) = Some false /\
  exists client message st',
    voprf_client_blind TS CtrRng ex_input 17 = (Ok (mkVoprfClientBlindResult client message), st').
Proof.
  split; [exact ex_scalars_all|]. split; [intros a; exact I|]. split; [intros a; exact I|].
  split; [vm_compute; reflexivity|]. split; [vm_compute; reflexivity|].
  split; [vm_compute; reflexivity|]. split; [vm_compute; reflexivity|].
  rewrite (voprf_blind_ok TL). destruct (sampling_cases TL CtrRng 17) as (r & st' & Hr & _).
  { unfold sampling_ends. vm_compute. discriminate. }
  rewrite Hr. do 3 eexists. reflexivity.
Qed.

(** Two replies with the errors 1 and 12: their weights cancel them. *)
Definition ex_session (st : N) (input : bytes) : list (VoprfClientBlindResult TS) :=
  match fst (voprf_client_blind TS CtrRng input st) with Ok r => [r] | _ => [] end.
Lemma ex_session_ok st input : sampling_ends (CSGroup TS) CtrRng st ->
  Forall2 (voprf_blinded TS) [input] (ex_session st input).
Proof.
  intros Hs. destruct (sampling_cases TL CtrRng st Hs) as (r & st' & Hr & _).
  assert (E : exists m, voprf_client_blind TS CtrRng input st = (Ok m, st')).
  { rewrite (voprf_blind_ok TL), Hr. eexists. reflexivity. }
  destruct E as [m E]. unfold ex_session. rewrite E. cbn [fst]. constructor; [|constructor]. now exists CtrRng, st, st'.
Qed.
Definition ex_sessions := ex_session 17 ex_input ++ ex_session 30 ex_input2.
Definition ex_errors : list (scalar TS) := [ex_scalar 1; ex_scalar 12].
Example C53_case :
  let G := CSGroup TS in
  let pk := elem_mul G (base_elem G) (ex_scalar 42) in
  let C := map (fun r => blinded_value (voprf_message r)) ex_sessions in
  Forall2 (voprf_blinded TS) [ex_input; ex_input2] ex_sessions /\
  dot (weights TL modeVOPRF pk C (with_errors (ex_scalar 42) (base_elem G) C ex_errors)) ex_errors = zero_scalar G /\
  elem_len G < 256.
Proof.
  cbv zeta. split; [|split].
  - apply (Forall2_app (l1 := [ex_input]) (l2 := [ex_input2])); apply ex_session_ok; unfold sampling_ends; vm_compute; discriminate.
  - apply (scalar_ct_eq_spec _ (group_laws TL)). vm_compute. reflexivity.
  - vm_compute. reflexivity.
Qed.

(** With these replies the client outputs two wrong values. *)
Definition ex_forged_outputs : option bool :=
  let G := CSGroup TS in
  let k := ex_scalar 42 in
  let pk := elem_mul G (base_elem G) k in
  let C := map (fun r => blinded_value (voprf_message r)) ex_sessions in
  let D := with_errors k (base_elem G) C ex_errors in
  let '(c, s) := GenerateProof TL modeVOPRF k (base_elem G) pk C D (ex_scalar 99) in
  match voprf_client_batch_finalize TS [ex_input; ex_input2] (map voprf_state ex_sessions) (map (mkEvaluation (CS := TS)) D)
          (mkProof (CS := TS) c s) pk with
  | Ok outs => Some (forallb (fun io : bytes * res bytes => match snd io with
                       | Ok out => negb (bytes_eqb out (PRF TL modeVOPRF k (fst io))) | _ => false end)
                       (combine [ex_input; ex_input2] outs))
  | _ => None
  end.
Example C53_forged : ex_forged_outputs = Some true.
Proof. vm_compute. reflexivity. Qed.
