(** * PropPrivacy: blinding, randomness, nonces, permutation (C21, C29, C30, C31). *)
From Verif Require Import Oprf Voprf Poprf SerializationFacts Spec OprfFacts VoprfFacts PoprfFacts Zq.
From Verif Require Import PropCorrectness PropBatch PropEncoding PropSoundness.
Open Scope N_scope.

Section Algebra.
Context {CS : CipherSuite} (L : SuiteLaws CS).
Local Notation G := (CSGroup CS).
Local Notation GL := (group_laws L).
Local Notation "P [+] Q" := (elem_add G P Q) (at level 50, left associativity).
Local Notation "k [*] P" := (elem_mul G P k) (at level 40).
Add Field scalar_field_p : (scalar_field G GL).

Lemma unique_blind (P Q : elem CS) : P <> identity_elem G -> Q <> identity_elem G ->
  exists! r, r <> zero_scalar G /\ r [*] P = Q.
Proof.
  intros HP HQ. destruct (elem_generated_by GL P Q HP) as [k Hk].
  exists k. split.
  - split; auto. intros ->. rewrite (elem_mul_zero _ GL) in Hk. contradiction.
  - intros k' [_ Hk']. apply (mul_scalar_inj GL P); auto. congruence.
Qed.

Lemma nonce_scalars (r c s c' s' k : scalar CS) :
  s = scalar_sub G r (scalar_mul G c k) -> s' = scalar_sub G r (scalar_mul G c' k) -> c <> c' ->
  k = scalar_mul G (scalar_sub G s s') (s_inv GL (scalar_sub G c' c)).
Proof.
  intros -> -> Hne.
  assert (Hc : scalar_sub G c' c <> zero_scalar G)
    by (intros E; apply (sub_zero_eq GL) in E; congruence).
  field; auto.
Qed.

Lemma nonce_unique (c s k : scalar CS) :
  exists! r, s = scalar_sub G r (scalar_mul G c k).
Proof.
  exists (scalar_add G s (scalar_mul G c k)). split; [ring|]. intros r ->. ring.
Qed.

Lemma simulated_commitment (P Q : elem CS) (r c s k : scalar CS) :
  Q = k [*] P -> s = scalar_sub G r (scalar_mul G c k) -> s [*] P [+] c [*] Q = r [*] P.
Proof.
  intros -> ->. rewrite (elem_mul_mul G GL), (add_mul GL). f_equal. ring.
Qed.

End Algebra.

(** ** C21 *)

(** The message a client sends for an input with a given blinding factor,
    in each mode ([None] if the call fails, which it never does). *)
Definition message_of {CS} (mode : Mode) (input : bytes) (blind : scalar CS) : option (BlindedElement CS) :=
  match mode with
  | Oprf => match oprf_client_deterministic_blind_unchecked CS input blind with
            | Ok r => Some (oprf_message r) | _ => None end
  | Voprf => match voprf_client_deterministic_blind_unchecked CS input blind with
             | Ok r => Some (voprf_message r) | _ => None end
  | Poprf => match poprf_client_deterministic_blind_unchecked CS input blind with
             | Ok r => Some (poprf_message r) | _ => None end
  end.

Lemma message_of_ok {CS} (L : SuiteLaws CS) mode input (blind : scalar CS) :
  message_of mode input blind
  = Some (mkBlinded (elem_mul (CSGroup CS) (H2G L (mode_id mode) input) blind)).
Proof.
  destruct mode; unfold message_of.
  - rewrite (oprf_blind_unchecked_ok L). reflexivity.
  - rewrite (voprf_blind_unchecked_ok L). reflexivity.
  - rewrite (poprf_blind_unchecked_ok L). reflexivity.
Qed.

(** [blind] is that message for the blinding factor drawn from the RNG. *)
Theorem C21_blind_is_message_of :
  forall (CS : CipherSuite) (L : SuiteLaws CS) (R : Rng) (st : rng_state R) (input : bytes) r st',
  random_scalar (CSGroup CS) R st = (Ok r, st') ->
  (exists c m, oprf_client_blind CS R input st = (Ok (mkOprfClientBlindResult c m), st') /\
               oprf_blind c = r /\ message_of Oprf input r = Some m) /\
  (exists c m, voprf_client_blind CS R input st = (Ok (mkVoprfClientBlindResult c m), st') /\
               voprf_blind c = r /\ message_of Voprf input r = Some m) /\
  (exists c m, poprf_client_blind CS R input st = (Ok (mkPoprfClientBlindResult c m), st') /\
               poprf_blind c = r /\ message_of Poprf input r = Some m).
Proof.
  intros CS L R st input r st' Hr.
  rewrite (oprf_blind_ok L), (voprf_blind_ok L), (poprf_blind_ok L), Hr, !(message_of_ok L).
  repeat split; do 2 eexists; (split; [reflexivity|]); split; reflexivity.
Qed.

(** Perfect blinding: any message one input can produce, the other input
    produces too, with exactly one blinding factor. *)
Theorem C21_perfect_blinding :
  forall (CS : CipherSuite) (L : SuiteLaws CS) (mode : Mode) (input input' : bytes) (r : scalar CS),
  let G := CSGroup CS in
  H2G L (mode_id mode) input <> identity_elem G ->
  H2G L (mode_id mode) input' <> identity_elem G ->
  r <> zero_scalar G ->
  exists! r', r' <> zero_scalar G /\ message_of mode input' r' = message_of mode input r.
Proof.
  intros CS L mode input input' r G H1 H2 Hr. subst G.
  destruct (unique_blind L (H2G L (mode_id mode) input')
              (elem_mul (CSGroup CS) (H2G L (mode_id mode) input) r) H2) as [r' [[Hr' Hm] Hu]].
  { now apply (mul_neq_id (group_laws L)). }
  exists r'. split.
  - split; auto. rewrite !(message_of_ok L). now rewrite Hm.
  - intros r'' [Hr'' Hm'']. apply Hu. split; auto. rewrite !(message_of_ok L) in Hm''.
    injection Hm'' as Hm''. exact Hm''.
Qed.

(** In numbers: when the blinding factor is uniform on the non-zero scalars
    every non-identity element is the message for exactly one of them. *)
Theorem C21_uniform_message :
  forall (CS : CipherSuite) (L : SuiteLaws CS) (mode : Mode) (input : bytes)
         (blinds : list (scalar CS)) (P : elem CS),
  let G := CSGroup CS in
  H2G L (mode_id mode) input <> identity_elem G ->
  NoDup blinds -> (forall r, In r blinds <-> r <> zero_scalar G) ->
  length (filter (fun r => match message_of mode input r with
                           | Some m => elem_ct_eq G (blinded_value m) P
                           | None => false
                           end) blinds)
  = if elem_ct_eq G P (identity_elem G) then 0%nat else 1%nat.
Proof.
  intros CS L mode input blinds P G HH Hnd Hall. subst G.
  set (f := fun r => _).
  assert (Hf : forall r, f r = true <-> elem_mul (CSGroup CS) (H2G L (mode_id mode) input) r = P).
  { intros r. unfold f. rewrite (message_of_ok L). cbn [blinded_value]. 
    apply (elem_ct_eq_spec _ (group_laws L)). }
  destruct (elem_ct_eq (CSGroup CS) P (identity_elem (CSGroup CS))) eqn:EP.
  - apply (elem_ct_eq_spec _ (group_laws L)) in EP.
    destruct (filter f blinds) as [|r l] eqn:E; auto. exfalso.
    assert (Hin : In r (filter f blinds)) by (rewrite E; now left).
    apply filter_In in Hin as [Hin Hfr]. apply Hf in Hfr. apply Hall in Hin.
    rewrite EP in Hfr. now apply (mul_neq_id (group_laws L)) in Hfr.
  - assert (HP : P <> identity_elem (CSGroup CS))
      by (intros E; apply (elem_ct_eq_spec _ (group_laws L)) in E; congruence).
    destruct (unique_blind L _ P HH HP) as [r [[Hr Hm] Hu]].
    assert (Hnd' : NoDup (filter f blinds)) by now apply NoDup_filter.
    assert (Hin : In r (filter f blinds)) by (apply filter_In; split; [now apply Hall|now apply Hf]).
    assert (Hone : forall x, In x (filter f blinds) -> x = r).
    { intros x Hx. apply filter_In in Hx as [Hx Hfx]. symmetry. apply Hu.
      split; [now apply Hall|now apply Hf]. }
    destruct (filter f blinds) as [|x [|y l]]; auto; [contradiction|].
    exfalso. inversion Hnd' as [|? ? Hn _]; subst. apply Hn.
    rewrite (Hone x), (Hone y) by (simpl; auto). now left.
Qed.

Example C21_case :
  H2G TL modeVOPRF ex_input <> identity_elem (CSGroup TS) /\
  H2G TL modeVOPRF ex_input2 <> identity_elem (CSGroup TS) /\ ex_scalar 3 <> zero_scalar (CSGroup TS) /\
  exists blinds : list (scalar TS), NoDup blinds /\ forall r, In r blinds <-> r <> zero_scalar (CSGroup TS).
Proof.
  split; [apply ex_neq; vm_compute; reflexivity|].
  split; [apply ex_neq; vm_compute; reflexivity|].
  split; [apply ex_neq; vm_compute; reflexivity|].
  exists (map (fun n => ex_scalar (Z.of_nat n)) (seq 1 250)). split.
  - apply (NoDup_map_inv (fun r => Z.to_nat (fval r))).
    replace (map _ _) with (seq 1 250) by (vm_compute; reflexivity). apply seq_NoDup.
  - intros r. rewrite in_map_iff. split.
    + intros (n & <- & Hn). apply in_seq in Hn. intros E. apply (f_equal (fval (q := 251))) in E.
      cbn [fval ex_scalar of_Z zero_scalar CSGroup TS ZqSuite ZqGroup f0] in E.
      rewrite !Z.mod_small in E by lia. lia.
    + intros Hr. exists (Z.to_nat (fval r)).
      pose proof (fval_range 251 prime_251 r) as Hrange. split.
      * rewrite Z2Nat.id by lia. apply (of_Z_fval (q := 251)).
      * apply in_seq. assert (fval r <> 0%Z); [|lia].
        intros E. apply Hr. apply (Fq_eq (q := 251)). rewrite E. reflexivity.
Qed.

(** ** C29 *)

(** [blind] draws one scalar and nothing else, in every mode and whatever
    happens. *)
Theorem C29_blind_draws_one_scalar :
  forall (CS : CipherSuite) (R : Rng) (st : rng_state R) (input : bytes),
  let after := snd (random_scalar (CSGroup CS) R st) in
  snd (oprf_client_blind CS R input st) = after /\
  snd (voprf_client_blind CS R input st) = after /\
  snd (poprf_client_blind CS R input st) = after.
Proof.
  intros CS R st input after. unfold after.
  unfold oprf_client_blind, voprf_client_blind, poprf_client_blind, rbind, rret.
  destruct (random_scalar (CSGroup CS) R st) as [[r|e| |] st']; auto.
Qed.

(** A proof draws one scalar, whatever the batch size; a refused batch or a
    refused info draws nothing. *)
Theorem C29_proofs_draw_one_scalar :
  forall (CS : CipherSuite) (L : SuiteLaws CS) (R : Rng) (st : rng_state R),
  let after := snd (random_scalar (CSGroup CS) R st) in
  (forall (server : VoprfServer CS) blinded,
     snd (voprf_server_batch_blind_evaluate CS server R blinded st)
     = if 65535 <? len blinded then st else after) /\
  (forall (server : VoprfServer CS) blinded,
     snd (voprf_server_blind_evaluate CS server R blinded st) = after) /\
  (forall (server : VoprfServer CS) blinded prepared,
     bad_batch blinded prepared ->
     snd (voprf_server_batch_blind_evaluate_finish CS server R blinded prepared st) = st) /\
  (forall (server : PoprfServer CS) blinded info,
     let i := match info with Some i => i | None => [] end in
     snd (poprf_server_batch_blind_evaluate CS server R blinded info st)
     = if (65535 <? len blinded) || (65535 <? len i)
          || is_zero_scalar (CSGroup CS) (tweaked_scalar L (poprf_sk server) i)
       then st else after) /\
  (forall (server : PoprfServer CS) blinded info,
     let i := match info with Some i => i | None => [] end in
     snd (poprf_server_blind_evaluate CS server R blinded info st)
     = if (65535 <? len i) || is_zero_scalar (CSGroup CS) (tweaked_scalar L (poprf_sk server) i)
       then st else after) /\
  (forall blinded prepared (tweak : PoprfPreparedTweak CS),
     bad_batch blinded prepared ->
     snd (poprf_server_batch_blind_evaluate_finish CS R blinded prepared tweak st) = st).
Proof.
  intros CS L R st after. split; [|split; [|split; [|split; [|split]]]].
  - intros server blinded. destruct (N.ltb_spec 65535 (len blinded)) as [H|H].
    + rewrite voprf_batch_err by auto. reflexivity.
    + rewrite (voprf_batch_ok L) by auto. unfold after.
      destruct (random_scalar (CSGroup CS) R st) as [[r|e| |] st']; auto.
  - intros server blinded. rewrite (voprf_single_ok L). unfold after.
    destruct (random_scalar (CSGroup CS) R st) as [[r|e| |] st']; auto.
  - intros server blinded prepared H. apply bad_batch_len in H. now rewrite voprf_finish_err.
  - intros server blinded info i. change i with (info_or_default info).
    destruct (N.ltb_spec 65535 (len (info_or_default info))) as [Hi|Hi].
    { rewrite orb_true_r. cbn [orb].
      unfold poprf_server_batch_blind_evaluate, poprf_server_batch_blind_evaluate_prepare, rbind, rret.
      rewrite compute_tweak_long by auto. reflexivity. }
    destruct (is_zero_scalar _ _) eqn:Ez.
    { rewrite !orb_true_r.
      unfold poprf_server_batch_blind_evaluate, poprf_server_batch_blind_evaluate_prepare, rbind, rret.
      rewrite (compute_tweak_ok L) by auto. rewrite Ez. reflexivity. }
    apply (is_zero_false (group_laws L)) in Ez.
    destruct (N.ltb_spec 65535 (len blinded)) as [H|H]; cbn [orb].
    + rewrite (poprf_batch_too_long L) by auto. reflexivity.
    + rewrite (poprf_batch_ok L) by auto. unfold after.
      destruct (random_scalar (CSGroup CS) R st) as [[r|e| |] st']; auto.
  - intros server blinded info i. change i with (info_or_default info).
    destruct (N.ltb_spec 65535 (len (info_or_default info))) as [Hi|Hi].
    { unfold poprf_server_blind_evaluate, poprf_server_batch_blind_evaluate_prepare, rbind, rret.
      rewrite compute_tweak_long by auto. reflexivity. }
    destruct (is_zero_scalar _ _) eqn:Ez.
    { unfold poprf_server_blind_evaluate, poprf_server_batch_blind_evaluate_prepare, rbind, rret.
      rewrite (compute_tweak_ok L) by auto. rewrite Ez. reflexivity. }
    apply (is_zero_false (group_laws L)) in Ez.
    rewrite (poprf_single_ok L) by auto. unfold after. cbn [orb].
    destruct (random_scalar (CSGroup CS) R st) as [[r|e| |] st']; auto.
  - intros blinded prepared tweak H. apply bad_batch_len in H. now rewrite poprf_finish_err.
Qed.

(** [new] takes exactly ScalarLen bytes from the RNG, and the server is the
    one derived from those bytes with an empty info. *)
Theorem C29_new_draws_scalar_len :
  forall (CS : CipherSuite) (R : Rng) (st : rng_state R),
  let drawn := fill_bytes R st (N.to_nat (scalar_len (CSGroup CS))) in
  oprf_server_new CS R st = (oprf_server_new_from_seed CS (fst drawn) [], snd drawn) /\
  voprf_server_new CS R st = (voprf_server_new_from_seed CS (fst drawn) [], snd drawn) /\
  poprf_server_new CS R st = (poprf_server_new_from_seed CS (fst drawn) [], snd drawn).
Proof.
  intros CS R st drawn. unfold drawn, oprf_server_new, voprf_server_new, poprf_server_new.
  destruct (fill_bytes R st _) as [seed st']. auto.
Qed.

Example C29_case : snd (random_scalar (CSGroup TS) CtrRng 17%N) <> 17%N.
Proof. vm_compute. discriminate. Qed.

(** ** C30 *)

(** The same RNG output in two proofs reveals the private key (in POPRF the
    tweaked key, from which the key follows by subtracting a public value). *)
Theorem C30_nonce_reuse_reveals_key :
  forall (CS : CipherSuite) (L : SuiteLaws CS) (sk : scalar CS) (R : Rng) (st : rng_state R),
  let G := CSGroup CS in
  let pk := elem_mul G (base_elem G) sk in
  let recover c s c' s' := scalar_mul G (scalar_sub G s s') (s_inv (group_laws L) (scalar_sub G c' c)) in
  (forall blinded blinded' replies replies' c s c' s' st1 st2,
     voprf_server_batch_blind_evaluate CS (mkVoprfServer sk pk) R blinded st
       = (Ok (mkVoprfServerBatchEvaluateResult replies (mkProof c s)), st1) ->
     voprf_server_batch_blind_evaluate CS (mkVoprfServer sk pk) R blinded' st
       = (Ok (mkVoprfServerBatchEvaluateResult replies' (mkProof c' s')), st2) ->
     c <> c' -> sk = recover c s c' s') /\
  (forall info blinded blinded' replies replies' c s c' s' st1 st2,
     poprf_server_batch_blind_evaluate CS (mkPoprfServer sk pk) R blinded (Some info) st
       = (Ok (mkPoprfServerBatchEvaluateResult replies (mkProof c s)), st1) ->
     poprf_server_batch_blind_evaluate CS (mkPoprfServer sk pk) R blinded' (Some info) st
       = (Ok (mkPoprfServerBatchEvaluateResult replies' (mkProof c' s')), st2) ->
     c <> c' -> sk = scalar_sub G (recover c s c' s') (info_scalar L info)).
Proof.
  intros CS L sk R st G pk recover. split.
  - intros blinded blinded' replies replies' c s c' s' st1 st2 H1 H2 Hne.
    destruct (proj1 (C11_proof_is_GenerateProof CS L sk R st) _ _ _ _ H1) as (r & Hr & _ & Hp).
    destruct (proj1 (C11_proof_is_GenerateProof CS L sk R st) _ _ _ _ H2) as (r' & Hr' & _ & Hp').
    rewrite Hr in Hr'. injection Hr' as <- _.
    cbn [c_scalar s_scalar] in *. unfold GenerateProof in Hp, Hp'.
    injection Hp as Hc Hs. injection Hp' as Hc' Hs'. rewrite <- Hc in Hs. rewrite <- Hc' in Hs'.
    now apply (nonce_scalars L r).
  - intros info blinded blinded' replies replies' c s c' s' st1 st2 H1 H2 Hne.
    destruct (proj2 (C11_proof_is_GenerateProof CS L sk R st) _ _ _ _ _ H1) as (r & Hr & _ & Hp).
    destruct (proj2 (C11_proof_is_GenerateProof CS L sk R st) _ _ _ _ _ H2) as (r' & Hr' & _ & Hp').
    rewrite Hr in Hr'. injection Hr' as <- _.
    cbn [c_scalar s_scalar] in *. unfold GenerateProof in Hp, Hp'.
    injection Hp as Hc Hs. injection Hp' as Hc' Hs'. rewrite <- Hc in Hs. rewrite <- Hc' in Hs'.
    unfold recover, G. rewrite <- (nonce_scalars L r c s c' s' (tweaked_scalar L sk info)); auto.
    unfold tweaked_scalar. symmetry. apply (add_sub_cancel (group_laws L)).
Qed.

(** ** C31 *)

(** The reply of each server to a message, as functions on elements. *)
Theorem C31_evaluation_is_permutation :
  forall (CS : CipherSuite) (L : SuiteLaws CS) (sk : scalar CS),
  let G := CSGroup CS in
  sk <> zero_scalar G ->
  let eval := fun b => oprf_server_blind_evaluate CS (mkOprfServer sk) b in
  (forall b b', eval b = eval b' -> b = b') /\
  (forall e, exists b, eval b = e) /\
  (forall b, evaluation_value (eval b) = identity_elem G <-> blinded_value b = identity_elem G) /\
  (forall b, blinded_value b <> identity_elem G ->
     evaluation_deserialize CS (evaluation_serialize CS (eval b)) = Ok (eval b)).
Proof.
  intros CS L sk G Hs eval. subst G.
  assert (Hid : forall b, evaluation_value (eval b) = identity_elem (CSGroup CS) <-> blinded_value b = identity_elem (CSGroup CS)).
  { intros [b]. unfold eval, oprf_server_blind_evaluate. cbn. split.
    - intros E. apply (mul_eq_id (group_laws L)) in E as [E|E]; auto; contradiction.
    - intros ->. apply (id_mul (group_laws L)). }
  split; [|split; [|split]]; auto.
  - intros [b] [b'] E. unfold eval, oprf_server_blind_evaluate in E. cbn in E.
    injection E as E. f_equal. now apply (mul_elem_inj (group_laws L)) in E.
  - intros [e]. exists (mkBlinded (elem_mul (CSGroup CS) e (s_inv (group_laws L) sk))).
    unfold eval, oprf_server_blind_evaluate. cbn. f_equal. now apply (mul_inv_cancel' (group_laws L)).
  - intros b Hb. unfold evaluation_deserialize, evaluation_serialize.
    rewrite <- (app_nil_r (serialize_elem _ _)).
    rewrite (de_elem_app (group_laws L)); [cbn [bind]; now destruct (eval b)|].
    now rewrite Hid.
Qed.

(** The verifiable modes reply with the same kind of function: multiplication
    by the key, or by the inverse of the tweaked key, whatever the RNG. *)
Theorem C31_verifiable_modes :
  forall (CS : CipherSuite) (L : SuiteLaws CS) (R R' : Rng) (st t : rng_state R) (st' t' : rng_state R'),
  let G := CSGroup CS in
  (forall (server : VoprfServer CS) b b' e e' p p',
     voprf_sk server <> zero_scalar G ->
     voprf_server_blind_evaluate CS server R b st = (Ok (mkVoprfServerEvaluateResult e p), t) ->
     voprf_server_blind_evaluate CS server R' b' st' = (Ok (mkVoprfServerEvaluateResult e' p'), t') ->
     (e = e' <-> b = b') /\
     (evaluation_value e = identity_elem G <-> blinded_value b = identity_elem G) /\
     (blinded_value b <> identity_elem G ->
        evaluation_deserialize CS (evaluation_serialize CS e) = Ok e)) /\
  (forall (server : PoprfServer CS) info b b' e e' p p',
     poprf_server_blind_evaluate CS server R b info st = (Ok (mkPoprfServerEvaluateResult e p), t) ->
     poprf_server_blind_evaluate CS server R' b' info st' = (Ok (mkPoprfServerEvaluateResult e' p'), t') ->
     (e = e' <-> b = b') /\
     (evaluation_value e = identity_elem G <-> blinded_value b = identity_elem G) /\
     (blinded_value b <> identity_elem G ->
        evaluation_deserialize CS (evaluation_serialize CS e) = Ok e)).
Proof.
  intros CS L R R' st t st' t' G. subst G.
  assert (Hgen : forall (k : scalar CS) (b b' : BlindedElement CS) (e e' : EvaluationElement CS),
     k <> zero_scalar (CSGroup CS) ->
     e = mkEvaluation (elem_mul (CSGroup CS) (blinded_value b) k) -> e' = mkEvaluation (elem_mul (CSGroup CS) (blinded_value b') k) ->
     (e = e' <-> b = b') /\
     (evaluation_value e = identity_elem (CSGroup CS) <-> blinded_value b = identity_elem (CSGroup CS)) /\
     (blinded_value b <> identity_elem (CSGroup CS) ->
        evaluation_deserialize CS (evaluation_serialize CS e) = Ok e)).
  { intros k [b] [b'] e e' Hk -> ->. cbn [blinded_value evaluation_value].
    assert (Hid : elem_mul (CSGroup CS) b k = identity_elem (CSGroup CS) <-> b = identity_elem (CSGroup CS)).
    { split.
      - intros E. apply (mul_eq_id (group_laws L)) in E as [E|E]; auto; contradiction.
      - intros ->. apply (id_mul (group_laws L)). }
    split; [|split]; auto.
    - split; [|congruence]. intros E. injection E as E. f_equal. now apply (mul_elem_inj (group_laws L)) in E.
    - intros Hb. unfold evaluation_deserialize, evaluation_serialize. cbn [evaluation_value].
      rewrite <- (app_nil_r (serialize_elem _ _)).
      rewrite (de_elem_app (group_laws L)); [reflexivity|]. now rewrite Hid. }
  split.
  - intros server b b' e e' p p' Hk H1 H2. apply (Hgen (voprf_sk server)); auto.
    + rewrite (voprf_single_ok L) in H1.
      destruct (random_scalar (CSGroup CS) R st) as [[r|x| |] ?]; try discriminate.
      now injection H1 as <- _ _.
    + rewrite (voprf_single_ok L) in H2.
      destruct (random_scalar (CSGroup CS) R' st') as [[r|x| |] ?]; try discriminate.
      now injection H2 as <- _ _.
  - intros server info b b' e e' p p' H1 H2.
    destruct (N.leb_spec (len (info_or_default info)) 65535) as [Hi|Hi].
    2:{ unfold poprf_server_blind_evaluate, poprf_server_batch_blind_evaluate_prepare, rbind, rret in H1.
        rewrite compute_tweak_long in H1 by auto. discriminate. }
    destruct (is_zero_scalar (CSGroup CS) (tweaked_scalar L (poprf_sk server) (info_or_default info))) eqn:Ez.
    { unfold poprf_server_blind_evaluate, poprf_server_batch_blind_evaluate_prepare, rbind, rret in H1.
      rewrite (compute_tweak_ok L) in H1 by auto.  rewrite Ez in H1. discriminate. }
    apply (is_zero_false (group_laws L)) in Ez.
    apply (Hgen (s_inv (group_laws L) (tweaked_scalar L (poprf_sk server) (info_or_default info)))).
    + now apply (inv_neq_zero (group_laws L)).
    + rewrite (poprf_single_ok L) in H1 by auto.
      destruct (random_scalar (CSGroup CS) R st) as [[r|x| |] ?]; try discriminate.
      now injection H1 as <- _ _.
    + rewrite (poprf_single_ok L) in H2 by auto.
      destruct (random_scalar (CSGroup CS) R' st') as [[r|x| |] ?]; try discriminate.
      now injection H2 as <- _ _.
Qed.

Example C31_case :
  ex_scalar 42 <> zero_scalar (CSGroup TS) /\
  evaluation_value (oprf_server_blind_evaluate TS (mkOprfServer (CS := TS) (ex_scalar 42)) (mkBlinded (CS := TS) (ex_elem 3)))
    = ex_elem 126 /\
  (exists e p t, voprf_server_blind_evaluate TS (mkVoprfServer (CS := TS) (ex_scalar 42) (ex_elem 42)) CtrRng
     (mkBlinded (CS := TS) (ex_elem 3)) 17 = (Ok (mkVoprfServerEvaluateResult e p), t)) /\
  (exists e p t, poprf_server_blind_evaluate TS (mkPoprfServer (CS := TS) (ex_scalar 42) (ex_elem 42)) CtrRng
     (mkBlinded (CS := TS) (ex_elem 3)) (Some ex_info) 17 = (Ok (mkPoprfServerEvaluateResult e p), t)).
Proof.
  split; [apply ex_neq; vm_compute; reflexivity|].
  split; [apply (Fq_eq (q := 251)); vm_compute; reflexivity|].
  destruct (sampling_cases TL CtrRng 17 ltac:(unfold sampling_ends; vm_compute; discriminate))
    as (r & st' & Hr & _).
  split.
  - rewrite (voprf_single_ok TL), Hr. do 3 eexists. reflexivity.
  - rewrite (poprf_single_ok TL), Hr.
    + do 3 eexists. reflexivity.
    + vm_compute. discriminate.
    + apply ex_neq. vm_compute. reflexivity.
Qed.
