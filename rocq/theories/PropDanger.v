(** * PropDanger: the corners of the API that can panic or lose security.

    Properties C37 (a zero blinding factor handed to the "danger" API) and
    C40 (a custom group that follows the documentation of the [Group] trait).
    The two inversion behaviours in C37 are those of the two implementations
    in the crate: see [C37_ristretto255] and [C37_elliptic_curve]. *)
From Verif Require Import Oprf Voprf Poprf Spec OprfFacts VoprfFacts PoprfFacts Zq.
From Verif Require Import PropCorrectness PropBatch.
Open Scope N_scope.

(** With a zero blinding factor every message is the identity, whatever the
    input: [deterministic_blind_unchecked] does not reject it. *)
Theorem C37_zero_blind_message :
  forall (CS : CipherSuite) (L : SuiteLaws CS) (input : bytes),
  let zero := zero_scalar (CSGroup CS) in
  let id := identity_elem (CSGroup CS) in
  oprf_client_deterministic_blind_unchecked CS input zero
    = Ok (mkOprfClientBlindResult (mkOprfClient zero) (mkBlinded id)) /\
  voprf_client_deterministic_blind_unchecked CS input zero
    = Ok (mkVoprfClientBlindResult (mkVoprfClient zero id) (mkBlinded id)) /\
  poprf_client_deterministic_blind_unchecked CS input zero
    = Ok (mkPoprfClientBlindResult (mkPoprfClient zero id) (mkBlinded id)).
Proof.
  intros CS L input zero id. subst zero id.
  rewrite (oprf_blind_unchecked_ok L), (voprf_blind_unchecked_ok L), (poprf_blind_unchecked_ok L).
  now rewrite !(elem_mul_zero _ (group_laws L)).
Qed.

(** What [VoprfClient::finalize] and [PoprfClient::finalize] do once the proof
    has been accepted, for any blinding factor. *)
Lemma voprf_finalize_accepted {CS} (L : SuiteLaws CS) blind blinded input reply proof pk :
  VerifyProof L modeVOPRF (base_elem (CSGroup CS)) pk [blinded] [evaluation_value reply]
              (c_scalar proof) (s_scalar proof) ->
  voprf_client_finalize CS (mkVoprfClient blind blinded) input reply proof pk
  = (inv <- invert_scalar (CSGroup CS) blind ;;
     voprf_finalize_one CS input (elem_mul (CSGroup CS) (evaluation_value reply) inv)).
Proof.
  intros Hv. apply (verify_proof_ok L _ _ _ _ proof Voprf) in Hv; try reflexivity; [|cbn; lia].
  unfold voprf_client_finalize, voprf_client_batch_finalize, verifiable_unblind.
  cbn [map voprf_blinded_element voprf_blind]. rewrite Hv. cbn. unfold voprf_unblind_one.
  now destruct (invert_scalar _ blind).
Qed.

Lemma poprf_finalize_accepted {CS} (L : SuiteLaws CS) blind blinded input reply proof pk info :
  len (info_or_default info) <= 65535 ->
  tweaked_element L pk (info_or_default info) <> identity_elem (CSGroup CS) ->
  VerifyProof L modePOPRF (base_elem (CSGroup CS)) (tweaked_element L pk (info_or_default info))
              [evaluation_value reply] [blinded] (c_scalar proof) (s_scalar proof) ->
  poprf_client_finalize CS (mkPoprfClient blind blinded) input reply proof pk info
  = (inv <- invert_scalar (CSGroup CS) blind ;;
     poprf_finalize_one CS (elem_mul (CSGroup CS) (evaluation_value reply) inv) input
                        (info_or_default info)).
Proof.
  intros Hi Ht Hv. apply (verify_proof_ok L _ _ _ _ proof Poprf) in Hv; try reflexivity; [|cbn; lia].
  unfold poprf_client_finalize, poprf_client_batch_finalize, poprf_unblind.
  rewrite (compute_tweaked_key_ok L pk (Some (info_or_default info)) Hi).
  cbn [info_or_default]. rewrite (proj2 (is_identity_false (group_laws L) _) Ht). cbn [bind].
  cbn [map poprf_blinded_element poprf_blind]. rewrite Hv. cbn. unfold poprf_unblind_one.
  now destruct (invert_scalar _ blind).
Qed.

(** If inverting zero panics, [finalize] of a client with a zero blinding
    factor panics: always in the base mode, and in the verifiable modes
    exactly when the proof is accepted. *)
Theorem C37_zero_blind_panics :
  forall (CS : CipherSuite) (L : SuiteLaws CS),
  invert_scalar (CSGroup CS) (zero_scalar (CSGroup CS)) = Panic ->
  let zero := zero_scalar (CSGroup CS) in
  let g := base_elem (CSGroup CS) in
  (forall input reply,
     oprf_client_finalize CS (mkOprfClient zero) input reply = Panic) /\
  (forall input blinded reply proof pk,
     VerifyProof L modeVOPRF g pk [blinded] [evaluation_value reply]
                 (c_scalar proof) (s_scalar proof) <->
     voprf_client_finalize CS (mkVoprfClient zero blinded) input reply proof pk = Panic) /\
  (forall input blinded reply proof pk info,
     len (info_or_default info) <= 65535 ->
     let tweaked := tweaked_element L pk (info_or_default info) in
     (tweaked <> identity_elem (CSGroup CS) /\
      VerifyProof L modePOPRF g tweaked [evaluation_value reply] [blinded]
                  (c_scalar proof) (s_scalar proof)) <->
     poprf_client_finalize CS (mkPoprfClient zero blinded) input reply proof pk info = Panic).
Proof.
  intros CS L Hinv zero g. split; [|split].
  - intros input reply. unfold oprf_client_finalize. cbn [oprf_blind]. unfold zero. now rewrite Hinv.
  - intros input blinded reply proof pk. split; intros Hv.
    + rewrite (voprf_finalize_accepted L) by exact Hv. unfold zero. now rewrite Hinv.
    + destruct (verify_proof CS g pk [blinded] [evaluation_value reply] proof Voprf) as [[]|e| |] eqn:E.
      * now apply (verify_proof_ok L) in E; [|reflexivity|cbn; lia].
      * exfalso. unfold voprf_client_finalize, voprf_client_batch_finalize, verifiable_unblind in Hv.
        cbn [map voprf_blinded_element] in Hv. fold g in Hv. rewrite E in Hv. discriminate.
      * exfalso. destruct (verify_proof_cases L g pk [blinded] [evaluation_value reply] proof Voprf)
          as [H|[H|H]]; congruence.
      * exfalso. destruct (verify_proof_cases L g pk [blinded] [evaluation_value reply] proof Voprf)
          as [H|[H|H]]; congruence.
  - intros input blinded reply proof pk info Hi tweaked. split.
    + intros [Ht Hv]. rewrite (poprf_finalize_accepted L) by auto. unfold zero. now rewrite Hinv.
    + intros Hv. unfold poprf_client_finalize, poprf_client_batch_finalize, poprf_unblind in Hv.
      rewrite (compute_tweaked_key_ok L pk (Some (info_or_default info)) Hi) in Hv.
      cbn [info_or_default] in Hv. fold tweaked in Hv.
      destruct (is_identity_elem (CSGroup CS) tweaked) eqn:Et; [discriminate|].
      apply (is_identity_false (group_laws L)) in Et.
      cbn [bind map poprf_blinded_element] in Hv. fold g in Hv.
      destruct (verify_proof CS g tweaked [evaluation_value reply] [blinded] proof Poprf) as [[]|e| |] eqn:E.
      * split; auto. now apply (verify_proof_ok L) in E; [|reflexivity|cbn; lia].
      * discriminate.
      * exfalso. destruct (verify_proof_cases L g tweaked [evaluation_value reply] [blinded] proof Poprf)
          as [H|[H|H]]; congruence.
      * exfalso. destruct (verify_proof_cases L g tweaked [evaluation_value reply] [blinded] proof Poprf)
          as [H|[H|H]]; congruence.
Qed.

(** If inverting zero returns zero, [finalize] of such a client succeeds, with
    an output that is a public function of the input (and info): it does not
    depend on the reply, and so not on the server's key. *)
Theorem C37_zero_blind_forgets_key :
  forall (CS : CipherSuite) (L : SuiteLaws CS),
  invert_scalar (CSGroup CS) (zero_scalar (CSGroup CS)) = Ok (zero_scalar (CSGroup CS)) ->
  let zero := zero_scalar (CSGroup CS) in
  let g := base_elem (CSGroup CS) in
  let id := identity_elem (CSGroup CS) in
  forall input, len input <= 65535 ->
  (forall reply,
     oprf_client_finalize CS (mkOprfClient zero) input reply
     = Ok (digest (CSHash CS) (lv input ++ lv (serialize_elem (CSGroup CS) id) ++ str "Finalize"))) /\
  (forall blinded reply proof pk,
     VerifyProof L modeVOPRF g pk [blinded] [evaluation_value reply]
                 (c_scalar proof) (s_scalar proof) ->
     voprf_client_finalize CS (mkVoprfClient zero blinded) input reply proof pk
     = Ok (digest (CSHash CS) (lv input ++ lv (serialize_elem (CSGroup CS) id) ++ str "Finalize"))) /\
  (forall blinded reply proof pk info,
     len (info_or_default info) <= 65535 ->
     let tweaked := tweaked_element L pk (info_or_default info) in
     tweaked <> id ->
     VerifyProof L modePOPRF g tweaked [evaluation_value reply] [blinded]
                  (c_scalar proof) (s_scalar proof) ->
     poprf_client_finalize CS (mkPoprfClient zero blinded) input reply proof pk info
     = Ok (digest (CSHash CS) (lv input ++ lv (info_or_default info)
                               ++ lv (serialize_elem (CSGroup CS) id) ++ str "Finalize"))).
Proof.
  intros CS L Hinv zero g id input Hl. split; [|split].
  - intros reply. unfold oprf_client_finalize. cbn [oprf_blind]. unfold zero. rewrite Hinv.
    cbn [bind]. rewrite (elem_mul_zero _ (group_laws L)).
    cbn [oprf_finalize_after_unblind map next_unwrap]. now rewrite (oprf_finalize_one_ok L).
  - intros blinded reply proof pk Hv. rewrite (voprf_finalize_accepted L) by exact Hv.
    unfold zero. rewrite Hinv. cbn [bind]. rewrite (elem_mul_zero _ (group_laws L)).
    now rewrite (voprf_finalize_one_ok L).
  - intros blinded reply proof pk info Hi tweaked Ht Hv. rewrite (poprf_finalize_accepted L) by auto.
    unfold zero. rewrite Hinv. cbn [bind]. rewrite (elem_mul_zero _ (group_laws L)).
    now rewrite (poprf_finalize_one_ok L).
Qed.

(** An honest server does answer the identity, with a proof that is accepted:
    an honest run with a zero blinding factor reaches the cases above. *)
Theorem C37_honest_server_answers :
  forall (CS : CipherSuite) (L : SuiteLaws CS) (R : Rng) (sk : scalar CS)
         (st st' : rng_state R) (r : scalar CS),
  random_scalar (CSGroup CS) R st = (Ok r, st') ->
  let g := base_elem (CSGroup CS) in
  let id := identity_elem (CSGroup CS) in
  let pk := elem_mul (CSGroup CS) g sk in
  (exists proof,
    voprf_server_blind_evaluate CS (mkVoprfServer sk pk) R (mkBlinded id) st
    = (Ok (mkVoprfServerEvaluateResult (mkEvaluation id) proof), st') /\
    VerifyProof L modeVOPRF g pk [id] [id] (c_scalar proof) (s_scalar proof)) /\
  (forall info, len (info_or_default info) <= 65535 ->
   tweaked_scalar L sk (info_or_default info) <> zero_scalar (CSGroup CS) ->
   let tweaked := tweaked_element L pk (info_or_default info) in
   tweaked <> id /\
   exists proof,
    poprf_server_blind_evaluate CS (mkPoprfServer sk pk) R (mkBlinded id) info st
    = (Ok (mkPoprfServerEvaluateResult (mkEvaluation id) proof), st') /\
    VerifyProof L modePOPRF g tweaked [id] [id] (c_scalar proof) (s_scalar proof)).
Proof.
  intros CS L R sk st st' r Hr g id pk. split.
  - exists (voprf_batch_proof (voprf_batch_result L (mkVoprfServer sk pk) [mkBlinded id] r)). split.
    + rewrite (voprf_single_ok L), Hr. cbn [voprf_sk blinded_value].
      unfold id. now rewrite (id_mul (group_laws L)).
    + pose proof (voprf_honest_verifies L sk [mkBlinded id] r) as Hv. cbv zeta in Hv.
      specialize (Hv ltac:(cbn; lia)).
      apply (verify_proof_ok L) in Hv; [|reflexivity|cbn; lia].
      cbn [map blinded_value voprf_batch_messages voprf_batch_result voprf_sk evaluation_value mode_id] in Hv.
      unfold id in Hv at 2. rewrite (id_mul (group_laws L)) in Hv. exact Hv.
  - intros info Hi Ht tweaked. subst tweaked.
    split; [intros E; apply Ht, (tweaked_element_identity L); exact E|].
    exists (poprf_batch_proof (poprf_batch_result L (tweaked_scalar L sk (info_or_default info)) [mkBlinded id] r)). split.
    + rewrite (poprf_single_ok L), Hr by auto. cbn [poprf_sk blinded_value].
      unfold id. now rewrite (id_mul (group_laws L)).
    + pose proof (poprf_honest_verifies L (tweaked_scalar L sk (info_or_default info)) [mkBlinded id] r) as Hv.
      cbv zeta in Hv. specialize (Hv ltac:(cbn; lia) Ht).
      apply (verify_proof_ok L) in Hv; [|reflexivity|cbn; lia].
      cbn [map blinded_value poprf_batch_messages poprf_batch_result evaluation_value mode_id] in Hv.
      unfold id in Hv at 1. rewrite (id_mul (group_laws L)) in Hv.
      unfold pk, g. rewrite (tweaked_element_gen L). exact Hv.
Qed.

(** ** A zero blinding factor: examples *)

(** [TS] inverts zero by panicking, like the elliptic-curve suites. *)
Example C37_case :
  invert_scalar (CSGroup TS) (zero_scalar (CSGroup TS)) = Panic /\
  exists r, random_scalar (CSGroup TS) CtrRng 17 = (Ok r, 18).
Proof. split; [reflexivity|]. eexists. vm_compute. reflexivity. Qed.

(** ** C40: the documented contract of the [Group] trait *)

(** group/mod.rs:52-57 and 63-68: "Error::Input if the input is empty or
    longer than u16::MAX", read as a specification of a hashing function: it
    fails on such inputs and on no other (given a non-empty tag), and depends
    only on the hashed string. *)
Definition documented_hash {A : Type} (f : list bytes -> list bytes -> ires A) : Prop :=
  exists h : bytes -> bytes -> A, forall msgs tags, concat tags <> [] ->
    f msgs tags =
    if (len (concat msgs) =? 0) || (65535 <? len (concat msgs)) then Err IInput
    else Ok (h (concat msgs) (concat tags)).

Definition follows_documentation (CS : CipherSuite) : Prop :=
  documented_hash (hash_to_curve (CSGroup CS) (CSHash CS)) /\
  documented_hash (hash_to_scalar (CSGroup CS) (CSHash CS)).

Lemma documented_framed CS info dst :
  documented_hash (hash_to_scalar (CSGroup CS) (CSHash CS)) ->
  concat (as_dst dst) <> [] ->
  65530 <= len info ->
  unwrap (E' := Error)
    (hash_to_scalar (CSGroup CS) (CSHash CS)
       [STR_INFO; u16_to_be_bytes (len info); info] (as_dst dst)) = Panic.
Proof.
  intros [h Hh] Hd Hi. rewrite Hh by auto.
  destruct (N.ltb_spec 65535 (len (concat [STR_INFO; u16_to_be_bytes (len info); info]))) as [H|H].
  - now rewrite Bool.orb_true_r.
  - exfalso. cbn [concat] in H. rewrite !len_app in H.
    change (len STR_INFO) with 4 in H. change (len (u16_to_be_bytes (len info))) with 2 in H. lia.
Qed.

Lemma dst_new_shape CS label mode :
  dst_new CS label mode = Panic \/
  exists d, dst_new CS label mode = Ok d /\ concat (as_dst d) <> [].
Proof.
  unfold dst_new. destruct (_ <=? u16_max); [right|left; reflexivity].
  eexists; split; [reflexivity|]. unfold as_dst. cbn [concat dst_1 dst_2].
  intros E. apply app_eq_nil in E as [E _]. apply app_eq_nil in E as [_ E].
  apply app_eq_nil in E as [E _]. discriminate.
Qed.

Lemma documented_tweak CS sk info :
  documented_hash (hash_to_scalar (CSGroup CS) (CSHash CS)) ->
  65530 <= len (info_or_default info) <= 65535 -> compute_tweak CS sk info = Panic.
Proof.
  intros Hd [H1 H2]. unfold compute_tweak, framed_info_of, i2osp_2.
  rewrite (proj2 (N.leb_le _ _) H2 : (_ <=? u16_max) = true). cbn [map_err bind].
  destruct (dst_new_shape CS STR_HASH_TO_SCALAR Poprf) as [->|(d & -> & Hne)]; [reflexivity|].
  cbn [bind]. now rewrite (documented_framed CS) by auto.
Qed.

Lemma documented_tweaked_key CS pk info :
  documented_hash (hash_to_scalar (CSGroup CS) (CSHash CS)) ->
  65530 <= len (info_or_default info) <= 65535 -> compute_tweaked_key CS pk info = Panic.
Proof.
  intros Hd [H1 H2]. unfold compute_tweaked_key, framed_info_of, i2osp_2.
  rewrite (proj2 (N.leb_le _ _) H2 : (_ <=? u16_max) = true). cbn [map_err bind].
  destruct (dst_new_shape CS STR_HASH_TO_SCALAR Poprf) as [->|(d & -> & Hne)]; [reflexivity|].
  cbn [bind]. now rewrite (documented_framed CS) by auto.
Qed.

(** With a group that follows the documentation, info of 65530 to 65535 bytes
    makes every POPRF call that takes info panic ([evaluate] first hashes the
    input, which may fail on its own). *)
Theorem C40_documented_contract_panics :
  forall (CS : CipherSuite), follows_documentation CS ->
  forall info, 65530 <= len (info_or_default info) <= 65535 ->
  (forall (R : Rng) server blinded st,
     poprf_server_blind_evaluate CS server R blinded info st = (Panic, st)) /\
  (forall (R : Rng) server blinded st,
     poprf_server_batch_blind_evaluate CS server R blinded info st = (Panic, st)) /\
  (forall server blinded,
     poprf_server_batch_blind_evaluate_prepare CS server blinded info = Panic) /\
  (forall client input reply proof pk,
     poprf_client_finalize CS client input reply proof pk info = Panic) /\
  (forall inputs clients replies proof pk,
     poprf_client_batch_finalize CS inputs clients replies proof pk info = Panic) /\
  (forall server input,
     poprf_server_evaluate CS server input info = Panic \/
     poprf_server_evaluate CS server input info = Err EInput).
Proof.
  intros CS [Hc Hs] info Hi.
  assert (Hp : forall server blinded,
    poprf_server_batch_blind_evaluate_prepare CS server blinded info = Panic).
  { intros. unfold poprf_server_batch_blind_evaluate_prepare. now rewrite documented_tweak. }
  assert (Hf : forall inputs clients replies proof pk,
     poprf_client_batch_finalize CS inputs clients replies proof pk info = Panic).
  { intros. unfold poprf_client_batch_finalize, poprf_unblind.
    rewrite (documented_tweaked_key CS pk (Some (info_or_default info))); auto. }
  split; [|split; [|split; [|split; [|split]]]]; auto.
  - intros. unfold poprf_server_blind_evaluate, rbind, rret at 1. now rewrite Hp.
  - intros. unfold poprf_server_batch_blind_evaluate, rbind, rret at 1. now rewrite Hp.
  - intros. unfold poprf_client_finalize. now rewrite Hf.
  - intros. unfold poprf_server_evaluate, hash_to_group.
    destruct (dst_new_shape CS STR_HASH_TO_GROUP Poprf) as [->|(d & -> & Hne)]; [left; reflexivity|].
    cbn [bind]. destruct Hc as [h Hh]. rewrite Hh by auto.
    destruct (_ || _)%bool; cbn [map_err bind]; [right; reflexivity|].
    destruct (is_identity_elem _ _); [right; reflexivity|].
    rewrite documented_tweak by auto. now left.
Qed.

(** With the hash functions of the built-in groups, which accept every
    length, the same calls return the tweak or an error and do not panic. *)
Theorem C40_builtin_groups_do_not_panic :
  forall (CS : CipherSuite) (L : SuiteLaws CS) info, len (info_or_default info) <= 65535 ->
  (forall server blinded,
     let t := tweaked_scalar L (poprf_sk server) (info_or_default info) in
     match poprf_server_batch_blind_evaluate_prepare CS server blinded info with
     | Ok p => t <> zero_scalar (CSGroup CS) /\ tweak_value (poprf_prepared_tweak p) = t
     | Err e => t = zero_scalar (CSGroup CS) /\ e = EProtocol
     | Panic | Diverge => False
     end) /\
  (forall (R : Rng) server blinded st,
     fst (poprf_server_blind_evaluate CS server R blinded info st) <> Panic) /\
  (forall client input reply proof pk,
     poprf_blind client <> zero_scalar (CSGroup CS) ->
     poprf_client_finalize CS client input reply proof pk info <> Panic).
Proof.
  intros CS L info Hi. split; [|split].
  - intros server blinded t.
    destruct (scalar_eq_dec (group_laws L) t (zero_scalar (CSGroup CS))) as [Hz|Hz].
    + unfold poprf_server_batch_blind_evaluate_prepare. rewrite (compute_tweak_ok L) by auto.
      fold t. rewrite (proj2 (is_zero_spec _ (group_laws L) t) Hz). cbn [bind]. auto.
    + rewrite (poprf_prepare_ok L) by auto. cbn [poprf_prepared_tweak tweak_value]. auto.
  - intros R server blinded st.
    destruct (scalar_eq_dec (group_laws L) (tweaked_scalar L (poprf_sk server) (info_or_default info))
                (zero_scalar (CSGroup CS))) as [Hz|Hz].
    + unfold poprf_server_blind_evaluate, rbind, rret at 1, poprf_server_batch_blind_evaluate_prepare.
      rewrite (compute_tweak_ok L) by auto. rewrite (proj2 (is_zero_spec _ (group_laws L) _) Hz).
      cbn. discriminate.
    + rewrite (poprf_single_ok L) by auto.
      pose proof (random_nonzero _ (group_laws L) R st) as Hr.
      destruct (random_scalar (CSGroup CS) R st) as [[r|e| |] st']; cbn in *; try discriminate; contradiction.
  - intros client input reply proof pk Hb.
    unfold poprf_client_finalize, poprf_client_batch_finalize, poprf_unblind.
    rewrite (compute_tweaked_key_ok L pk (Some (info_or_default info)) Hi).
    destruct (is_identity_elem _ _); [discriminate|]. cbn [bind].
    match goal with |- context [verify_proof CS ?a ?b ?c ?d ?p ?m] =>
      destruct (verify_proof_cases L a b c d p m) as [E|[E|E]]; rewrite E end; try discriminate.
    cbn. unfold poprf_unblind_one. rewrite (invert_nonzero _ (group_laws L)) by auto. cbn [bind].
    unfold poprf_finalize_one.
    destruct (i2osp_2 (len input)) eqn:E1; cbn; try discriminate;
      try (unfold i2osp_2 in E1; destruct (_ <=? _); discriminate).
    destruct (i2osp_2 (len (info_or_default info))) eqn:E2; cbn; try discriminate;
      try (unfold i2osp_2 in E2; destruct (_ <=? _); discriminate).
Qed.

(** ** A group that follows the documentation: [TS] with the two checks. *)
Definition documented_group (G : Group) : Group := {|
  Elem := Elem G; Scalar := Scalar G;
  elem_len := elem_len G; scalar_len := scalar_len G;
  elem_ct_eq := elem_ct_eq G; elem_add := elem_add G; elem_mul := elem_mul G;
  zeroize_elem := zeroize_elem G;
  scalar_ct_eq := scalar_ct_eq G; scalar_add := scalar_add G; scalar_mul := scalar_mul G;
  scalar_sub := scalar_sub G; zeroize_scalar := zeroize_scalar G;
  hash_to_curve := fun H msgs tags =>
    if (len (concat msgs) =? 0) || (65535 <? len (concat msgs)) then Err IInput
    else hash_to_curve G H msgs tags;
  hash_to_scalar := fun H msgs tags =>
    if (len (concat msgs) =? 0) || (65535 <? len (concat msgs)) then Err IInput
    else hash_to_scalar G H msgs tags;
  base_elem := base_elem G; identity_elem := identity_elem G;
  serialize_elem := serialize_elem G; deserialize_elem := deserialize_elem G;
  random_scalar := random_scalar G; invert_scalar := invert_scalar G;
  is_zero_scalar := is_zero_scalar G; zero_scalar := zero_scalar G;
  serialize_scalar := serialize_scalar G; deserialize_scalar := deserialize_scalar G
|}.

Definition documented_suite (CS : CipherSuite) : CipherSuite :=
  {| ID := ID CS; CSGroup := documented_group (CSGroup CS); CSHash := CSHash CS |}.

Lemma documented_suite_ok {CS} (L : SuiteLaws CS) : follows_documentation (documented_suite CS).
Proof.
  split.
  - exists (HashToGroup L). intros msgs tags Ht. cbn.
    rewrite (hash_to_curve_spec _ L) by auto. now destruct (_ || _)%bool.
  - exists (HashToScalar L). intros msgs tags Ht. cbn.
    rewrite (hash_to_scalar_spec _ L) by auto. now destruct (_ || _)%bool.
Qed.

Definition documented_group_laws {G} (GL : GroupLaws G) : GroupLaws (documented_group G).
Proof. destruct GL. econstructor; cbn; eauto. Defined.

Example C40_case :
  follows_documentation (documented_suite TS) /\
  (exists GL : GroupLaws (CSGroup (documented_suite TS)), s_one GL <> zero_scalar _) /\
  (forall R server blinded st,
     poprf_server_blind_evaluate (documented_suite TS) server R blinded
       (Some (repeat x61 (N.to_nat 65530))) st = (Panic, st)) /\
  (match poprf_server_batch_blind_evaluate_prepare (documented_suite TS)
           (mkPoprfServer (CS := documented_suite TS) (zero_scalar (CSGroup TS)) (identity_elem (CSGroup TS))) []
           (Some (str "a short info")) with Ok _ => true | _ => false end = true).
Proof.
  split; [apply (documented_suite_ok TL)|]. split; [|split].
  - exists (documented_group_laws (group_laws TL)). exact (F_1_neq_0 (scalar_field _ (group_laws TL))).
  - intros. apply (C40_documented_contract_panics (documented_suite TS) (documented_suite_ok TL)
      (Some (repeat x61 (N.to_nat 65530)))).
    cbn [info_or_default]. unfold len. rewrite repeat_length. lia.
  - vm_compute. reflexivity.
Qed.
