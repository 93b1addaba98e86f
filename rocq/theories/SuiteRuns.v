(** * SuiteRuns: correctness of the three protocols stated for one suite,
    without reference to [SuiteLaws].

    Used for concrete suites, where nothing remains to be assumed. *)
From Verif Require Export Oprf Voprf Poprf Spec PropCorrectness.
From Verif Require Import GroupFacts.
Open Scope N_scope.

Section Works.
Context (CS : CipherSuite).
Local Notation G := (CSGroup CS).

(** RFC 9497, sections 3.1 and 4: the tags. *)
Definition group_tag (mode : N) : bytes :=
  str "HashToGroup-" ++ str "OPRFV1-" ++ I2OSP mode 1 ++ str "-" ++ ID CS.
Definition scalar_tag (mode : N) : bytes :=
  str "HashToScalar-" ++ str "OPRFV1-" ++ I2OSP mode 1 ++ str "-" ++ ID CS.

(** The output for an evaluated element, RFC 9497, sections 3.3.1 to 3.3.3. *)
Definition output (input : bytes) (e : elem CS) : bytes :=
  digest (CSHash CS) (lv input ++ lv (serialize_elem G e) ++ str "Finalize").
Definition output_info (input info : bytes) (e : elem CS) : bytes :=
  digest (CSHash CS) (lv input ++ lv info ++ lv (serialize_elem G e) ++ str "Finalize").

(** Every run between an honest client and an honest server with private key
    [sk] gives the output for [sk * Q], where [Q] is the hash of the input. *)
Definition oprf_works : Prop :=
  forall (sk : scalar CS) (input : bytes) (Q : elem CS) (R : Rng) (st : rng_state R),
  len input <= 65535 ->
  hash_to_curve G (CSHash CS) [input] [group_tag 0] = Ok Q -> Q <> identity_elem G ->
  sampling_ends G R st ->
  let out := output input (elem_mul G Q sk) in
  oprf_server_evaluate CS (mkOprfServer sk) input = Ok out /\
  exists client message st',
    oprf_client_blind CS R input st = (Ok (mkOprfClientBlindResult client message), st') /\
    oprf_client_finalize CS client input (oprf_server_blind_evaluate CS (mkOprfServer sk) message) = Ok out.

Definition voprf_works : Prop :=
  forall (sk : scalar CS) (input : bytes) (Q : elem CS)
         (Rc : Rng) (stc : rng_state Rc) (Rs : Rng) (sts : rng_state Rs),
  len input <= 65535 ->
  hash_to_curve G (CSHash CS) [input] [group_tag 1] = Ok Q -> Q <> identity_elem G ->
  sampling_ends G Rc stc -> sampling_ends G Rs sts ->
  let pk := elem_mul G (base_elem G) sk in
  let server := mkVoprfServer sk pk in
  let out := output input (elem_mul G Q sk) in
  voprf_server_evaluate CS server input = Ok out /\
  exists client message stc' reply proof sts',
    voprf_client_blind CS Rc input stc = (Ok (mkVoprfClientBlindResult client message), stc') /\
    voprf_server_blind_evaluate CS server Rs message sts
      = (Ok (mkVoprfServerEvaluateResult reply proof), sts') /\
    voprf_client_finalize CS client input reply proof pk = Ok out.

(** POPRF: with t = sk + HashToScalar("Info" || info), the evaluated element
    [E] is the one with t * E = Q. *)
Definition poprf_works : Prop :=
  forall (sk m : scalar CS) (input info : bytes) (Q E : elem CS)
         (Rc : Rng) (stc : rng_state Rc) (Rs : Rng) (sts : rng_state Rs),
  len input <= 65535 -> len info <= 65535 ->
  hash_to_curve G (CSHash CS) [input] [group_tag 2] = Ok Q -> Q <> identity_elem G ->
  hash_to_scalar G (CSHash CS) [str "Info" ++ lv info] [scalar_tag 2] = Ok m ->
  scalar_add G sk m <> zero_scalar G -> elem_mul G E (scalar_add G sk m) = Q ->
  sampling_ends G Rc stc -> sampling_ends G Rs sts ->
  let pk := elem_mul G (base_elem G) sk in
  let server := mkPoprfServer sk pk in
  let out := output_info input info E in
  poprf_server_evaluate CS server input (Some info) = Ok out /\
  exists client message stc' reply proof sts',
    poprf_client_blind CS Rc input stc = (Ok (mkPoprfClientBlindResult client message), stc') /\
    poprf_server_blind_evaluate CS server Rs message (Some info) sts
      = (Ok (mkPoprfServerEvaluateResult reply proof), sts') /\
    poprf_client_finalize CS client input reply proof pk (Some info) = Ok out.

Context (L : SuiteLaws CS).

Lemma tag_neq (x : bytes) : str "HashToGroup-" ++ x <> [].
Proof. discriminate. Qed.
Lemma stag_neq (x : bytes) : str "HashToScalar-" ++ x <> [].
Proof. discriminate. Qed.

Lemma hashed_Q mode input Q : hash_to_curve G (CSHash CS) [input] [group_tag mode] = Ok Q ->
  H2G L mode input = Q.
Proof.
  rewrite (hash_to_curve_spec _ L); cbn [concat]; rewrite ?app_nil_r; [|apply tag_neq].
  intros E. assert (E' : forall (a b : elem CS), @Ok InternalError _ a = Ok b -> a = b) by (intros a b K; now injection K).
  apply E' in E. exact E.
Qed.
Lemma hashed_m x m : hash_to_scalar G (CSHash CS) [x] [scalar_tag 2] = Ok m -> H2S L modePOPRF x = m.
Proof.
  rewrite (hash_to_scalar_spec _ L); cbn [concat]; rewrite ?app_nil_r; [|apply stag_neq].
  intros E. assert (E' : forall (a b : scalar CS), @Ok InternalError _ a = Ok b -> a = b) by (intros a b K; now injection K).
  apply E' in E. exact E.
Qed.

Theorem oprf_works_ok : oprf_works.
Proof.
  intros sk input Q R st Hi HQ Hn Hs. apply hashed_Q in HQ. subst Q.
  exact (C01_oprf_correct CS L sk input R st Hi Hn Hs).
Qed.
Theorem voprf_works_ok : voprf_works.
Proof.
  intros sk input Q Rc stc Rs sts Hi HQ Hn Hc Hs. apply hashed_Q in HQ. subst Q.
  exact (C02_voprf_correct CS L sk input Rc stc Rs sts Hi Hn Hc Hs).
Qed.
Theorem poprf_works_ok : poprf_works.
Proof.
  intros sk m input info Q E Rc stc Rs sts Hi Hf HQ Hn Hm Ht HE Hc Hs.
  apply hashed_Q in HQ. apply hashed_m in Hm.
  assert (Em : tweaked_scalar L sk info = scalar_add G sk m) by (unfold tweaked_scalar, info_scalar; now rewrite Hm).
  assert (EE : E = elem_mul G Q (s_inv (group_laws L) (tweaked_scalar L sk info))).
  { rewrite Em, <- HE. symmetry. now apply (mul_inv_cancel (group_laws L)). }
  assert (Eo : output_info input info E = POPRF L sk input info).
  { unfold output_info, POPRF, FinalizeHashInfo. rewrite EE, <- HQ. reflexivity. }
  intros pk server out. unfold out. rewrite Eo.
  apply (C03_poprf_correct CS L sk input info Rc stc Rs sts Hi Hf); auto.
  - intros K. apply Hn. rewrite <- HQ. exact K.
  - rewrite Em. exact Ht.
Qed.
End Works.
