(** * PoprfFacts: lemmas about the partially oblivious mode. *)
From Verif Require Export Poprf CommonFacts OprfFacts VoprfFacts.
Open Scope N_scope.

Section PoprfFacts.
Context {CS : CipherSuite} (L : SuiteLaws CS).
Local Notation G := (CSGroup CS).
Local Notation GL := (group_laws L).
Local Notation "P [+] Q" := (elem_add G P Q) (at level 50, left associativity).
Local Notation "k [*] P" := (elem_mul G P k) (at level 40).
Local Notation Gen := (base_elem G).
Add Field scalar_field_inst : (scalar_field G GL).

Lemma poprf_blind_unchecked_ok input blind :
  poprf_client_deterministic_blind_unchecked CS input blind
  = Ok (mkPoprfClientBlindResult
          (mkPoprfClient blind (blind [*] H2G L modePOPRF input))
          (mkBlinded (blind [*] H2G L modePOPRF input))).
Proof.
  unfold poprf_client_deterministic_blind_unchecked.
  rewrite (deterministic_blind_unchecked_ok L). reflexivity.
Qed.

Lemma poprf_blind_ok R input st :
  poprf_client_blind CS R input st =
  match random_scalar G R st with
  | (Ok r, st') => (Ok (mkPoprfClientBlindResult
                          (mkPoprfClient r (r [*] H2G L modePOPRF input))
                          (mkBlinded (r [*] H2G L modePOPRF input))), st')
  | (Err e, st') => (Err e, st')
  | (Panic, st') => (Panic, st')
  | (Diverge, st') => (Diverge, st')
  end.
Proof.
  unfold poprf_client_blind, rbind. destruct (random_scalar G R st) as [[r|e| |] st']; auto.
  unfold rret. now rewrite poprf_blind_unchecked_ok.
Qed.

(** ** The tweak *)

Lemma framed_info_ok info :
  hash_to_scalar G (CSHash CS) [STR_INFO; I2OSP (len info) 2; info]
    (as_dst (the_dst (CS := CS) STR_HASH_TO_SCALAR Poprf)) = Ok (info_scalar L info).
Proof.
  rewrite (h2s_ok L). f_equal. unfold info_scalar. f_equal.
  cbn [concat]. rewrite app_nil_r. reflexivity.
Qed.

Lemma compute_tweak_long sk info :
  65535 < len (info_or_default info) -> compute_tweak CS sk info = Err EInfo.
Proof. intros Hl. unfold compute_tweak, framed_info_of. now rewrite i2osp_2_err. Qed.

Lemma compute_tweak_ok sk info :
  len (info_or_default info) <= 65535 ->
  compute_tweak CS sk info =
  if is_zero_scalar G (tweaked_scalar L sk (info_or_default info)) then Err EProtocol
  else Ok (tweaked_scalar L sk (info_or_default info)).
Proof.
  intros Hl. unfold compute_tweak, framed_info_of. rewrite i2osp_2_ok by auto. cbn [map_err bind].
  rewrite (dst_new_ok L) by (vm_compute; discriminate). cbn [bind].
  rewrite framed_info_ok. reflexivity.
Qed.

Lemma compute_tweaked_key_long pk info :
  65535 < len (info_or_default info) -> compute_tweaked_key CS pk info = Err EInfo.
Proof. intros Hl. unfold compute_tweaked_key, framed_info_of. now rewrite i2osp_2_err. Qed.

Lemma compute_tweaked_key_ok pk info :
  len (info_or_default info) <= 65535 ->
  compute_tweaked_key CS pk info =
  if is_identity_elem G (tweaked_element L pk (info_or_default info)) then Err EProtocol
  else Ok (tweaked_element L pk (info_or_default info)).
Proof.
  intros Hl. unfold compute_tweaked_key, framed_info_of. rewrite i2osp_2_ok by auto. cbn [map_err bind].
  rewrite (dst_new_ok L) by (vm_compute; discriminate). cbn [bind].
  rewrite framed_info_ok. reflexivity.
Qed.

(** The two sides of the tweak agree. *)
Lemma tweaked_element_gen sk info :
  tweaked_element L (sk [*] Gen) info = tweaked_scalar L sk info [*] Gen.
Proof.
  unfold tweaked_element, tweaked_scalar. rewrite (add_mul GL). f_equal. ring.
Qed.

Lemma tweaked_element_identity sk info :
  tweaked_element L (sk [*] Gen) info = identity_elem G <-> tweaked_scalar L sk info = zero_scalar G.
Proof.
  rewrite tweaked_element_gen. split.
  - intros H. apply (mul_eq_id GL) in H as [H|H]; auto. now apply (base_not_identity G GL) in H.
  - intros ->. apply (elem_mul_zero G GL).
Qed.

(** ** Evaluation *)

Lemma poprf_prepare_ok srv bs info :
  len (info_or_default info) <= 65535 ->
  let t := tweaked_scalar L (poprf_sk srv) (info_or_default info) in
  t <> zero_scalar G ->
  poprf_server_batch_blind_evaluate_prepare CS srv bs info
  = Ok (mkPoprfPrepareResult
          (map (fun b => Ok (mkPrepared (mkEvaluation (s_inv GL t [*] blinded_value b)))) bs)
          (mkPreparedTweak t)).
Proof.
  intros Hl t Ht. unfold poprf_server_batch_blind_evaluate_prepare.
  rewrite compute_tweak_ok by auto. fold t. rewrite (proj2 (is_zero_false GL _) Ht). cbn [bind].
  f_equal. f_equal. induction bs; simpl; auto. rewrite IHbs.
  now rewrite (invert_nonzero G GL).
Qed.

Lemma collect_map_ok {E A B} (f : A -> B) l :
  collect (map (fun a => Ok (f a)) l) = Ok (E := E) (map f l).
Proof. induction l; simpl; auto. now rewrite IHl. Qed.

Lemma poprf_finish_ok R bs es t st :
  len bs = len es -> len bs <= 65535 ->
  poprf_server_batch_blind_evaluate_finish CS R bs es t st =
  let C := map (fun e => evaluation_value (prepared_value e)) es in
  let D := map blinded_value bs in
  let k := tweak_value t in
  let M := compositeM L modePOPRF (k [*] Gen) C D in
  match random_scalar G R st with
  | (Ok r, st') =>
      (Ok (mkPoprfServerBatchEvaluateResult (map mkEvaluation C)
             (proof_with L modePOPRF k Gen (k [*] Gen) M (k [*] M) r)), st')
  | (Err e, st') => (Err e, st')
  | (Panic, st') => (Panic, st')
  | (Diverge, st') => (Diverge, st')
  end.
Proof.
  intros He Hl. unfold poprf_server_batch_blind_evaluate_finish, rbind.
  rewrite (generate_proof_ok L) by (rewrite ?len_map; auto; lia).
  cbv zeta. destruct (random_scalar G R st) as [[r|e| |] st']; auto.
  unfold rret. rewrite map_map. reflexivity.
Qed.

Lemma poprf_finish_err R bs es t st :
  len bs <> len es \/ 65535 < len bs ->
  poprf_server_batch_blind_evaluate_finish CS R bs es t st = (Err EBatch, st).
Proof.
  intros Hc. unfold poprf_server_batch_blind_evaluate_finish, rbind.
  rewrite generate_proof_err; auto. rewrite !len_map.
  destruct (N.eq_dec (len es) (len bs)); [|auto]. right. destruct Hc; lia.
Qed.

Definition poprf_batch_result (t : scalar CS) (bs : list (BlindedElement CS)) (r : scalar CS)
  : PoprfServerBatchEvaluateResult CS :=
  let D := map blinded_value bs in
  let C := map (fun P => s_inv GL t [*] P) D in
  let M := compositeM L modePOPRF (t [*] Gen) C D in
  mkPoprfServerBatchEvaluateResult (map mkEvaluation C)
    (proof_with L modePOPRF t Gen (t [*] Gen) M (t [*] M) r).

Lemma poprf_batch_ok R srv bs info st :
  len (info_or_default info) <= 65535 -> len bs <= 65535 ->
  let t := tweaked_scalar L (poprf_sk srv) (info_or_default info) in
  t <> zero_scalar G ->
  poprf_server_batch_blind_evaluate CS srv R bs info st =
  match random_scalar G R st with
  | (Ok r, st') => (Ok (poprf_batch_result t bs r), st')
  | (Err e, st') => (Panic, st')
  | (Panic, st') => (Panic, st')
  | (Diverge, st') => (Diverge, st')
  end.
Proof.
  intros Hi Hl t Ht. unfold poprf_server_batch_blind_evaluate, rbind, rret at 1.
  rewrite poprf_prepare_ok by auto. fold t. cbn [poprf_prepared_elements poprf_prepared_tweak].
  unfold rret at 1. rewrite collect_map_ok. unfold runwrap.
  rewrite poprf_finish_ok by (rewrite ?len_map; auto). cbv zeta. cbn [tweak_value].
  destruct (random_scalar G R st) as [[r|e| |] st']; auto.
  cbn [unwrap]. unfold rret, poprf_batch_result. cbn [poprf_batch_messages poprf_batch_proof].
  rewrite !map_map. reflexivity.
Qed.

Lemma poprf_batch_too_long R srv bs info st :
  len (info_or_default info) <= 65535 -> 65535 < len bs ->
  tweaked_scalar L (poprf_sk srv) (info_or_default info) <> zero_scalar G ->
  poprf_server_batch_blind_evaluate CS srv R bs info st = (Panic, st).
Proof.
  intros Hi Hl Ht. unfold poprf_server_batch_blind_evaluate, rbind, rret at 1.
  rewrite poprf_prepare_ok by auto. cbn [poprf_prepared_elements poprf_prepared_tweak].
  unfold rret at 1. rewrite collect_map_ok. unfold runwrap.
  now rewrite poprf_finish_err by (rewrite ?len_map; auto).
Qed.

Lemma poprf_single_ok R srv b info st :
  len (info_or_default info) <= 65535 ->
  let t := tweaked_scalar L (poprf_sk srv) (info_or_default info) in
  t <> zero_scalar G ->
  poprf_server_blind_evaluate CS srv R b info st =
  match random_scalar G R st with
  | (Ok r, st') =>
      (Ok (mkPoprfServerEvaluateResult (mkEvaluation (s_inv GL t [*] blinded_value b))
             (poprf_batch_proof (poprf_batch_result t [b] r))), st')
  | (Err e, st') => (Panic, st')
  | (Panic, st') => (Panic, st')
  | (Diverge, st') => (Diverge, st')
  end.
Proof.
  intros Hi t Ht. unfold poprf_server_blind_evaluate, rbind, rret at 1.
  rewrite poprf_prepare_ok by auto. fold t. cbn [poprf_prepared_elements poprf_prepared_tweak].
  unfold rret at 1. cbn [map next_unwrap]. unfold runwrap.
  rewrite poprf_finish_ok by (unfold len; simpl; lia). cbv zeta. cbn [tweak_value].
  destruct (random_scalar G R st) as [[r|e| |] st']; reflexivity.
Qed.

Lemma poprf_honest_verifies t bs r :
  len bs <= 65535 -> t <> zero_scalar G ->
  let res := poprf_batch_result t bs r in
  verify_proof CS Gen (t [*] Gen) (map evaluation_value (poprf_batch_messages res))
    (map blinded_value bs) (poprf_batch_proof res) Poprf = Ok tt.
Proof.
  intros Hl Ht res. apply (verify_proof_ok L).
  - subst res. unfold poprf_batch_result. cbn [poprf_batch_messages]. now rewrite !len_map.
  - subst res. unfold poprf_batch_result. cbn [poprf_batch_messages]. now rewrite !len_map.
  - subst res. unfold poprf_batch_result. cbn [poprf_batch_messages poprf_batch_proof mode_id].
    rewrite (map_map mkEvaluation evaluation_value). cbn [evaluation_value].
    rewrite (map_id (map _ (map _ bs))).
    assert (HD : map blinded_value bs
                 = map (fun P => t [*] P) (map (fun P => s_inv GL t [*] P) (map blinded_value bs))).
    { rewrite map_map. rewrite <- (map_id (map blinded_value bs)) at 1. apply map_ext.
      intros P. symmetry. now apply (mul_inv_cancel' GL). }
    apply (verify_complete L); auto.
    rewrite HD at 2 4. now rewrite (compositeZ_mul L).
Qed.

(** ** Finalize *)

Lemma poprf_finalize_one_ok e input info :
  len input <= 65535 -> len info <= 65535 ->
  poprf_finalize_one CS e input info = Ok (FinalizeHashInfo (CS := CS) input info e).
Proof.
  intros Hi Hn. unfold poprf_finalize_one. rewrite !i2osp_2_ok by auto. cbn [map_err bind].
  unfold finalize_hash, FinalizeHashInfo, chain_update, hash_new. do 2 f_equal.
  rewrite app_nil_l, <- !app_assoc, (lv_ser L e). unfold lv at 2 3, len.
  now rewrite <- !app_assoc.
Qed.

Lemma poprf_finalize_one_long e input info :
  65535 < len input -> poprf_finalize_one CS e input info = Err EInput.
Proof. intros Hi. unfold poprf_finalize_one. now rewrite i2osp_2_err. Qed.

Lemma poprf_unblind_ok clients messages pk p info :
  let tk := tweaked_element L pk (info_or_default info) in
  len (info_or_default info) <= 65535 -> tk <> identity_elem G ->
  verify_proof CS Gen tk (map evaluation_value messages) (map poprf_blinded_element clients) p Poprf = Ok tt ->
  (forall c, In c clients -> poprf_blind c <> zero_scalar G) ->
  poprf_unblind CS clients messages pk p info
  = Ok (map (fun '(c, x) => Ok (s_inv GL (poprf_blind c) [*] evaluation_value x)) (combine clients messages)).
Proof.
  intros tk Hi Htk Hv Hz. unfold poprf_unblind.
  rewrite compute_tweaked_key_ok by auto. cbn [info_or_default]. fold tk.
  rewrite (proj2 (is_identity_false GL _) Htk). cbn [bind].
  rewrite Hv. cbn [bind]. f_equal.
  clear Hv. revert messages. induction clients as [|c cl IH]; intros [|m ms]; simpl; auto.
  f_equal.
  - unfold poprf_unblind_one. rewrite (invert_nonzero G GL); auto. apply Hz. now left.
  - apply IH. intros c' Hc'. apply Hz. now right.
Qed.

Lemma combine_repeat {A B} (l : list A) (x : B) :
  combine l (repeat x (length l)) = map (fun a => (a, x)) l.
Proof. induction l; simpl; auto. now f_equal. Qed.

Lemma poprf_batch_finalize_ok inputs clients messages p pk info :
  let tk := tweaked_element L pk (info_or_default info) in
  len (info_or_default info) <= 65535 -> tk <> identity_elem G ->
  verify_proof CS Gen tk (map evaluation_value messages) (map poprf_blinded_element clients) p Poprf = Ok tt ->
  (forall c, In c clients -> poprf_blind c <> zero_scalar G) ->
  len inputs = len (combine clients messages) ->
  poprf_client_batch_finalize CS inputs clients messages p pk info
  = Ok (map (fun '(input, (c, x)) =>
               poprf_finalize_one CS (s_inv GL (poprf_blind c) [*] evaluation_value x) input
                 (info_or_default info))
            (combine inputs (combine clients messages))).
Proof.
  intros tk Hi Htk Hv Hz Hlen. unfold poprf_client_batch_finalize.
  rewrite poprf_unblind_ok by auto. cbn [bind]. unfold poprf_finalize_after_unblind.
  rewrite len_map, <- Hlen, N.eqb_refl. cbn [negb]. f_equal. rewrite combine_repeat.
  revert Hlen. generalize (combine clients messages) as cm. clear. revert inputs.
  induction inputs as [|i is IH]; intros [|[c m] cm] Hl; simpl; auto.
  f_equal. apply IH. unfold len in *. simpl in Hl. lia.
Qed.

Lemma poprf_batch_finalize_wrong_inputs inputs clients messages p pk info :
  let tk := tweaked_element L pk (info_or_default info) in
  len (info_or_default info) <= 65535 -> tk <> identity_elem G ->
  verify_proof CS Gen tk (map evaluation_value messages) (map poprf_blinded_element clients) p Poprf = Ok tt ->
  (forall c, In c clients -> poprf_blind c <> zero_scalar G) ->
  len inputs <> len (combine clients messages) ->
  poprf_client_batch_finalize CS inputs clients messages p pk info = Err EBatch.
Proof.
  intros tk Hi Htk Hv Hz Hlen. unfold poprf_client_batch_finalize.
  rewrite poprf_unblind_ok by auto. cbn [bind]. unfold poprf_finalize_after_unblind.
  rewrite len_map. destruct (N.eqb_spec (len (combine clients messages)) (len inputs)); auto.
  congruence.
Qed.

Lemma poprf_batch_finalize_fail inputs clients messages p pk info e :
  let tk := tweaked_element L pk (info_or_default info) in
  len (info_or_default info) <= 65535 -> tk <> identity_elem G ->
  verify_proof CS Gen tk (map evaluation_value messages) (map poprf_blinded_element clients) p Poprf = Err e ->
  poprf_client_batch_finalize CS inputs clients messages p pk info = Err e.
Proof.
  intros tk Hi Htk Hv. unfold poprf_client_batch_finalize, poprf_unblind.
  rewrite compute_tweaked_key_ok by auto. cbn [info_or_default]. fold tk.
  rewrite (proj2 (is_identity_false GL _) Htk). cbn [bind]. now rewrite Hv.
Qed.

Lemma poprf_batch_finalize_tweak_fail inputs clients messages p pk info e :
  compute_tweaked_key CS pk (Some (info_or_default info)) = Err e ->
  poprf_client_batch_finalize CS inputs clients messages p pk info = Err e.
Proof.
  intros Hv. unfold poprf_client_batch_finalize, poprf_unblind. now rewrite Hv.
Qed.

Lemma poprf_evaluate_some sk pk input info :
  len input <= 65535 -> len info <= 65535 -> H2G L modePOPRF input <> identity_elem G ->
  tweaked_scalar L sk info <> zero_scalar G ->
  poprf_server_evaluate CS (mkPoprfServer sk pk) input (Some info) = Ok (POPRF L sk input info).
Proof.
  intros Hi Hn Hid Ht. unfold poprf_server_evaluate. rewrite (hash_to_group_ok L). cbn [bind mode_id].
  rewrite (proj2 (is_identity_false GL _) Hid). cbn [poprf_sk].
  rewrite compute_tweak_ok by auto. cbn [info_or_default].
  rewrite (proj2 (is_zero_false GL _) Ht). cbn [bind].
  rewrite (invert_nonzero G GL) by auto. cbn [bind].
  now rewrite (server_evaluate_hash_input_some L).
Qed.

(** With [None], the part of the hash input that holds the info is missing. *)
Lemma poprf_evaluate_none sk pk input :
  len input <= 65535 -> H2G L modePOPRF input <> identity_elem G ->
  tweaked_scalar L sk [] <> zero_scalar G ->
  poprf_server_evaluate CS (mkPoprfServer sk pk) input None
  = Ok (FinalizeHash input (s_inv GL (tweaked_scalar L sk []) [*] H2G L modePOPRF input)).
Proof.
  intros Hi Hid Ht. unfold poprf_server_evaluate. rewrite (hash_to_group_ok L). cbn [bind mode_id].
  rewrite (proj2 (is_identity_false GL _) Hid). cbn [poprf_sk].
  rewrite compute_tweak_ok by (cbn; lia). cbn [info_or_default].
  rewrite (proj2 (is_zero_false GL _) Ht). cbn [bind].
  rewrite (invert_nonzero G GL) by auto. cbn [bind].
  now rewrite (server_evaluate_hash_input_none L).
Qed.

End PoprfFacts.
