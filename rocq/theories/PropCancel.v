(** * PropCancel: errors that the weights cancel, in POPRF mode (C53).

    As in VOPRF mode (C53_voprf_cancelling_errors), but here the client checks
    its own messages against the replies: the weights are on the replies and
    the key is the tweaked one. *)
From Verif Require Import Oprf Voprf Poprf Spec OprfFacts VoprfFacts PoprfFacts GroupFacts Zq.
From Verif Require Import CommonFacts PropCorrectness Reprogram PropRom.
From Coq Require Import Lia.
Open Scope N_scope.

Section Cancel.
Context {CS : CipherSuite} (L : SuiteLaws CS).
Local Notation G := (CSGroup CS).
Local Notation GL := (group_laws L).
Add Field scalar_field_poprf_cancel : (scalar_field G GL).

Lemma dot_scaled t ws es : dot (CS := CS) ws es = zero_scalar G ->
  dot (CS := CS) ws (map (fun e => scalar_mul G t (s_opp GL e)) es) = zero_scalar G.
Proof.
  intros H. enough (E : dot (CS := CS) ws (map (fun e => scalar_mul G t (s_opp GL e)) es) = scalar_mul G t (s_opp GL (dot ws es))).
  { rewrite E, H. ring. }
  clear H. revert es. induction ws as [|w ws IH]; intros [|e es]; cbn [dot map]; try ring.
  rewrite IH. ring.
Qed.

(** The messages are the replies times the tweaked key, with errors. *)
Lemma messages_with_errors t P (D : list (elem CS)) es : t <> zero_scalar G -> length D = length es ->
  with_errors t P (with_errors (s_inv GL t) P D es) (map (fun e => scalar_mul G t (s_opp GL e)) es) = D.
Proof.
  intros Ht. revert es. induction D as [|d D IH]; intros [|e es] Hl; try discriminate; auto.
  cbn [with_errors combine map fst snd]. f_equal.
  - destruct (elem_generated _ GL d) as [a ->]. destruct (elem_generated _ GL P) as [p ->].
    rewrite !(elem_mul_mul _ GL), !(add_mul GL), !(elem_mul_mul _ GL), !(add_mul GL). f_equal. field. exact Ht.
  - apply IH. now injection Hl.
Qed.

Lemma with_errors_length (k : scalar CS) P C es : length C = length es -> length (with_errors k P C es) = length C.
Proof. intros H. unfold with_errors. rewrite map_length, combine_length. lia. Qed.
End Cancel.

Theorem C53_poprf_cancelling_errors :
  forall (CS : CipherSuite) (L : SuiteLaws CS) (k r : scalar CS) (info : bytes) (inputs : list bytes)
         (sessions : list (PoprfClientBlindResult CS)) (errors : list (scalar CS)) (P : elem CS),
  let G := CSGroup CS in
  let pk := elem_mul G (base_elem G) k in
  let t := tweaked_scalar L k info in
  let tk := elem_mul G (base_elem G) t in
  let D := map (fun r => blinded_value (poprf_message r)) sessions in
  let replies := with_errors (s_inv (group_laws L) t) P D errors in
  let '(c, s) := GenerateProof L modePOPRF t (base_elem G) tk replies D r in
  Forall2 (poprf_blinded CS) inputs sessions ->
  len inputs <= 65535 -> len info <= 65535 -> length errors = length inputs ->
  t <> zero_scalar G -> P <> identity_elem G ->
  dot (weights L modePOPRF tk replies D) errors = zero_scalar G ->
  exists outs,
    poprf_client_batch_finalize CS inputs (map poprf_state sessions) (map mkEvaluation replies) (mkProof c s) pk (Some info) = Ok outs /\
    Forall2 (fun ie out => let '(input, e) := ie in len input <= 65535 ->
      exists N0 : elem CS, out = Ok (FinalizeHashInfo (CS := CS) input info N0) /\
        (N0 = elem_mul G (H2G L modePOPRF input) (s_inv (group_laws L) t) <-> e = zero_scalar G)) (combine inputs errors) outs.
Proof.
  intros CS L k r info inputs sessions errors P G pk t tk D replies.
  destruct (GenerateProof L modePOPRF t (base_elem G) tk replies D r) as [c s] eqn:Egp.
  intros Hs Hlen Hn Hle Ht HP Hd.
  destruct (poprf_blinded_clients L inputs sessions Hs) as (Hc1 & Hc2 & Hc3).
  assert (HD : length D = length inputs) by (unfold D; now rewrite map_length).
  assert (HR : length replies = length inputs) by (unfold replies; rewrite with_errors_length; congruence).
  assert (Htk : tweaked_element L pk info = tk) by apply (tweaked_element_gen L).
  assert (Hv : VerifyProof L modePOPRF (base_elem G) tk replies D c s).
  { set (es' := map (fun e => scalar_mul G t (s_opp (group_laws L) e)) errors).
    assert (ED : with_errors t P replies es' = D) by (apply (messages_with_errors L t P D errors Ht); congruence).
    pose proof (cancel_verifies L modePOPRF t r P replies es' ltac:(unfold es'; rewrite map_length; congruence)) as H.
    cbv zeta in H. rewrite ED in H. fold G in H. change (elem_mul G (base_elem G) t) with tk in H.
    specialize (H (dot_scaled L t _ errors Hd)). rewrite Egp in H. exact H. }
  eexists. split.
  - apply (poprf_batch_finalize_ok L); cbn [info_or_default]; fold G; auto.
    + intros E. apply Ht. exact (proj1 (tweaked_element_identity L k info) E).
    + rewrite Htk. apply (verify_proof_ok L).
      * unfold len. rewrite !map_length. f_equal. exact (eq_trans HR (eq_sym Hc3)).
      * unfold len in *. rewrite !map_length. change (N.of_nat (length replies) <= 65535). rewrite HR. exact Hlen.
      * match goal with |- VerifyProof _ _ _ _ ?A ?B _ _ => replace A with replies; [replace B with D; [exact Hv|]|] end.
        -- unfold D. rewrite <- (map_map poprf_message blinded_value). symmetry. exact Hc1.
        -- rewrite map_map. cbn [evaluation_value]. now rewrite map_id.
    + unfold len. rewrite combine_length, !map_length. f_equal.
      change (length inputs = Nat.min (length sessions) (length replies)). rewrite HR, Hc3. symmetry. apply Nat.min_id.
  - clear - Hs Hle HD HP Hn L. unfold replies. clear replies. revert errors Hle. generalize (s_inv (group_laws L) t). intros u.
    unfold D in *. clear D HD. cbn [info_or_default].
    induction Hs as [|i ses inputs sessions Hr Hs IH]; intros [|e errors] Hle; try discriminate; simpl.
    + constructor.
    + constructor.
      * intros Hi. destruct (poprf_blinded_inv L i ses Hr) as (b & Hb & ->). cbn.
        eexists. split; [apply (poprf_finalize_one_ok L); [exact Hi|exact Hn]|].
        set (H := H2G L modePOPRF i).
        rewrite (elem_mul_eadd _ (group_laws L)), (mul_comm2 (group_laws L) (elem_mul (CSGroup CS) H b) (s_inv (group_laws L) b) u), (mul_inv_cancel (group_laws L)) by exact Hb.
        split; intros E.
        -- rewrite <- (add_id_r (group_laws L)) in E. apply (add_cancel_l (group_laws L)) in E.
           rewrite <- (id_mul (group_laws L) (s_inv (group_laws L) b)) in E. apply (mul_elem_inj (group_laws L)) in E; [|now apply (inv_neq_zero (group_laws L))].
           rewrite <- (elem_mul_zero _ (group_laws L) P) in E. now apply (mul_scalar_inj (group_laws L)) in E.
        -- rewrite E, (elem_mul_zero _ (group_laws L)), (id_mul (group_laws L)). apply (add_id_r (group_laws L)).
      * apply IH. now injection Hle.
Qed.

(** Two replies with errors that their weights cancel, and the two wrong values
    that the client outputs. *)
Definition ex_poprf_session (st : N) (input : bytes) : list (PoprfClientBlindResult TS) :=
  match fst (poprf_client_blind TS CtrRng input st) with Ok r => [r] | _ => [] end.
Lemma ex_poprf_session_ok st input : sampling_ends (CSGroup TS) CtrRng st ->
  Forall2 (poprf_blinded TS) [input] (ex_poprf_session st input).
Proof.
  intros Hs. destruct (sampling_cases TL CtrRng st Hs) as (r & st' & Hr & _).
  assert (E : exists m, poprf_client_blind TS CtrRng input st = (Ok m, st')).
  { rewrite (poprf_blind_ok TL), Hr. eexists. reflexivity. }
  destruct E as [m E]. unfold ex_poprf_session. rewrite E. cbn [fst]. constructor; [|constructor]. now exists CtrRng, st, st'.
Qed.
Definition ex_poprf_sessions := ex_poprf_session 17 ex_input ++ ex_poprf_session 30 ex_input2.
Definition ex_info : bytes := str "info".
Definition ex_poprf_errors : list (scalar TS) := [ex_scalar 1; ex_scalar 52].
Definition ex_tweak := tweaked_scalar TL (ex_scalar 42) ex_info.
Definition ex_tweaked_key := elem_mul (CSGroup TS) (base_elem (CSGroup TS)) ex_tweak.
Definition ex_blinded : list (elem TS) := map (fun r => blinded_value (poprf_message r)) ex_poprf_sessions.
Definition ex_poprf_replies : list (elem TS) :=
  with_errors (s_inv (group_laws TL) ex_tweak) (base_elem (CSGroup TS)) ex_blinded ex_poprf_errors.

Example C53_poprf_case :
  Forall2 (poprf_blinded TS) [ex_input; ex_input2] ex_poprf_sessions /\
  ex_tweak <> zero_scalar (CSGroup TS) /\
  base_elem (CSGroup TS) <> identity_elem (CSGroup TS) /\
  dot (weights TL modePOPRF ex_tweaked_key ex_poprf_replies ex_blinded) ex_poprf_errors = zero_scalar (CSGroup TS).
Proof.
  split; [|split; [|split]].
  - apply (Forall2_app (l1 := [ex_input]) (l2 := [ex_input2])); apply ex_poprf_session_ok; unfold sampling_ends; vm_compute; discriminate.
  - intros E. apply (scalar_ct_eq_spec _ (group_laws TL)) in E. vm_compute in E. discriminate E.
  - exact (base_not_identity _ (group_laws TL)).
  - apply (scalar_ct_eq_spec _ (group_laws TL)). vm_compute. reflexivity.
Qed.

Definition ex_poprf_forged : option bool :=
  let G := CSGroup TS in
  let '(c, s) := GenerateProof TL modePOPRF ex_tweak (base_elem G) ex_tweaked_key ex_poprf_replies ex_blinded (ex_scalar 99) in
  match poprf_client_batch_finalize TS [ex_input; ex_input2] (map poprf_state ex_poprf_sessions)
          (map (mkEvaluation (CS := TS)) ex_poprf_replies) (mkProof (CS := TS) c s)
          (elem_mul G (base_elem G) (ex_scalar 42)) (Some ex_info) with
  | Ok outs => Some (forallb (fun io : bytes * res bytes => match snd io with
                       | Ok out => negb (bytes_eqb out (POPRF TL (ex_scalar 42) (fst io) ex_info)) | _ => false end)
                       (combine [ex_input; ex_input2] outs))
  | _ => None
  end.
Example C53_poprf_forged : ex_poprf_forged = Some true.
Proof. vm_compute. reflexivity. Qed.
