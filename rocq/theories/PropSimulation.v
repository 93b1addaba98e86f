(** * PropSimulation: the proofs with a programmable hash to scalar
    (zero-knowledge, C30, and extraction of the key, C12). *)
From Verif Require Import Oprf Voprf Poprf Spec OprfFacts VoprfFacts PoprfFacts Zq Reprogram.
From Verif Require Import PropCorrectness PropBatch PropEncoding PropSoundness PropPrivacy.
Open Scope N_scope.

(** The tag of HashToScalar in a mode (RFC 9497, section 4). *)
Definition h2s_tag (CS : CipherSuite) (mode : N) : bytes :=
  str "HashToScalar-" ++ contextString (CS := CS) mode.

(** [CS] with the challenge [c] programmed at the string [T] of [mode]. *)
Definition with_challenge (CS : CipherSuite) (mode : N) (T : bytes) (c : scalar CS) : CipherSuite :=
  reprogram CS T (h2s_tag CS mode) c.

Section Reprogrammed.
Context {CS : CipherSuite} (L : SuiteLaws CS) (mode : N) (T : bytes) (c0 : scalar CS).
Local Notation CS' := (with_challenge CS mode T c0).
Local Notation L' := (reprogram_laws L T (h2s_tag CS mode) c0 : SuiteLaws CS').

Lemma H2S_at : H2S L' mode T = c0.
Proof.
  unfold H2S. cbn. change (contextString (CS := CS')) with (contextString (CS := CS)).
  change (str "HashToScalar-" ++ contextString (CS := CS) mode) with (h2s_tag CS mode).
  now rewrite !bytes_eqb_refl.
Qed.

Lemma H2S_other x : x <> T -> H2S L' mode x = H2S L mode x.
Proof.
  intros Hx. unfold H2S. cbn. destruct (bytes_eqb x T) eqn:E; [|reflexivity].
  apply bytes_eqb_true in E. contradiction.
Qed.

Lemma composites_same (B : elem CS) (C D : list (elem CS)) :
  (forall seed i (X Y : elem CS), len seed < 256 -> composite_string seed i X Y <> T) ->
  compositeM L' mode B C D = compositeM L mode B C D /\
  compositeZ L' mode B C D = compositeZ L mode B C D.
Proof.
  intros Hd.
  assert (Hs : len (proof_seed (CS := CS) mode B) < 256).
  { unfold proof_seed. rewrite (digest_len _ L). apply (output_size_bound _ L). }
  assert (Hw : weights L' mode B C D = weights L mode B C D).
  { unfold weights. change (proof_seed (CS := CS') mode B) with (proof_seed (CS := CS) mode B).
    assert (Hi : forall (CD : list (elem CS * elem CS)) i,
      weights_from (CS := CS') L' mode (proof_seed (CS := CS) mode B) i CD
      = weights_from (CS := CS) L mode (proof_seed (CS := CS) mode B) i CD).
    { induction CD as [|[X Y] CD IH]; intros i; [reflexivity|].
      cbn [weights_from].
      assert (E : weight (CS := CS') L' mode (proof_seed (CS := CS) mode B) i X Y
                  = weight (CS := CS) L mode (proof_seed (CS := CS) mode B) i X Y).
      { unfold weight. apply H2S_other. now apply Hd. }
      rewrite E, IH. reflexivity. }
    apply Hi. }
  unfold compositeM, compositeZ. rewrite Hw.
  split; reflexivity.
Qed.

End Reprogrammed.

Lemma not_composite {CS} (L : SuiteLaws CS) (B M Z t2 t3 X Y : elem CS) seed i :
  elem_len (CSGroup CS) < 256 -> len seed < 256 ->
  composite_string seed i X Y <> challenge_string B M Z t2 t3.
Proof.
  intros He Hs E. unfold challenge_string, composite_string in E.
  rewrite !app_assoc in E. apply app_inj_len_r in E as [_ E]; [|reflexivity]. discriminate E.
Qed.

Lemma not_info {CS} (L : SuiteLaws CS) (B M Z t2 t3 : elem CS) n :
  elem_len (CSGroup CS) < 256 -> str "Info" ++ lv n <> challenge_string B M Z t2 t3.
Proof.
  intros He E. unfold challenge_string, lv at 2 in E.
  pose proof (serialize_elem_len _ (group_laws L) B) as Hl. unfold len in Hl. rewrite Hl in E.
  assert (Hx : exists y, I2OSP (elem_len (CSGroup CS)) 2 = [x00; y]).
  { simpl. eexists. rewrite N.div_small by auto. reflexivity. }
  destruct Hx as [y Hy]. rewrite Hy in E. discriminate E.
Qed.

Section Simulate.
Context {CS : CipherSuite} (L : SuiteLaws CS).
Local Notation G := (CSGroup CS).
Local Notation GL := (group_laws L).
Local Notation Gen := (base_elem G).
Add Field scalar_field_sim : (scalar_field G GL).

(** The prover of a statement, in the suite programmed for (c, s). *)
Lemma simulated_proof mode (k c s r : scalar CS) (C : list (elem CS)) :
  elem_len G < 256 ->
  let B := elem_mul G Gen k in
  let D := map (fun P => elem_mul G P k) C in
  let T := verifier_string L mode Gen B C D c s in
  let L' := (reprogram_laws L T (h2s_tag CS mode) c : SuiteLaws (with_challenge CS mode T c)) in
  let M := compositeM L' mode B C D in
  proof_with L' mode k Gen B M (elem_mul G M k) r
  = mkProof (CS := with_challenge CS mode T c) c s
  <-> r = scalar_add G s (scalar_mul G c k).
Proof.
  intros He B D T L' M.
  assert (HM : M = compositeM L mode B C D /\ compositeZ L' mode B C D = compositeZ L mode B C D).
  { apply composites_same. intros. now apply (not_composite L). }
  destruct HM as [HM HZ].
  assert (Hr : r = scalar_add G s (scalar_mul G c k) ->
     challenge_string (CS := CS) B M (elem_mul G M k) (elem_mul G Gen r) (elem_mul G M r) = T).
  { assert (HZM : compositeZ L mode B C D = elem_mul G (compositeM L mode B C D) k)
      by apply (compositeZ_mul L).
    intros ->. unfold T, verifier_string. rewrite HZM, <- HM.
    assert (Ho : forall P : elem CS, elem_mul G P (scalar_add G s (scalar_mul G c k))
      = elem_add G (elem_mul G P s) (elem_mul G (elem_mul G P k) c)).
    { intros P. rewrite (elem_mul_mul G GL), (add_mul GL). f_equal. ring. }
    rewrite !Ho. reflexivity. }
  unfold proof_with. split.
  - intros E. injection E as Ec Es. change (elem_mul (CSGroup (with_challenge CS mode T c))) with (elem_mul G) in *.
    change (scalar_sub (CSGroup (with_challenge CS mode T c))) with (scalar_sub G) in *.
    change (scalar_mul (CSGroup (with_challenge CS mode T c))) with (scalar_mul G) in *.
    rewrite Ec in Es. rewrite <- Es. ring.
  - intros E. specialize (Hr E).
    assert (Hc : challenge L' mode B M (elem_mul G M k) (elem_mul G Gen r) (elem_mul G M r) = c).
    { unfold challenge. fold (challenge_string (CS := CS) B M (elem_mul G M k) (elem_mul G Gen r) (elem_mul G M r)).
      change (H2S L' mode (challenge_string (CS := CS) B M (elem_mul G M k) (elem_mul G Gen r) (elem_mul G M r)) = c).
      rewrite Hr. apply H2S_at. }
    change (elem_mul (CSGroup (with_challenge CS mode T c))) with (elem_mul G).
    rewrite Hc.
    change (scalar_sub (CSGroup (with_challenge CS mode T c))) with (scalar_sub G).
    change (scalar_mul (CSGroup (with_challenge CS mode T c))) with (scalar_mul G).
    f_equal. subst r. ring.
Qed.

(** The verifier in the programmed suite. *)
Lemma simulated_verifies mode (B : elem CS) (C D : list (elem CS)) (c s : scalar CS) :
  elem_len G < 256 ->
  let T := verifier_string L mode Gen B C D c s in
  let L' := (reprogram_laws L T (h2s_tag CS mode) c : SuiteLaws (with_challenge CS mode T c)) in
  VerifyProof L' mode Gen B C D c s.
Proof.
  intros He T L'.
  destruct (composites_same L mode T c B C D) as [HM HZ].
  { intros. now apply (not_composite L). }
  unfold VerifyProof. fold L' in HM, HZ. rewrite HM, HZ. apply H2S_at.
Qed.

End Simulate.

Lemma ok_pair_inj {E A S} (x y : A) (s t : S) : (Ok (E := E) x, s) = (Ok y, t) -> x = y /\ s = t.
Proof. intros H. now injection H. Qed.

(** ** C30 *)

(** VOPRF.  Take any key, any batch and any pair (c, s).  From public data
    (public key, messages, replies and the pair) compute the string [T] and
    program the hash to answer [c] there.  Then the real server returns
    exactly this pair if and only if its RNG yields the one nonce s + c * sk:
    so each pair is as likely as a nonce, whatever the key; and every client
    that sent these messages accepts the pair. *)
Theorem C30_voprf_simulation :
  forall (CS : CipherSuite) (L : SuiteLaws CS) (sk c s : scalar CS) (C : list (elem CS)),
  let G := CSGroup CS in
  elem_len G < 256 -> len C <= 65535 ->
  let pk := elem_mul G (base_elem G) sk in
  let D := map (fun P => elem_mul G P sk) C in
  let T := verifier_string L modeVOPRF (base_elem G) pk C D c s in
  let CS' := with_challenge CS modeVOPRF T c in
  let replies := map (mkEvaluation (CS := CS')) D in
  let proof := mkProof (CS := CS') c s in
  (forall R st st',
     voprf_server_batch_blind_evaluate CS' (mkVoprfServer (CS := CS') sk pk) R (map (mkBlinded (CS := CS')) C) st
       = (Ok (mkVoprfServerBatchEvaluateResult replies proof), st')
     <-> random_scalar G R st = (Ok (scalar_add G s (scalar_mul G c sk)), st')) /\
  (forall inputs (clients : list (VoprfClient CS')),
     map voprf_blinded_element clients = C ->
     exists outs, voprf_client_batch_finalize CS' inputs clients replies proof pk = Ok outs).
Proof.
  intros CS L sk c s C G He Hl pk D T CS' replies proof.
  set (L' := (reprogram_laws L T (h2s_tag CS modeVOPRF) c : SuiteLaws CS')).
  split.
  - intros R st st'.
    rewrite (voprf_batch_ok L') by (rewrite len_map; exact Hl).
    change (random_scalar (CSGroup CS') R st) with (random_scalar G R st).
    destruct (random_scalar G R st) as [[r| | |] st1]; try (split; discriminate).
    unfold voprf_batch_result. cbn [voprf_sk voprf_pk].
    assert (Hbv : map blinded_value (map (mkBlinded (CS := CS')) C) = C)
      by (rewrite map_map; apply map_id).
    rewrite Hbv. change (elem_mul (CSGroup CS')) with (elem_mul G). change (base_elem (CSGroup CS')) with (base_elem G).
    pose proof (simulated_proof L modeVOPRF sk c s r C He) as Hp. cbv zeta in Hp.
    fold pk in Hp. fold D in Hp. fold T in Hp. fold CS' in Hp. fold L' in Hp. fold D.
    split.
    + intros E. apply ok_pair_inj in E as [E1 ->]. do 2 f_equal. apply Hp. exact (f_equal voprf_batch_proof E1).
    + intros E. apply ok_pair_inj in E as [E ->]. apply Hp in E.
      do 2 f_equal. apply f_equal2; [unfold replies; reflexivity|exact E].
  - intros inputs clients Hc.
    assert (Hv : verify_proof CS' (base_elem G) pk (map voprf_blinded_element clients)
                   (map evaluation_value replies) proof Voprf = Ok tt).
    { assert (HD : map evaluation_value replies = D) by (unfold replies; rewrite map_map; apply map_id).
      rewrite HD, Hc. apply (verify_proof_ok L').
      - unfold D. now rewrite len_map.
      - exact Hl.
      - exact (simulated_verifies L modeVOPRF pk C D c s He). }
    unfold voprf_client_batch_finalize, verifiable_unblind.
    change (base_elem (CSGroup CS')) with (base_elem G). rewrite Hv. cbn [bind]. eauto.
Qed.

(** POPRF.  The same with the tweaked key: the replies are the messages
    multiplied by the inverse of the tweaked key [t]. *)
Theorem C30_poprf_simulation :
  forall (CS : CipherSuite) (L : SuiteLaws CS) (sk c s : scalar CS) (info : bytes) (D : list (elem CS)),
  let G := CSGroup CS in
  let t := tweaked_scalar L sk info in
  elem_len G < 256 -> len D <= 65535 -> len info <= 65535 -> t <> zero_scalar G ->
  let pk := elem_mul G (base_elem G) sk in
  let C := map (fun P => elem_mul G P (s_inv (group_laws L) t)) D in
  let T := verifier_string L modePOPRF (base_elem G) (tweaked_element L pk info) C D c s in
  let CS' := with_challenge CS modePOPRF T c in
  let replies := map (mkEvaluation (CS := CS')) C in
  let proof := mkProof (CS := CS') c s in
  (forall R st st',
     poprf_server_batch_blind_evaluate CS' (mkPoprfServer (CS := CS') sk pk) R (map (mkBlinded (CS := CS')) D)
       (Some info) st
       = (Ok (mkPoprfServerBatchEvaluateResult replies proof), st')
     <-> random_scalar G R st = (Ok (scalar_add G s (scalar_mul G c t)), st')) /\
  (forall inputs (clients : list (PoprfClient CS')),
     map poprf_blinded_element clients = D -> length inputs = length D ->
     exists outs, poprf_client_batch_finalize CS' inputs clients replies proof pk (Some info) = Ok outs).
Proof.
  intros CS L sk c s info D G t He Hl Hi Ht pk C T CS' replies proof. subst G.
  set (L' := (reprogram_laws L T (h2s_tag CS modePOPRF) c : SuiteLaws CS')).
  assert (HB : tweaked_element L pk info = elem_mul (CSGroup CS) (base_elem (CSGroup CS)) t).
  { unfold pk, t. apply (tweaked_element_gen L). }
  assert (Hinfo : info_scalar L' info = info_scalar L info).
  { unfold info_scalar. apply (H2S_other L). apply (not_info L). exact He. }
  assert (Ht' : tweaked_scalar L' sk info = t).
  { unfold tweaked_scalar. rewrite Hinfo. reflexivity. }
  assert (Hinv : s_inv (group_laws L') t = s_inv (group_laws L) t).
  { unfold L', reprogram_laws, reprogram_group_laws. cbn. destruct (group_laws L). reflexivity. }
  assert (HCD : map (fun P => elem_mul (CSGroup CS) P t) C = D).
  { unfold C. rewrite map_map. transitivity (map (fun P : elem CS => P) D); [|apply map_id].
    apply map_ext. intros P. now apply (mul_inv_cancel' (group_laws L)). }
  split.
  - intros R st st'.
    rewrite (poprf_batch_ok L'); [|exact Hi|rewrite len_map; exact Hl|].
    2:{ cbn [poprf_sk info_or_default]. rewrite Ht'. exact Ht. }
    cbn [poprf_sk info_or_default]. rewrite Ht'.
    change (random_scalar (CSGroup CS') R st) with (random_scalar (CSGroup CS) R st).
    destruct (random_scalar (CSGroup CS) R st) as [[r| | |] st1]; try (split; discriminate).
    unfold poprf_batch_result.
    assert (Hbv : map blinded_value (map (mkBlinded (CS := CS')) D) = D)
      by (rewrite map_map; apply map_id).
    rewrite Hbv. change (elem_mul (CSGroup CS')) with (elem_mul (CSGroup CS)). change (base_elem (CSGroup CS')) with (base_elem (CSGroup CS)).
    rewrite Hinv.
    pose proof (simulated_proof L modePOPRF t c s r C He) as Hp. cbv zeta in Hp.
    rewrite <- !HB, HCD in Hp. fold T in Hp. fold CS' in Hp. fold L' in Hp. 
    rewrite <- !HB. fold C.
    split.
    + intros E. apply ok_pair_inj in E as [E1 ->]. do 2 f_equal. apply Hp. exact (f_equal poprf_batch_proof E1).
    + intros E. apply ok_pair_inj in E as [E ->]. apply Hp in E.
      do 2 f_equal. apply f_equal2; [unfold replies; reflexivity|exact E].
  - intros inputs clients Hc Hin.
    assert (HlC : len C = len D) by (unfold C; now rewrite len_map).
    assert (Hv : verify_proof CS' (base_elem (CSGroup CS)) (tweaked_element L pk info) (map evaluation_value replies)
                   (map poprf_blinded_element clients) proof Poprf = Ok tt).
    { assert (HC : map evaluation_value replies = C) by (unfold replies; rewrite map_map; apply map_id).
      rewrite HC, Hc. apply (verify_proof_ok L').
      - exact HlC.
      - eapply N.le_trans; [|exact Hl]. rewrite <- HlC. apply N.le_refl.
      - exact (simulated_verifies L modePOPRF (tweaked_element L pk info) C D c s He). }
    unfold poprf_client_batch_finalize, poprf_unblind.
    rewrite (compute_tweaked_key_ok L') by exact Hi. cbn [info_or_default].
    assert (Hte : tweaked_element L' pk info = tweaked_element L pk info).
    { unfold tweaked_element. rewrite Hinfo. reflexivity. }
    rewrite Hte.
    assert (Hne : is_identity_elem (CSGroup CS') (tweaked_element L pk info) = false).
    { apply (is_identity_false (group_laws L')). rewrite HB.
      intros E. change (elem_mul (CSGroup CS) (base_elem (CSGroup CS)) t = identity_elem (CSGroup CS)) in E.
      apply (mul_eq_id (group_laws L)) in E as [E|E]; auto. now apply (base_not_identity _ (group_laws L)) in E. }
    rewrite Hne. cbn [bind]. change (base_elem (CSGroup CS')) with (base_elem (CSGroup CS)). rewrite Hv. cbn [bind].
    unfold poprf_finalize_after_unblind.
    match goal with |- context [negb (len ?a =? len ?b)] => assert (Hab : len a = len b) end.
    { rewrite len_map. unfold len. rewrite combine_length, !map_length.
      apply (f_equal (@length _)) in Hc. rewrite map_length in Hc.
      unfold replies, C. rewrite !map_length. f_equal. rewrite Hc, Hin. apply Nat.min_id. }
    rewrite Hab, N.eqb_refl. cbn [negb]. eauto.
Qed.

(** The premises can hold: the concrete suite has one-byte elements. *)
Example C30_case :
  elem_len (CSGroup TS) < 256 /\
  tweaked_scalar TL (ex_scalar 42) (bstr "info") <> zero_scalar (CSGroup TS) /\
  exists R st st', random_scalar (CSGroup TS) R st = (Ok (ex_scalar 17), st').
Proof.
  split; [vm_compute; reflexivity|]. split; [apply ex_neq; vm_compute; reflexivity|].
  exists CtrRng, 17, (snd (random_scalar (CSGroup TS) CtrRng 17)).
  assert (E : match random_scalar (CSGroup TS) CtrRng 17 with
              | (Ok r, _) => scalar_ct_eq (CSGroup TS) r (ex_scalar 17) | _ => false end = true)
    by (vm_compute; reflexivity).
  destruct (random_scalar (CSGroup TS) CtrRng 17) as [[r| | |] st']; try discriminate.
  apply (scalar_ct_eq_spec _ (group_laws TL)) in E. rewrite E. reflexivity.
Qed.

(** ** C12: extraction *)

(** An accepted challenge is the programmed answer. *)
Lemma accepted_challenge {CS} (L : SuiteLaws CS) mode T (a : scalar CS) (B : elem CS) C D c s :
  elem_len (CSGroup CS) < 256 ->
  verifier_string L mode (base_elem (CSGroup CS)) B C D c s = T ->
  VerifyProof (reprogram_laws L T (h2s_tag CS mode) a : SuiteLaws (with_challenge CS mode T a))
    mode (base_elem (CSGroup CS)) B C D c s ->
  c = a.
Proof.
  intros He HT HV.
  destruct (composites_same L mode T a B C D) as [HM HZ].
  { intros. rewrite <- HT. now apply (not_composite L). }
  unfold VerifyProof in HV. rewrite HM, HZ in HV. rewrite <- HV.
  set (L1 := (reprogram_laws L T (h2s_tag CS mode) a : SuiteLaws (with_challenge CS mode T a))).
  change (H2S L1 mode (verifier_string L mode (base_elem (CSGroup CS)) B C D c s) = a).
  rewrite HT. apply H2S_at.
Qed.

Lemma extract_from_strings {CS} (L : SuiteLaws CS) mode T (B : elem CS) C D c s c' s' :
  let G := CSGroup CS in
  c <> c' ->
  verifier_string L mode (base_elem G) B C D c s = T ->
  verifier_string L mode (base_elem G) B C D c' s' = T ->
  let k := scalar_mul G (scalar_sub G s s') (s_inv (group_laws L) (scalar_sub G c' c)) in
  B = elem_mul G (base_elem G) k /\
  compositeZ L mode B C D = elem_mul G (compositeM L mode B C D) k.
Proof.
  intros G Hc HT HT' k. rewrite <- HT' in HT. unfold verifier_string in HT.
  apply (challenge_string_inj L) in HT as (_ & _ & _ & H2 & H3).
  split; unfold k; now apply (extract_scalar L).
Qed.

(** If a client accepts one proof when the hash answers [c] at the string [T]
    and another one, for the same statement, when it answers [c'] <> [c], and
    both verifications hash [T] for the challenge, then the two proofs yield
    the private key: the discrete logarithm of the public key, which also
    links the composites of the messages and of the replies. *)
Theorem C12_voprf_extraction :
  forall (CS : CipherSuite) (L : SuiteLaws CS) (pk : elem CS) (C D : list (elem CS)) (T : bytes)
         (a a' : scalar CS) (c s c' s' : scalar CS),
  let G := CSGroup CS in
  let CS1 := with_challenge CS modeVOPRF T a in
  let CS2 := with_challenge CS modeVOPRF T a' in
  elem_len G < 256 -> a <> a' ->
  (* both verifications ask for the challenge at [T] *)
  verifier_string L modeVOPRF (base_elem G) pk C D c s = T ->
  verifier_string L modeVOPRF (base_elem G) pk C D c' s' = T ->
  (* and clients with the messages [C] accept the replies [D] *)
  forall inputs inputs' (clients : list (VoprfClient CS1)) (clients' : list (VoprfClient CS2)) outs outs',
  map voprf_blinded_element clients = C -> map voprf_blinded_element clients' = C ->
  voprf_client_batch_finalize CS1 inputs clients
    (map (mkEvaluation (CS := CS1)) D) (mkProof (CS := CS1) c s) pk = Ok outs ->
  voprf_client_batch_finalize CS2 inputs' clients'
    (map (mkEvaluation (CS := CS2)) D) (mkProof (CS := CS2) c' s') pk = Ok outs' ->
  let k := scalar_mul G (scalar_sub G s s') (s_inv (group_laws L) (scalar_sub G c' c)) in
  pk = elem_mul G (base_elem G) k /\
  compositeZ L modeVOPRF pk C D = elem_mul G (compositeM L modeVOPRF pk C D) k.
Proof.
  intros CS L pk C D T a a' c s c' s' G CS1 CS2 He Ha HT HT' inputs inputs' clients clients' outs outs'
    Hc Hc' Hf Hf' k. subst CS1 CS2.
  apply voprf_accept_inv in Hf. rewrite Hc, map_map in Hf. cbn [evaluation_value] in Hf. rewrite map_id in Hf.
  apply (verify_ok_inv (reprogram_laws L T (h2s_tag CS modeVOPRF) a : SuiteLaws (with_challenge CS modeVOPRF T a)))
    in Hf as (_ & _ & Hf).
  apply (accepted_challenge L modeVOPRF T a) in Hf; auto. cbn [c_scalar] in Hf.
  apply voprf_accept_inv in Hf'. rewrite Hc', map_map in Hf'. cbn [evaluation_value] in Hf'. rewrite map_id in Hf'.
  apply (verify_ok_inv (reprogram_laws L T (h2s_tag CS modeVOPRF) a' : SuiteLaws (with_challenge CS modeVOPRF T a')))
    in Hf' as (_ & _ & Hf').
  apply (accepted_challenge L modeVOPRF T a') in Hf'; auto. cbn [c_scalar] in Hf'.
  subst a a'. now apply (extract_from_strings L modeVOPRF T).
Qed.

(** POPRF: the same for the tweaked public key of the info; subtracting the
    public scalar of the info gives the private key itself. *)
Theorem C12_poprf_extraction :
  forall (CS : CipherSuite) (L : SuiteLaws CS) (pk : elem CS) (C D : list (elem CS)) (T : bytes)
         (a a' : scalar CS) (c s c' s' : scalar CS) (info : bytes),
  let G := CSGroup CS in
  let CS1 := with_challenge CS modePOPRF T a in
  let CS2 := with_challenge CS modePOPRF T a' in
  let tk := tweaked_element L pk info in
  elem_len G < 256 -> a <> a' ->
  (* both verifications ask for the challenge at [T] *)
  verifier_string L modePOPRF (base_elem G) tk C D c s = T ->
  verifier_string L modePOPRF (base_elem G) tk C D c' s' = T ->
  (* and clients with the messages [D] accept the replies [C] for [info] *)
  forall inputs inputs' (clients : list (PoprfClient CS1)) (clients' : list (PoprfClient CS2)) outs outs',
  map poprf_blinded_element clients = D -> map poprf_blinded_element clients' = D ->
  poprf_client_batch_finalize CS1 inputs clients
    (map (mkEvaluation (CS := CS1)) C) (mkProof (CS := CS1) c s) pk (Some info) = Ok outs ->
  poprf_client_batch_finalize CS2 inputs' clients'
    (map (mkEvaluation (CS := CS2)) C) (mkProof (CS := CS2) c' s') pk (Some info) = Ok outs' ->
  let k := scalar_mul G (scalar_sub G s s') (s_inv (group_laws L) (scalar_sub G c' c)) in
  pk = elem_mul G (base_elem G) (scalar_sub G k (info_scalar L info)) /\
  tk = elem_mul G (base_elem G) k /\
  compositeZ L modePOPRF tk C D = elem_mul G (compositeM L modePOPRF tk C D) k.
Proof.
  intros CS L pk C D T a a' c s c' s' info G CS1 CS2 tk He Ha HT HT' inputs inputs' clients clients' outs outs'
    Hc Hc' Hf Hf' k. subst CS1 CS2.
  assert (Hinfo : forall x, H2S (reprogram_laws L T (h2s_tag CS modePOPRF) x
      : SuiteLaws (with_challenge CS modePOPRF T x)) modePOPRF (str "Info" ++ lv info)
      = H2S L modePOPRF (str "Info" ++ lv info)).
  { intros x. apply H2S_other. rewrite <- HT. now apply (not_info L). }
  assert (Hte : forall x, tweaked_element (reprogram_laws L T (h2s_tag CS modePOPRF) x
      : SuiteLaws (with_challenge CS modePOPRF T x)) pk info = tk).
  { intros x. unfold tk, tweaked_element, info_scalar. rewrite Hinfo. reflexivity. }
  apply (poprf_accept_inv (reprogram_laws L T (h2s_tag CS modePOPRF) a
      : SuiteLaws (with_challenge CS modePOPRF T a))) in Hf as (_ & _ & Hf & _).
  cbn [info_or_default] in Hf. rewrite Hte in Hf.
  rewrite Hc, map_map in Hf. cbn [evaluation_value] in Hf. rewrite map_id in Hf.
  apply (verify_ok_inv (reprogram_laws L T (h2s_tag CS modePOPRF) a : SuiteLaws (with_challenge CS modePOPRF T a)))
    in Hf as (_ & _ & Hf).
  apply (accepted_challenge L modePOPRF T a) in Hf; auto. cbn [c_scalar] in Hf.
  apply (poprf_accept_inv (reprogram_laws L T (h2s_tag CS modePOPRF) a'
      : SuiteLaws (with_challenge CS modePOPRF T a'))) in Hf' as (_ & _ & Hf' & _).
  cbn [info_or_default] in Hf'. rewrite Hte in Hf'.
  rewrite Hc', map_map in Hf'. cbn [evaluation_value] in Hf'. rewrite map_id in Hf'.
  apply (verify_ok_inv (reprogram_laws L T (h2s_tag CS modePOPRF) a' : SuiteLaws (with_challenge CS modePOPRF T a')))
    in Hf' as (_ & _ & Hf').
  apply (accepted_challenge L modePOPRF T a') in Hf'; auto. cbn [c_scalar] in Hf'.
  subst a a'. destruct (extract_from_strings L modePOPRF T tk C D c s c' s' Ha HT HT') as [H1 H2].
  fold G in H1, H2. fold k in H1, H2. split; [|split]; auto.
  destruct (elem_generated G (group_laws L) pk) as [x Hx]. subst pk.
  pose proof (tweaked_element_gen L x info) as Hg. fold G in Hg. unfold tk in H1. rewrite Hg in H1. apply (base_mul_inj (group_laws L)) in H1.
  f_equal. transitivity (scalar_sub G (tweaked_scalar L x info) (info_scalar L info)); [|now rewrite H1].
  pose proof (scalar_field G (group_laws L)) as SF. destruct SF as [[]].
  change (x = scalar_sub G (scalar_add G x (info_scalar L info)) (info_scalar L info)).
  rewrite Rsub_def, <- Radd_assoc, Ropp_def, Radd_comm, Radd_0_l. reflexivity.
Qed.

(** Such pairs of proofs exist: a server that uses the same nonce [r] in both
    runs produces them, for every key, batch and answers. *)
Theorem C12_extraction_case :
  forall (CS : CipherSuite) (L : SuiteLaws CS) (sk r a a' : scalar CS) (C : list (elem CS)),
  let G := CSGroup CS in
  elem_len G < 256 -> len C <= 65535 ->
  let pk := elem_mul G (base_elem G) sk in
  let D := map (fun P => elem_mul G P sk) C in
  let s := scalar_sub G r (scalar_mul G a sk) in
  let s' := scalar_sub G r (scalar_mul G a' sk) in
  let T := verifier_string L modeVOPRF (base_elem G) pk C D a s in
  verifier_string L modeVOPRF (base_elem G) pk C D a' s' = T /\
  (forall inputs (clients : list (VoprfClient (with_challenge CS modeVOPRF T a))),
     map voprf_blinded_element clients = C ->
     exists outs, voprf_client_batch_finalize (with_challenge CS modeVOPRF T a) inputs clients
       (map (mkEvaluation (CS := with_challenge CS modeVOPRF T a)) D)
       (mkProof (CS := with_challenge CS modeVOPRF T a) a s) pk = Ok outs) /\
  (forall inputs (clients : list (VoprfClient (with_challenge CS modeVOPRF T a'))),
     map voprf_blinded_element clients = C ->
     exists outs, voprf_client_batch_finalize (with_challenge CS modeVOPRF T a') inputs clients
       (map (mkEvaluation (CS := with_challenge CS modeVOPRF T a')) D)
       (mkProof (CS := with_challenge CS modeVOPRF T a') a' s') pk = Ok outs).
Proof.
  intros CS L sk r a a' C G He Hl pk D s s' T.
  assert (HT : verifier_string L modeVOPRF (base_elem G) pk C D a' s' = T).
  { assert (HZM : compositeZ L modeVOPRF pk C D = elem_mul G (compositeM L modeVOPRF pk C D) sk)
      by apply (compositeZ_mul L).
    assert (Ho : forall x (P : elem CS),
      elem_add G (elem_mul G P (scalar_sub G r (scalar_mul G x sk))) (elem_mul G (elem_mul G P sk) x)
      = elem_mul G P r).
    { intros x P. rewrite (elem_mul_mul G (group_laws L)), (add_mul (group_laws L)). f_equal.
      pose proof (scalar_field G (group_laws L)) as SF. destruct SF as [[]].
      rewrite Rsub_def, <- Radd_assoc, (Rmul_comm sk x), (Radd_comm (_ _)), Ropp_def, Radd_comm, Radd_0_l.
      reflexivity. }
    unfold T, verifier_string. rewrite HZM. unfold pk, s, s'. fold G.
    rewrite !Ho. reflexivity. }
  split; [exact HT|]. split; intros inputs clients Hc.
  - exact (proj2 (C30_voprf_simulation CS L sk a s C He Hl) inputs clients Hc).
  - pose proof (C30_voprf_simulation CS L sk a' s' C He Hl) as H.
    cbv zeta in H. fold G in H. fold pk in H. fold D in H. rewrite HT in H.
    exact (proj2 H inputs clients Hc).
Qed.
