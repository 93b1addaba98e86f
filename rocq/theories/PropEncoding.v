(** * PropEncoding: domain separation and unambiguous hash inputs.

    Properties C16, C17, C18 and C19. *)
From Verif Require Import Oprf Voprf Poprf Spec OprfFacts VoprfFacts PoprfFacts Zq.
From Verif Require Import PropCorrectness PropBatch.
Open Scope N_scope.

(** ** C17 *)

(** The four labels the crate puts in front of the context string. *)
Definition tag_labels : list bytes :=
  [str "Seed-"; str "DeriveKeyPair"; str "HashToScalar-"; str "HashToGroup-"].

(** The tags built by the code are label || "OPRFV1-" || mode || "-" || ID,
    and distinct (label, mode, ID) triples - even of different ciphersuites -
    give distinct tags. *)
Theorem C17_tags_distinct :
  forall (CS1 CS2 : CipherSuite) (l1 l2 : bytes) (m1 m2 : Mode) (d1 d2 : Dst),
  In l1 tag_labels -> In l2 tag_labels ->
  dst_new CS1 l1 m1 = Ok d1 -> dst_new CS2 l2 m2 = Ok d2 ->
  concat (as_dst d1) = l1 ++ str "OPRFV1-" ++ I2OSP (mode_id m1) 1 ++ str "-" ++ ID CS1 /\
  (concat (as_dst d1) = concat (as_dst d2) -> l1 = l2 /\ m1 = m2 /\ ID CS1 = ID CS2).
Proof.
  intros CS1 CS2 l1 l2 m1 m2 d1 d2 Hl1 Hl2 H1 H2.
  assert (Hd : forall CS l m d, dst_new CS l m = Ok d ->
    concat (as_dst d) = l ++ str "OPRFV1-" ++ I2OSP (mode_id m) 1 ++ str "-" ++ ID CS).
  { intros CS l m d H. unfold dst_new in H. destruct (_ <=? _); [|discriminate].
    injection H as <-. unfold as_dst. cbn [concat dst_1 dst_2].
    rewrite app_nil_r, <- mode_to_u8_I2OSP, <- !app_assoc. reflexivity. }
  split; [now apply Hd|].
  rewrite (Hd _ _ _ _ H1), (Hd _ _ _ _ H2). clear Hd H1 H2 d1 d2. intros E.
  assert (l1 = l2) as ->.
  { simpl in Hl1, Hl2.
    repeat (destruct Hl1 as [<-|Hl1]); try contradiction;
      repeat (destruct Hl2 as [<-|Hl2]); try contradiction; try reflexivity;
      cbv [str String.list_byte_of_string app] in E; simpl in E; discriminate E. }
  split; [reflexivity|]. apply app_inv_head in E. apply app_inv_head in E.
  apply app_inj_len in E as [Em E]; [|now rewrite !I2OSP_length].
  apply app_inv_head in E. split; auto.
  destruct m1, m2; try reflexivity; vm_compute in Em; discriminate Em.
Qed.

Example C17_case :
  exists d1 d2 : Dst, In (str "Seed-") tag_labels /\ In (str "HashToGroup-") tag_labels /\
    dst_new TS (str "Seed-") Voprf = Ok d1 /\ dst_new TS (str "HashToGroup-") Poprf = Ok d2.
Proof.
  do 2 eexists. split; [left; reflexivity|]. split; [do 3 right; left; reflexivity|].
  split; vm_compute; reflexivity.
Qed.

(** ** C18 *)

Definition finalize_string {CS} (input : bytes) (E : elem CS) : bytes :=
  lv input ++ lv (serialize_elem (CSGroup CS) E) ++ str "Finalize".
Definition finalize_info_string {CS} (input info : bytes) (E : elem CS) : bytes :=
  lv input ++ lv info ++ lv (serialize_elem (CSGroup CS) E) ++ str "Finalize".

(** Two distinct strings with the same digest. *)
Definition collision (H : HashFn) (a b : bytes) : Prop := a <> b /\ digest H a = digest H b.

Lemma ser_len {CS} (L : SuiteLaws CS) (E : elem CS) : len (serialize_elem (CSGroup CS) E) <= 65535.
Proof. rewrite (serialize_elem_len _ (group_laws L)). apply (elem_len_bound _ (group_laws L)). Qed.

Lemma finalize_string_inj {CS} (L : SuiteLaws CS) i1 (E1 : elem CS) i2 E2 :
  len i1 <= 65535 -> len i2 <= 65535 ->
  finalize_string i1 E1 = finalize_string i2 E2 -> i1 = i2 /\ E1 = E2.
Proof.
  intros H1 H2 E. unfold finalize_string in E.
  apply lv_app_inj in E as [-> E]; auto.
  apply lv_app_inj in E as [E _]; try apply (ser_len L).
  apply (serialize_elem_inj (group_laws L)) in E. auto.
Qed.

Lemma finalize_info_string_inj {CS} (L : SuiteLaws CS) i1 n1 (E1 : elem CS) i2 n2 E2 :
  len i1 <= 65535 -> len i2 <= 65535 -> len n1 <= 65535 -> len n2 <= 65535 ->
  finalize_info_string i1 n1 E1 = finalize_info_string i2 n2 E2 -> i1 = i2 /\ n1 = n2 /\ E1 = E2.
Proof.
  intros H1 H2 H3 H4 E. unfold finalize_info_string in E.
  apply lv_app_inj in E as [-> E]; auto.
  apply lv_app_inj in E as [-> E]; auto.
  apply lv_app_inj in E as [E _]; try apply (ser_len L).
  apply (serialize_elem_inj (group_laws L)) in E. auto.
Qed.

(** The strings hashed with and without info never coincide, so OPRF or VOPRF
    outputs cannot be confused with POPRF outputs. *)
Lemma finalize_strings_disjoint {CS} (L : SuiteLaws CS) i1 (E1 : elem CS) i2 n2 (E2 : elem CS) :
  len i1 <= 65535 -> len i2 <= 65535 -> len n2 <= 65535 ->
  finalize_string i1 E1 <> finalize_info_string i2 n2 E2.
Proof.
  intros H1 H2 H3 E. unfold finalize_string, finalize_info_string in E.
  apply lv_app_inj in E as [_ E]; auto.
  apply lv_app_inj in E as [_ E]; auto; try apply (ser_len L).
  apply (f_equal (@length byte)) in E. unfold lv in E.
  rewrite !app_length, I2OSP_length in E. lia.
Qed.

(** A call of the API that returns an output: which framing info entered it
    ([None] if none), which input, which unblinded element, and the output.
    The clients, the replies, the proofs and the keys are arbitrary.
    Note the last constructor: [PoprfServer::evaluate] with [info = None]
    hashes no info at all (C04). *)
Inductive api_output {CS : CipherSuite} (L : SuiteLaws CS)
  : option bytes -> bytes -> elem CS -> bytes -> Prop :=
| out_oprf_finalize : forall c i e out inv,
    invert_scalar (CSGroup CS) (oprf_blind c) = Ok inv ->
    oprf_client_finalize CS c i e = Ok out ->
    api_output L None i (elem_mul (CSGroup CS) (evaluation_value e) inv) out
| out_voprf_finalize : forall c i e proof pk out inv,
    invert_scalar (CSGroup CS) (voprf_blind c) = Ok inv ->
    voprf_client_finalize CS c i e proof pk = Ok out ->
    api_output L None i (elem_mul (CSGroup CS) (evaluation_value e) inv) out
| out_voprf_batch : forall inputs clients messages proof pk outs j c i e out inv,
    voprf_client_batch_finalize CS inputs clients messages proof pk = Ok outs ->
    nth_error outs j = Some (Ok out) ->
    nth_error inputs j = Some i -> nth_error clients j = Some c ->
    nth_error messages j = Some e ->
    invert_scalar (CSGroup CS) (voprf_blind c) = Ok inv ->
    api_output L None i (elem_mul (CSGroup CS) (evaluation_value e) inv) out
| out_poprf_finalize : forall c i e proof pk info out inv,
    invert_scalar (CSGroup CS) (poprf_blind c) = Ok inv ->
    poprf_client_finalize CS c i e proof pk info = Ok out ->
    api_output L (Some (info_or_default info)) i
      (elem_mul (CSGroup CS) (evaluation_value e) inv) out
| out_poprf_batch : forall inputs clients messages proof pk info outs j c i e out inv,
    poprf_client_batch_finalize CS inputs clients messages proof pk info = Ok outs ->
    nth_error outs j = Some (Ok out) ->
    nth_error inputs j = Some i -> nth_error clients j = Some c ->
    nth_error messages j = Some e ->
    invert_scalar (CSGroup CS) (poprf_blind c) = Ok inv ->
    api_output L (Some (info_or_default info)) i
      (elem_mul (CSGroup CS) (evaluation_value e) inv) out
| out_oprf_evaluate : forall s i out,
    oprf_server_evaluate CS s i = Ok out ->
    api_output L None i (elem_mul (CSGroup CS) (H2G L modeOPRF i) (oprf_sk s)) out
| out_voprf_evaluate : forall s i out,
    voprf_server_evaluate CS s i = Ok out ->
    api_output L None i (elem_mul (CSGroup CS) (H2G L modeVOPRF i) (voprf_sk s)) out
| out_poprf_evaluate : forall s i info out,
    poprf_server_evaluate CS s i info = Ok out ->
    api_output L info i
      (elem_mul (CSGroup CS) (H2G L modePOPRF i)
         (s_inv (group_laws L) (tweaked_scalar L (poprf_sk s) (info_or_default info)))) out.

(** The string whose hash is the output. *)
Definition output_string {CS} (w : option bytes) (i : bytes) (u : elem CS) : bytes :=
  match w with
  | None => finalize_string i u
  | Some n => finalize_info_string i n u
  end.

Lemma nth_error_combine_some {A B} (l : list A) (l' : list B) j a b :
  nth_error l j = Some a -> nth_error l' j = Some b -> nth_error (combine l l') j = Some (a, b).
Proof.
  revert l' j. induction l as [|x l IH]; intros [|y l'] [|j] H1 H2; cbn in *; try discriminate.
  - congruence.
  - auto.
Qed.

Lemma oprf_finalize_one_inv {CS} (L : SuiteLaws CS) i (u : elem CS) out :
  oprf_finalize_one CS i u = Ok out ->
  len i <= 65535 /\ out = digest (CSHash CS) (finalize_string i u).
Proof.
  intros H. destruct (N.leb_spec (len i) 65535) as [Hi|Hi];
    [|rewrite (oprf_finalize_one_long) in H by auto; discriminate].
  rewrite (oprf_finalize_one_ok L) in H by auto. injection H as <-. auto.
Qed.

Lemma poprf_finalize_one_inv {CS} (L : SuiteLaws CS) i n (u : elem CS) out :
  poprf_finalize_one CS u i n = Ok out ->
  (len i <= 65535 /\ len n <= 65535) /\ out = digest (CSHash CS) (finalize_info_string i n u).
Proof.
  intros H. destruct (N.leb_spec (len i) 65535) as [Hi|Hi];
    [|rewrite (poprf_finalize_one_long) in H by auto; discriminate].
  destruct (N.leb_spec (len n) 65535) as [Hn|Hn].
  - rewrite (poprf_finalize_one_ok L) in H by auto. injection H as <-. auto.
  - unfold poprf_finalize_one in H. rewrite i2osp_2_ok in H by auto. cbn [map_err bind] in H.
    rewrite i2osp_2_err in H by auto. discriminate.
Qed.

Lemma api_output_string {CS} (L : SuiteLaws CS) w i u out :
  api_output L w i u out ->
  len i <= 65535 /\ (forall n, w = Some n -> len n <= 65535) /\
  out = digest (CSHash CS) (output_string w i u).
Proof.
  assert (Hvb : forall inputs clients messages proof pk outs j c i e out inv,
    voprf_client_batch_finalize CS inputs clients messages proof pk = Ok outs ->
    nth_error outs j = Some (Ok out) ->
    nth_error inputs j = Some i -> nth_error clients j = Some c ->
    nth_error messages j = Some e ->
    invert_scalar (CSGroup CS) (voprf_blind c) = Ok inv ->
    oprf_finalize_one CS i (elem_mul (CSGroup CS) (evaluation_value e) inv) = Ok out).
  { clear. intros inputs clients messages proof pk outs j c i e out inv H Ho Hi Hc He Hv.
    unfold voprf_client_batch_finalize, verifiable_unblind in H.
    destruct (verify_proof _ _ _ _ _ _ _); try discriminate. cbn [bind] in H. injection H as <-.
    unfold voprf_finalize_after_unblind in Ho.
    rewrite (map_nth_error _ _ _ (nth_error_combine_some _ _ _ _ _ Hi
      (map_nth_error _ _ _ (nth_error_combine_some _ _ _ _ _
         (map_nth_error voprf_blind _ _ Hc) He)))) in Ho.
    unfold voprf_unblind_one in Ho. rewrite Hv in Ho. cbn [bind] in Ho.
    injection Ho as Ho. exact Ho. }
  assert (Hpb : forall inputs clients messages proof pk info outs j c i e out inv,
    poprf_client_batch_finalize CS inputs clients messages proof pk info = Ok outs ->
    nth_error outs j = Some (Ok out) ->
    nth_error inputs j = Some i -> nth_error clients j = Some c ->
    nth_error messages j = Some e ->
    invert_scalar (CSGroup CS) (poprf_blind c) = Ok inv ->
    poprf_finalize_one CS (elem_mul (CSGroup CS) (evaluation_value e) inv) i (info_or_default info)
    = Ok out).
  { clear. intros inputs clients messages proof pk info outs j c i e out inv H Ho Hi Hc He Hv.
    unfold poprf_client_batch_finalize, poprf_unblind in H.
    destruct (compute_tweaked_key _ _ _); try discriminate. cbn [bind] in H.
    destruct (verify_proof _ _ _ _ _ _ _); try discriminate. cbn [bind] in H.
    unfold poprf_finalize_after_unblind in H. destruct (negb _); [discriminate|].
    injection H as <-.
    match type of Ho with nth_error (map _ (combine ?l (repeat ?x _))) _ = _ =>
      assert (Hn : nth_error l j = Some (poprf_unblind_one CS (poprf_blind c) e, i)) end.
    { apply nth_error_combine_some; [|exact Hi].
      exact (map_nth_error _ _ _ (nth_error_combine_some _ _ _ _ _
               (map_nth_error poprf_blind _ _ Hc) He)). }
    rewrite (map_nth_error _ _ _ (nth_error_combine_some _ _ _ _ _ Hn
               (nth_error_repeat _ (proj1 (nth_error_Some _ _) ltac:(rewrite Hn; discriminate))))) in Ho.
    unfold poprf_unblind_one in Ho. rewrite Hv in Ho. cbn [bind] in Ho.
    injection Ho as Ho. exact Ho. }
  assert (Hnone : forall i (u : elem CS) out, oprf_finalize_one CS i u = Ok out ->
    len i <= 65535 /\ (forall n : bytes, None = Some n -> len n <= 65535) /\
    out = digest (CSHash CS) (output_string None i u)).
  { intros i0 u0 out0 H0. apply (oprf_finalize_one_inv L) in H0 as [H0 ->].
    split; [auto|split; [discriminate|reflexivity]]. }
  assert (Hsome : forall n i (u : elem CS) out, poprf_finalize_one CS u i n = Ok out ->
    len i <= 65535 /\ (forall m, Some n = Some m -> len m <= 65535) /\
    out = digest (CSHash CS) (output_string (Some n) i u)).
  { intros n i0 u0 out0 H0. apply (poprf_finalize_one_inv L) in H0 as [[H0 H1] ->].
    split; [auto|split; [|reflexivity]]. intros m E. injection E as <-. auto. }
  intros H. destruct H as [c i e out inv Hv H | c i e proof pk out inv Hv H
    | inputs clients messages proof pk outs j c i e out inv H H1 H2 H3 H4 H5
    | c i e proof pk info out inv Hv H
    | inputs clients messages proof pk info outs j c i e out inv H H1 H2 H3 H4 H5
    | s i out H | s i out H | s i info out H].
  - apply Hnone. unfold oprf_client_finalize in H. rewrite Hv in H. exact H.
  - apply Hnone. unfold voprf_client_finalize in H.
    destruct (voprf_client_batch_finalize CS [i] [c] [e] proof pk) as [outs| | |] eqn:E; try discriminate.
    cbn [bind] in H.
    apply (Hvb [i] [c] [e] proof pk outs 0%nat c); auto. destruct outs; [discriminate|]. cbn in *. congruence.
  - apply Hnone. eapply Hvb; eauto.
  - apply Hsome. unfold poprf_client_finalize in H.
    destruct (poprf_client_batch_finalize CS [i] [c] [e] proof pk info) as [outs| | |] eqn:E; try discriminate.
    cbn [bind] in H.
    apply (Hpb [i] [c] [e] proof pk info outs 0%nat c); auto. destruct outs; [discriminate|]. cbn in *. congruence.
  - apply Hsome. eapply Hpb; eauto.
  - unfold oprf_server_evaluate in H. rewrite (hash_to_group_ok L) in H. cbn [bind] in H.
    destruct (is_identity_elem _ _); [discriminate|].
    destruct (N.leb_spec (len i) 65535) as [Hi|Hi];
      [|rewrite server_evaluate_hash_input_long in H by auto; discriminate].
    rewrite (server_evaluate_hash_input_none L) in H by auto. injection H as <-.
    split; [auto|split; [discriminate|reflexivity]].
  - unfold voprf_server_evaluate in H. rewrite (hash_to_group_ok L) in H. cbn [bind] in H.
    destruct (is_identity_elem _ _); [discriminate|].
    destruct (N.leb_spec (len i) 65535) as [Hi|Hi];
      [|rewrite server_evaluate_hash_input_long in H by auto; discriminate].
    rewrite (server_evaluate_hash_input_none L) in H by auto. injection H as <-.
    split; [auto|split; [discriminate|reflexivity]].
  - unfold poprf_server_evaluate in H. rewrite (hash_to_group_ok L) in H. cbn [bind] in H.
    destruct (is_identity_elem _ _); [discriminate|].
    destruct (N.leb_spec (len (info_or_default info)) 65535) as [Hn|Hn];
      [|rewrite compute_tweak_long in H by auto; discriminate].
    rewrite (compute_tweak_ok L) in H by auto.
    destruct (is_zero_scalar _ _) eqn:Hz; [discriminate|]. cbn [bind] in H.
    rewrite (invert_nonzero _ (group_laws L)) in H by (now apply (is_zero_false (group_laws L))).
    cbn [bind] in H.
    destruct (N.leb_spec (len i) 65535) as [Hi|Hi];
      [|rewrite server_evaluate_hash_input_long in H by auto; discriminate].
    destruct info as [n|]; cbn [info_or_default] in *.
    + rewrite (server_evaluate_hash_input_some L) in H by auto. injection H as <-.
      split; [auto|split; [|reflexivity]]. intros m E. injection E as <-. auto.
    + rewrite (server_evaluate_hash_input_none L) in H by auto. injection H as <-.
      split; [auto|split; [discriminate|reflexivity]].
Qed.

(** Two calls - of the same or of different functions, in the same or in
    different modes - that return the same output framed the same info, the
    same input and the same unblinded element, unless the two strings below
    collide under the hash. *)
Theorem C18_outputs_injective :
  forall (CS : CipherSuite) (L : SuiteLaws CS) w1 i1 u1 w2 i2 u2 out,
  api_output L w1 i1 u1 out -> api_output L w2 i2 u2 out ->
  (w1 = w2 /\ i1 = i2 /\ u1 = u2) \/
  collision (CSHash CS) (output_string w1 i1 u1) (output_string w2 i2 u2).
Proof.
  intros CS L w1 i1 u1 w2 i2 u2 out H1 H2.
  apply api_output_string in H1 as (Hi1 & Hw1 & ->), H2 as (Hi2 & Hw2 & E).
  destruct (list_eq_dec Byte.byte_eq_dec (output_string w1 i1 u1) (output_string w2 i2 u2)) as [Es|Es].
  - left. destruct w1 as [n1|], w2 as [n2|]; cbn [output_string] in Es.
    + apply (finalize_info_string_inj L) in Es as (-> & -> & ->); auto.
    + symmetry in Es. apply (finalize_strings_disjoint L) in Es; auto; contradiction.
    + apply (finalize_strings_disjoint L) in Es; auto; contradiction.
    + apply (finalize_string_inj L) in Es as (-> & ->); auto.
  - right. split; auto.
Qed.

(** Servers of one mode that return the same output were given the same input
    (and info) and hold the same key, unless there is such a collision. *)
Theorem C18_servers_injective :
  forall (CS : CipherSuite) (L : SuiteLaws CS) out,
  let G := CSGroup CS in
  (* the string hashed by [evaluate] *)
  let oprf_string (s : OprfServer CS) i :=
    output_string None i (elem_mul G (H2G L modeOPRF i) (oprf_sk s)) in
  let voprf_string (s : VoprfServer CS) i :=
    output_string None i (elem_mul G (H2G L modeVOPRF i) (voprf_sk s)) in
  let poprf_string (s : PoprfServer CS) i n :=
    output_string n i (elem_mul G (H2G L modePOPRF i)
      (s_inv (group_laws L) (tweaked_scalar L (poprf_sk s) (match n with Some n => n | None => [] end)))) in
  (forall s1 s2 i1 i2,
     oprf_server_evaluate CS s1 i1 = Ok out -> oprf_server_evaluate CS s2 i2 = Ok out ->
     (i1 = i2 /\ oprf_sk s1 = oprf_sk s2) \/
     collision (CSHash CS) (oprf_string s1 i1) (oprf_string s2 i2)) /\
  (forall s1 s2 i1 i2,
     voprf_server_evaluate CS s1 i1 = Ok out -> voprf_server_evaluate CS s2 i2 = Ok out ->
     (i1 = i2 /\ voprf_sk s1 = voprf_sk s2) \/
     collision (CSHash CS) (voprf_string s1 i1) (voprf_string s2 i2)) /\
  (forall s1 s2 i1 i2 n1 n2,
     poprf_server_evaluate CS s1 i1 n1 = Ok out -> poprf_server_evaluate CS s2 i2 n2 = Ok out ->
     (i1 = i2 /\ n1 = n2 /\ poprf_sk s1 = poprf_sk s2) \/
     collision (CSHash CS) (poprf_string s1 i1 n1) (poprf_string s2 i2 n2)).
Proof.
  intros CS L out. cbv zeta. split; [|split].
  - intros [s1] [s2] i1 i2 H1 H2.
    assert (Hid : H2G L modeOPRF i1 <> identity_elem (CSGroup CS)).
    { intros E. rewrite (oprf_evaluate_err L) in H1 by auto. discriminate. }
    destruct (C18_outputs_injective CS L _ _ _ _ _ _ out (out_oprf_evaluate L _ _ _ H1)
                (out_oprf_evaluate L _ _ _ H2)) as [(_ & <- & E)|C]; [left|right; exact C].
    split; auto. now apply (mul_scalar_inj (group_laws L)) in E.
  - intros s1 s2 i1 i2 H1 H2.
    assert (Hid : H2G L modeVOPRF i1 <> identity_elem (CSGroup CS)).
    { intros E. rewrite (voprf_evaluate_err L) in H1 by auto. discriminate. }
    destruct (C18_outputs_injective CS L _ _ _ _ _ _ out (out_voprf_evaluate L _ _ _ H1)
                (out_voprf_evaluate L _ _ _ H2)) as [(_ & <- & E)|C]; [left|right; exact C].
    split; auto. now apply (mul_scalar_inj (group_laws L)) in E.
  - intros s1 s2 i1 i2 n1 n2 H1 H2.
    assert (Hid : H2G L modePOPRF i1 <> identity_elem (CSGroup CS)).
    { intros E. unfold poprf_server_evaluate in H1. rewrite (hash_to_group_ok L) in H1.
      cbn [bind mode_id] in H1. rewrite E in H1.
      destruct (is_identity_elem _ _) eqn:Ei; [discriminate|].
      now apply (is_identity_false (group_laws L)) in Ei. }
    change (match n1 with Some n => n | None => [] end) with (info_or_default n1).
    change (match n2 with Some n => n | None => [] end) with (info_or_default n2).
    assert (Ht : forall s i n, poprf_server_evaluate CS s i n = Ok out ->
      tweaked_scalar L (poprf_sk s) (info_or_default n) <> zero_scalar (CSGroup CS)).
    { intros s i n H. unfold poprf_server_evaluate in H. rewrite (hash_to_group_ok L) in H. cbn [bind] in H.
      destruct (is_identity_elem _ _); [discriminate|].
      destruct (N.leb_spec (len (info_or_default n)) 65535) as [Hn|Hn];
        [|rewrite compute_tweak_long in H by auto; discriminate].
      rewrite (compute_tweak_ok L) in H by auto.
      destruct (is_zero_scalar _ _) eqn:Hz; [discriminate|]. now apply (is_zero_false (group_laws L)). }
    destruct (C18_outputs_injective CS L _ _ _ _ _ _ out (out_poprf_evaluate L _ _ _ _ H1)
                (out_poprf_evaluate L _ _ _ _ H2)) as [(<- & <- & E)|C]; [left|right; exact C].
    apply (mul_scalar_inj (group_laws L)) in E; auto.
    apply (inv_inj (group_laws L)) in E; [|eapply Ht; eauto..].
    now apply (sadd_cancel_r (group_laws L)) in E.
Qed.

Example C18_case :
  (exists out, oprf_server_evaluate TS (mkOprfServer (ex_scalar 42)) ex_input = Ok out) /\
  (exists out, api_output TL None ex_input (ex_elem 2) out) /\
  PRF TL modeOPRF (ex_scalar 42) ex_input <> PRF TL modeOPRF (ex_scalar 42) ex_input2 /\
  oprf_client_finalize TS (mkOprfClient (ex_scalar 3)) ex_input (mkEvaluation (ex_elem 6))
  = oprf_client_finalize TS (mkOprfClient (ex_scalar 5)) ex_input (mkEvaluation (ex_elem 10)).
Proof.
  split; [eexists; vm_compute; reflexivity|].
  split.
  { destruct (oprf_client_finalize TS (mkOprfClient (ex_scalar 3)) ex_input (mkEvaluation (ex_elem 6)))
      as [out| | |] eqn:E; [|vm_compute in E; discriminate..].
    exists out.
    assert (Hinv : invert_scalar (CSGroup TS) (ex_scalar 3) = Ok (finv 251 (ex_scalar 3))) by reflexivity.
    pose proof (out_oprf_finalize TL (mkOprfClient (CS := TS) (ex_scalar 3)) _ _ _ _ Hinv E) as Ho.
    replace (ex_elem 2) with (elem_mul (CSGroup TS) (ex_elem 6) (finv 251 (ex_scalar 3))); [exact Ho|].
    apply (Fq_eq (q := 251)). vm_compute. reflexivity. }
  split; [vm_compute; discriminate|]. vm_compute. reflexivity.
Qed.

(** ** C19 *)

(** The string hashed for the challenge determines the five elements. *)
Theorem C19_challenge_injective :
  forall (CS : CipherSuite) (L : SuiteLaws CS) (b m z t2 t3 b' m' z' t2' t3' : elem CS),
  concat (challenge_input CS b m z t2 t3) = concat (challenge_input CS b' m' z' t2' t3') ->
  b = b' /\ m = m' /\ z = z' /\ t2 = t2' /\ t3 = t3'.
Proof.
  intros CS L b m z t2 t3 b' m' z' t2' t3' E. unfold challenge_input in E.
  cbn [concat] in E. rewrite !(lv_ser L) in E.
  repeat (let E1 := fresh "E1" in apply lv_app_inj in E as [E1 E]; try apply (ser_len L);
          apply (serialize_elem_inj (group_laws L)) in E1).
  auto.
Qed.

(** The string hashed for the weight of item [i], as RFC 9497, 2.2.1 writes
    it. *)
Definition composite_string {CS} (seed : bytes) (i : nat) (Ci Di : elem CS) : bytes :=
  lv seed ++ I2OSP (N.of_nat i) 2 ++ lv (serialize_elem (CSGroup CS) Ci)
  ++ lv (serialize_elem (CSGroup CS) Di) ++ str "Composite".

Lemma composite_string_inj {CS : CipherSuite} (L : SuiteLaws CS) seed i (C D : elem CS) seed' i' C' D' :
  len seed <= 65535 -> len seed' <= 65535 -> N.of_nat i <= 65535 -> N.of_nat i' <= 65535 ->
  composite_string seed i C D = composite_string seed' i' C' D' ->
  seed = seed' /\ i = i' /\ C = C' /\ D = D'.
Proof.
  intros Hs Hs' Hi Hi' E. unfold composite_string in E.
  apply lv_app_inj in E as [-> E]; auto.
  apply app_inj_len in E as [Ei E]; [|now rewrite !I2OSP_length].
  apply I2OSP2_inj in Ei; try lia.
  apply lv_app_inj in E as [EC E]; try apply (ser_len L).
  apply lv_app_inj in E as [ED E]; try apply (ser_len L).
  apply (serialize_elem_inj (group_laws L)) in EC, ED.
  repeat split; auto. lia.
Qed.

Lemma composite_input_string {CS : CipherSuite} (L : SuiteLaws CS) seed i (C D : elem CS) :
  len seed <= 65535 ->
  concat (composite_input CS seed (N.of_nat i) C D) = composite_string seed i C D.
Proof.
  intros Hs. unfold composite_input, composite_string, i2osp_2_array. cbn [concat].
  rewrite !(lv_ser L), !u16_to_be_bytes_I2OSP. unfold lv at 3, len. 
  rewrite <- !app_assoc, app_nil_r. reflexivity.
Qed.

(** The string hashed for a weight determines the seed, the position and the
    pair. *)
Theorem C19_composite_injective :
  forall (CS : CipherSuite) (L : SuiteLaws CS) seed i (C D : elem CS) seed' i' C' D',
  len seed <= 65535 -> len seed' <= 65535 -> N.of_nat i <= 65535 -> N.of_nat i' <= 65535 ->
  concat (composite_input CS seed (N.of_nat i) C D)
    = concat (composite_input CS seed' (N.of_nat i') C' D') ->
  seed = seed' /\ i = i' /\ C = C' /\ D = D'.
Proof.
  intros CS L seed i C D seed' i' C' D' Hs Hs' Hi Hi' E.
  rewrite !(composite_input_string L) in E by auto.
  now apply (composite_string_inj L) in E.
Qed.

Lemma info_string_inj n n' : len n <= 65535 -> len n' <= 65535 ->
  str "Info" ++ lv n = str "Info" ++ lv n' -> n = n'.
Proof. intros H H' E. apply app_inv_head in E. now apply lv_inj. Qed.

Lemma framed_info_string n nl : i2osp_2 (len n) = Ok nl ->
  len n <= 65535 /\ concat (framed_info_of nl n) = str "Info" ++ lv n.
Proof.
  intros H. destruct (N.leb_spec (len n) 65535) as [Hn|Hn];
    [|rewrite i2osp_2_err in H by auto; discriminate].
  rewrite i2osp_2_ok in H by auto. injection H as <-. split; auto.
  unfold framed_info_of. cbn [concat]. now rewrite app_nil_r.
Qed.

(** The string hashed for the tweak determines the info. *)
Theorem C19_info_injective :
  forall n nl n' nl', i2osp_2 (len n) = Ok nl -> i2osp_2 (len n') = Ok nl' ->
  concat (framed_info_of nl n) = concat (framed_info_of nl' n') -> n = n'.
Proof.
  intros n nl n' nl' H H' E. apply framed_info_string in H as [Hn H], H' as [Hn' H'].
  rewrite H, H' in E. now apply info_string_inj.
Qed.

(** The three kinds of strings hashed with the HashToScalar tag never
    coincide (for element lengths below 256, as in all built-in suites). *)
Theorem C19_transcripts_disjoint :
  forall (CS : CipherSuite) (L : SuiteLaws CS) (b m z t2 t3 C D : elem CS) seed i n nl,
  elem_len (CSGroup CS) < 256 -> len seed < 256 -> i2osp_2 (len n) = Ok nl ->
  let challenge_str := concat (challenge_input CS b m z t2 t3) in
  let composite_str := concat (composite_input CS seed (N.of_nat i) C D) in
  let info_str := concat (framed_info_of nl n) in
  challenge_str <> composite_str /\ challenge_str <> info_str /\ composite_str <> info_str.
Proof.
  intros CS L b m z t2 t3 C D seed i n nl He Hs Hn. cbv zeta.
  apply framed_info_string in Hn as [_ ->]. rewrite (composite_input_string L) by lia.
  assert (H0 : forall x, x < 256 -> exists y, I2OSP x 2 = [x00; y]).
  { intros x Hx. simpl. eexists. rewrite N.div_small by auto. reflexivity. }
  repeat split; intros E.
  - unfold challenge_input, composite_string in E. cbn [concat] in E.
    rewrite !app_nil_r, !app_assoc in E.
    apply app_inj_len_r in E as [_ E]; [|reflexivity]. discriminate E.
  - unfold challenge_input in E. cbn [concat] in E.
    destruct (H0 _ He) as [y Hy]. unfold elem_len_bytes at 1 in E.
    rewrite u16_to_be_bytes_I2OSP, Hy in E. discriminate E.
  - unfold composite_string, lv at 1 in E. destruct (H0 _ Hs) as [y Hy].
    unfold len in Hy. rewrite Hy in E. discriminate E.
Qed.

(** The string hashed for the challenge, as the RFC writes it; on the prover's
    side (nonce [r]) and on the verifier's side (proof [c], [s]). *)
Definition challenge_string {CS} (B M Z t2 t3 : elem CS) : bytes :=
  lv (serialize_elem (CSGroup CS) B) ++ lv (serialize_elem (CSGroup CS) M)
  ++ lv (serialize_elem (CSGroup CS) Z) ++ lv (serialize_elem (CSGroup CS) t2)
  ++ lv (serialize_elem (CSGroup CS) t3) ++ str "Challenge".
Definition prover_string {CS} (L : SuiteLaws CS) (mode : N) (A B : elem CS) (C D : list (elem CS))
    (r : scalar CS) : bytes :=
  let M := compositeM L mode B C D in
  let Z := compositeZ L mode B C D in
  challenge_string B M Z (elem_mul (CSGroup CS) A r) (elem_mul (CSGroup CS) M r).
Definition verifier_string {CS} (L : SuiteLaws CS) (mode : N) (A B : elem CS) (C D : list (elem CS))
    (c s : scalar CS) : bytes :=
  let M := compositeM L mode B C D in
  let Z := compositeZ L mode B C D in
  challenge_string B M Z
    (elem_add (CSGroup CS) (elem_mul (CSGroup CS) A s) (elem_mul (CSGroup CS) B c))
    (elem_add (CSGroup CS) (elem_mul (CSGroup CS) M s) (elem_mul (CSGroup CS) Z c)).

(** Two different strings with the same HashToScalar value in a mode. *)
Definition h2s_collision {CS} (L : SuiteLaws CS) (mode : N) (a b : bytes) : Prop :=
  a <> b /\ H2S L mode a = H2S L mode b.

Lemma challenge_string_inj {CS} (L : SuiteLaws CS) (b m z t2 t3 b' m' z' t2' t3' : elem CS) :
  challenge_string b m z t2 t3 = challenge_string b' m' z' t2' t3' ->
  b = b' /\ m = m' /\ z = z' /\ t2 = t2' /\ t3 = t3'.
Proof.
  intros E. unfold challenge_string in E.
  repeat (let E1 := fresh "E1" in apply lv_app_inj in E as [E1 E]; try apply (ser_len L);
          apply (serialize_elem_inj (group_laws L)) in E1).
  auto.
Qed.

Example C19_case :
  elem_len (CSGroup TS) < 256 /\ len (proof_seed (CS := TS) modeVOPRF (ex_elem 7)) < 256.
Proof. split; vm_compute; reflexivity. Qed.

(** ** C16 *)

(** The message hashed for one candidate key (RFC 9497, 3.2.1). *)
Definition key_message (seed info : bytes) (counter : N) : bytes :=
  seed ++ lv info ++ I2OSP counter 1.

(** The string hashed for a candidate, with its tag, determines the seed
    (among seeds of one length), the info, the counter and the mode. *)
Theorem C16_derivation_injective :
  forall (CS : CipherSuite) seed info il c m d seed' info' il' c' m' d',
  length seed = length seed' -> c <= 255 -> c' <= 255 ->
  i2osp_2 (len info) = Ok il -> i2osp_2 (len info') = Ok il' ->
  dst_new CS STR_DERIVE_KEYPAIR m = Ok d -> dst_new CS STR_DERIVE_KEYPAIR m' = Ok d' ->
  concat (derive_key_input seed il info c) = concat (derive_key_input seed' il' info' c') ->
  concat (as_dst d) = concat (as_dst d') ->
  seed = seed' /\ info = info' /\ c = c' /\ m = m'.
Proof.
  intros CS seed info il c m d seed' info' il' c' m' d' Hl Hc Hc' Hi Hi' Hd Hd' E Et.
  assert (Hin : In STR_DERIVE_KEYPAIR tag_labels) by (right; left; reflexivity).
  assert (Hm : m = m').
  { pose proof (C17_tags_distinct CS CS _ _ _ _ _ _ Hin Hin Hd Hd') as [_ H].
    now apply H in Et. }
  assert (Hlen : forall n nl, i2osp_2 (len n) = Ok nl -> len n <= 65535 /\ nl ++ n = lv n).
  { intros n nl H. destruct (N.leb_spec (len n) 65535) as [Hn|Hn];
      [|rewrite i2osp_2_err in H by auto; discriminate].
    rewrite i2osp_2_ok in H by auto. injection H as <-. split; auto. }
  apply Hlen in Hi as [Hi Ei], Hi' as [Hi' Ei'].
  unfold derive_key_input in E. cbn [concat] in E. rewrite !app_nil_r in E.
  apply app_inj_len in E as [-> E]; auto.
  rewrite !app_assoc, Ei, Ei' in E.
  apply lv_app_inj in E as [-> E]; auto.
  rewrite !u8_to_be_bytes_I2OSP in E.
  apply (I2OSP_inj 1) in E; try (simpl; lia). auto.
Qed.

(** The secret key that [new_from_seed] derives in a mode. *)
Definition seed_key (CS : CipherSuite) (m : Mode) (seed info : bytes) : res (scalar CS) :=
  match m with
  | Oprf => s <- oprf_server_new_from_seed CS seed info ;; Ok (oprf_sk s)
  | Voprf => s <- voprf_server_new_from_seed CS seed info ;; Ok (voprf_sk s)
  | Poprf => s <- poprf_server_new_from_seed CS seed info ;; Ok (poprf_sk s)
  end.

Lemma seed_key_internal CS m seed info : seed_key CS m seed info = derive_key_internal CS seed info m.
Proof.
  destruct m; unfold seed_key, oprf_server_new_from_seed, voprf_server_new_from_seed,
    poprf_server_new_from_seed, derive_keypair; destruct (derive_key_internal _ _ _ _); reflexivity.
Qed.

(** So two key derivations - in the same or in different modes - that give the
    same key used the same mode, seed and info, unless two different (string,
    tag) pairs are hashed to the same scalar. *)
Theorem C16_same_key :
  forall (CS : CipherSuite) (L : SuiteLaws CS) m seed info m' seed' info' sk,
  length seed = length seed' ->
  seed_key CS m seed info = Ok sk ->
  seed_key CS m' seed' info' = Ok sk ->
  (m = m' /\ seed = seed' /\ info = info') \/
  exists a t a' t', (a, t) <> (a', t') /\
    HashToScalar L a t = HashToScalar L a' t' /\
    t = str "DeriveKeyPair" ++ contextString (CS := CS) (mode_id m) /\
    t' = str "DeriveKeyPair" ++ contextString (CS := CS) (mode_id m') /\
    (exists c, a = key_message seed info c) /\ (exists c, a' = key_message seed' info' c).
Proof.
  intros CS L m seed info m' seed' info' s Hl H1 H2.
  rewrite seed_key_internal in H1, H2.
  destruct (N.leb_spec (len info) 65535) as [Hi|Hi];
    [|rewrite (derive_key_internal_long L) in H1 by auto; discriminate].
  destruct (N.leb_spec (len info') 65535) as [Hi'|Hi'];
    [|rewrite (derive_key_internal_long L) in H2 by auto; discriminate].
  destruct (derive_key_internal_cases L seed info m Hi) as [(sk & E & D)|[E D]];
    rewrite E in H1; [|discriminate].
  destruct (derive_key_internal_cases L seed' info' m' Hi') as [(sk' & E' & D')|[E' D']];
    rewrite E' in H2; [|discriminate].
  injection H1 as <-. injection H2 as ->.
  destruct D as (c & Hc & Hk & _), D' as (c' & Hc' & Hk' & _).
  destruct (list_eq_dec Byte.byte_eq_dec (key_message seed info c) (key_message seed' info' c')) as [Em|Em].
  - unfold key_message in Em. apply app_inj_len in Em as [-> Em]; auto.
    apply lv_app_inj in Em as [-> Em]; auto.
    assert (Hm : m = m' \/ m <> m') by (destruct m, m'; auto; right; discriminate).
    destruct Hm as [->|Hm]; [left; auto|right].
    do 4 eexists. split; [|split; [|split; [reflexivity|split; [reflexivity|split; eexists; reflexivity]]]].
    + instantiate (1 := c'). instantiate (1 := c). intros E0. apply (f_equal snd) in E0. cbn [snd] in E0.
      apply app_inv_head in E0. unfold contextString in E0. apply app_inv_head in E0.
      apply app_inj_len in E0 as [E0 _]; [|now rewrite !I2OSP_length].
      destruct m, m'; try congruence; vm_compute in E0; discriminate E0.
    + unfold key_candidate in Hk, Hk'. unfold key_message. congruence.
  - right. exists (key_message seed info c). eexists. exists (key_message seed' info' c'). eexists.
    split; [|split; [|split; [reflexivity|split; [reflexivity|split; eexists; reflexivity]]]].
    + intros E0. apply Em. exact (f_equal fst E0).
    + unfold key_candidate in Hk, Hk'. unfold key_message. congruence.
Qed.

(** For seeds of different lengths it is not: these two different calls derive
    the same key (or fail in the same way), in every mode and for every seed. *)
Theorem C16_different_lengths_refuted :
  forall (CS : CipherSuite) (L : SuiteLaws CS) (seed : bytes),
  oprf_server_new_from_seed CS seed [x00; x00] = oprf_server_new_from_seed CS (seed ++ [x00; x02]) [] /\
  voprf_server_new_from_seed CS seed [x00; x00] = voprf_server_new_from_seed CS (seed ++ [x00; x02]) [] /\
  poprf_server_new_from_seed CS seed [x00; x00] = poprf_server_new_from_seed CS (seed ++ [x00; x02]) [].
Proof.
  intros CS L seed.
  assert (Hd : forall mode, derive_key_internal CS seed [x00; x00] mode
                            = derive_key_internal CS (seed ++ [x00; x02]) [] mode).
  { intros mode. unfold derive_key_internal.
    rewrite (dst_new_ok L) by (vm_compute; discriminate). cbn [bind].
    rewrite !i2osp_2_ok by (vm_compute; discriminate). cbn [map_err bind].
    rewrite !(derive_key_loop_spec L).
    assert (Hk : forall c, key_candidate L (mode_id mode) seed [x00; x00] c
                           = key_candidate L (mode_id mode) (seed ++ [x00; x02]) [] c).
    { intros c. unfold key_candidate. apply f_equal2; [|reflexivity].
      rewrite <- app_assoc. apply f_equal2; reflexivity. }
    generalize u8_range_inclusive as l. induction l as [|c l IH]; [reflexivity|].
    cbn [find]. rewrite <- (Hk c).
    destruct (is_zero_scalar _ (key_candidate L (mode_id mode) seed [x00; x00] c)); cbn [negb].
    - exact IH.
    - now rewrite Hk. }
  unfold oprf_server_new_from_seed, voprf_server_new_from_seed, poprf_server_new_from_seed,
    derive_keypair.
  rewrite !Hd. auto.
Qed.

Example C16_case :
  exists server : OprfServer TS, oprf_server_new_from_seed TS (bstr "seed") [x00; x00] = Ok server.
Proof.
  destruct (derive_key_internal_cases TL (bstr "seed") [x00; x00] Oprf) as [(sk & H & _)|[_ H]].
  - vm_compute. discriminate.
  - exists (mkOprfServer sk). unfold oprf_server_new_from_seed. now rewrite H.
  - exfalso. specialize (H 0 ltac:(lia)). apply (f_equal (fval (q := 251))) in H. vm_compute in H. discriminate.
Qed.
