(** * C56: sessions give a server nothing about the inputs.

    A spy plays the server.  It has clients open sessions, each on one of two
    inputs it names; it sees their messages; it answers with whatever it
    likes, in any order, to one session or to many, as often as it likes, and
    sees each time whether the client accepted.  In the end it says yes or no.
    Over all blinding factors it says yes exactly as often when the clients
    took the first inputs as when they took the second. *)
From Verif Require Import Laws Spec BytesFacts GroupFacts CommonFacts OprfFacts VoprfFacts PoprfFacts
  PropCorrectness PropSimulation Oracle ZkFacts PropUnpredict PropRom PropZk Zq.
From Verif Require PropUniform.
From Coq Require Import Lia Permutation.
Open Scope N_scope.

(** ** The game *)

(** What a spy does: [E] is the type of messages, [Q] of answers, [V] of what
    it learns from an answer. *)
Inductive spy (E Q V : Type) : Type :=
| SOpen (x0 x1 : bytes) (next : res E -> spy E Q V)
| SAnswer (a : Q) (next : V -> spy E Q V)
| SSay (answer : bool).
Arguments SOpen {E Q V}. Arguments SAnswer {E Q V}. Arguments SSay {E Q V}.

(** The spy opens at most [n] sessions, and the two inputs it names for one
    are a [fair] pair. *)
Fixpoint opens {E Q V} (fair : bytes -> bytes -> Prop) (n : nat) (D : spy E Q V) : Prop :=
  match D with
  | SOpen x0 x1 next => (1 <= n)%nat /\ fair x0 x1 /\ forall r, opens fair (n - 1) (next r)
  | SAnswer _ next => forall v, opens fair n (next v)
  | SSay _ => True
  end.

(** The run: [blind] opens a session, giving the client's state and message;
    [judge] gives an answer to the sessions opened so far, each kept with its
    input.  [second] says which inputs the clients take. *)
Fixpoint spied {E Q V C St} (blind : bytes -> St -> res (C * E) * St) (judge : list (bytes * C) -> Q -> V)
    (second : bool) (D : spy E Q V) (sessions : list (bytes * C)) (st : St) : bool :=
  match D with
  | SOpen x0 x1 next =>
      let x := if second then x1 else x0 in
      match blind x st with
      | (Ok (c, m), st') => spied blind judge second (next (Ok m)) (sessions ++ [(x, c)]) st'
      | (other, st') => spied blind judge second (next (map_ok snd other)) sessions st'
      end
  | SAnswer a next => spied blind judge second (next (judge sessions a)) sessions st
  | SSay b => b
  end.

(** The chosen ones of a list. *)
Definition pick {T} (l : list T) (is : list nat) : list T :=
  flat_map (fun i => match nth_error l i with Some x => [x] | None => [] end) is.

(** What a client lets be seen of a result: success or the error. *)
Definition accepts {T} (r : res T) : res unit := map_ok (fun _ => tt) r.

Section Games.
Context (CS : CipherSuite) (R : Rng).

(** An answer names sessions by their numbers. *)
Inductive answer_of (Elem Scalar : Type) : Type :=
| AOne (i : nat) (evaluation : Elem) (c s : Scalar) (pk : Elem) (info : option bytes)
| AMany (is : list nat) (evaluations : list Elem) (c s : Scalar) (pk : Elem) (info : option bytes).
Arguments AOne {Elem Scalar}. Arguments AMany {Elem Scalar}.
Inductive verdict : Type :=
| NoSession
| One (r : res unit)
| Many (r : res (list (res unit))).

(** Base mode: no proof and no batches; an answer to many is one to each. *)
Definition oprf_opens (x : bytes) (st : rng_state R) : res (OprfClient CS * elem CS) * rng_state R :=
  let '(r, st') := oprf_client_blind CS R x st in
  (map_ok (fun b => (oprf_state b, blinded_value (oprf_message b))) r, st').
Definition oprf_judges (sessions : list (bytes * OprfClient CS)) (a : answer_of (elem CS) (scalar CS)) : verdict :=
  match a with
  | AOne i e _ _ _ _ =>
      match nth_error sessions i with
      | Some (x, c) => One (accepts (oprf_client_finalize CS c x (mkEvaluation e)))
      | None => NoSession
      end
  | AMany is es _ _ _ _ =>
      Many (Ok (map (fun '((x, c), e) => accepts (oprf_client_finalize CS c x (mkEvaluation e)))
                    (combine (pick sessions is) es)))
  end.

Definition voprf_opens (x : bytes) (st : rng_state R) : res (VoprfClient CS * elem CS) * rng_state R :=
  let '(r, st') := voprf_client_blind CS R x st in
  (map_ok (fun b => (voprf_state b, blinded_value (voprf_message b))) r, st').
Definition voprf_judges (sessions : list (bytes * VoprfClient CS)) (a : answer_of (elem CS) (scalar CS)) : verdict :=
  match a with
  | AOne i e c s pk _ =>
      match nth_error sessions i with
      | Some (x, cl) => One (accepts (voprf_client_finalize CS cl x (mkEvaluation e) (mkProof c s) pk))
      | None => NoSession
      end
  | AMany is es c s pk _ =>
      let chosen := pick sessions is in
      Many (map_ok (map accepts)
        (voprf_client_batch_finalize CS (map fst chosen) (map snd chosen) (map mkEvaluation es) (mkProof c s) pk))
  end.

Definition poprf_opens (x : bytes) (st : rng_state R) : res (PoprfClient CS * elem CS) * rng_state R :=
  let '(r, st') := poprf_client_blind CS R x st in
  (map_ok (fun b => (poprf_state b, blinded_value (poprf_message b))) r, st').
Definition poprf_judges (sessions : list (bytes * PoprfClient CS)) (a : answer_of (elem CS) (scalar CS)) : verdict :=
  match a with
  | AOne i e c s pk info =>
      match nth_error sessions i with
      | Some (x, cl) => One (accepts (poprf_client_finalize CS cl x (mkEvaluation e) (mkProof c s) pk info))
      | None => NoSession
      end
  | AMany is es c s pk info =>
      let chosen := pick sessions is in
      Many (map_ok (map accepts)
        (poprf_client_batch_finalize CS (map fst chosen) (map snd chosen) (map mkEvaluation es) (mkProof c s) pk info))
  end.
End Games.
Arguments AOne {Elem Scalar}. Arguments AMany {Elem Scalar}.

(** Two inputs that may stand for each other: neither hashes to the identity
    element, and if one is too long to be finalized, so is the other. *)
Definition exchangeable {CS} (L : SuiteLaws CS) (mode : N) (x0 x1 : bytes) : Prop :=
  H2G L mode x0 <> identity_elem (CSGroup CS) /\ H2G L mode x1 <> identity_elem (CSGroup CS) /\
  (len x0 <= 65535 <-> len x1 <= 65535).

(** The spy says yes as often in both worlds. *)
Definition same_chance {CS} (scalars : list (scalar CS)) {E Q V C St}
    (blind : bytes -> St -> res (C * E) * St) (judge : list (bytes * C) -> Q -> V)
    (draw : list (scalar CS) -> St) (n : nat) (D : spy E Q V) : Prop :=
  let choices := sequences n (nonces scalars) in
  count (fun rs => spied blind judge false D [] (draw rs)) choices
  = count (fun rs => spied blind judge true D [] (draw rs)) choices.

(** ** Proofs *)
Lemma nth_error_alike {A B} (P : A -> B -> Prop) l l' i : Forall2 P l l' ->
  match nth_error l i, nth_error l' i with Some a, Some b => P a b | None, None => True | _, _ => False end.
Proof. intros H. revert i. induction H as [|a b l l' Hab H IH]; intros [|i]; simpl; auto. apply IH. Qed.

Lemma pick_alike {A B} (P : A -> B -> Prop) l l' is : Forall2 P l l' -> Forall2 P (pick l is) (pick l' is).
Proof.
  intros H. unfold pick. induction is as [|i is IH]; simpl; auto. apply Forall2_app; auto.
  pose proof (nth_error_alike P l l' i H) as Hi.
  destruct (nth_error l i), (nth_error l' i); try contradiction; auto.
Qed.

Section Spied.
Context {CS : CipherSuite} (L : SuiteLaws CS).
Context (scalars : list (scalar CS)) (all_scalars : forall a, In a scalars) (nodup_scalars : NoDup scalars).
Local Notation G := (CSGroup CS).
Local Notation GL := (group_laws L).
Local Notation S := (scalar CS).
Local Notation nonces := (nonces scalars).
Local Notation "k [*] P" := (elem_mul G P k) (at level 40).
Add Field scalar_field_o : (scalar_field G GL).

Lemma nonce_iff r : In r nonces <-> r <> zero_scalar G.
Proof.
  unfold ZkFacts.nonces. rewrite filter_In, Bool.negb_true_iff. split.
  - intros [_ H]. now apply (is_zero_false GL).
  - intros H. split; auto. now apply (is_zero_false GL).
Qed.

Lemma scale_perm (u : S) : u <> zero_scalar G -> Permutation (map (fun r => scalar_mul G r u) nonces) nonces.
Proof.
  intros Hu.
  assert (Hinj : forall a b, scalar_mul G a u = scalar_mul G b u -> a = b).
  { intros a b E. transitivity (scalar_mul G (scalar_mul G a u) (s_inv GL u)); [field; auto|]. rewrite E. field; auto. }
  assert (Hn : NoDup nonces) by (apply NoDup_filter; auto).
  apply NoDup_Permutation; auto.
  - clear - Hinj Hn. induction Hn as [|a l Ha Hn IH]; simpl; constructor; auto.
    intros H. apply in_map_iff in H as (b & E & Hb). apply Hinj in E. subst. contradiction.
  - intros x. rewrite in_map_iff, nonce_iff. split.
    + intros (r & <- & Hr) E. apply nonce_iff in Hr. apply Hr. apply Hinj. rewrite E. ring.
    + intros Hx. exists (scalar_mul G x (s_inv GL u)). split; [field; auto|].
      apply nonce_iff. intros E. apply Hx. transitivity (scalar_mul G (scalar_mul G x (s_inv GL u)) u); [field; auto|].
      rewrite E. ring.
Qed.

Section Generic.
Context {C Q V St : Type} (blind : bytes -> St -> res (C * elem CS) * St) (judge : list (bytes * C) -> Q -> V).
Context (draw : list S -> St) (mode : N) (client : S -> elem CS -> C).
Context (blind_draws : forall x r rs, r <> zero_scalar G ->
  blind x (draw (r :: rs)) = (Ok (client r (r [*] H2G L mode x), r [*] H2G L mode x), draw rs)).

(** Two sessions that look the same from outside. *)
Definition alike (a b : bytes * C) : Prop :=
  exists r r' m, r <> zero_scalar G /\ r' <> zero_scalar G /\ snd a = client r m /\ snd b = client r' m /\
    (len (fst a) <= 65535 <-> len (fst b) <= 65535).
Context (judge_alike : forall l l' a, Forall2 alike l l' -> judge l a = judge l' a).

Lemma spied_same D : forall n l l', Forall2 alike l l' -> opens (exchangeable L mode) n D ->
  count (fun rs => spied blind judge false D l (draw rs)) (sequences n nonces)
  = count (fun rs => spied blind judge true D l' (draw rs)) (sequences n nonces).
Proof.
  induction D as [x0 x1 next IH|a next IH|b]; intros n l l' Hl Ho; cbn [opens] in Ho.
  - destruct Ho as (Hn & (H0 & H1 & Hlen) & Ho). destruct n as [|n]; [lia|].
    replace (Datatypes.S n - 1)%nat with n in Ho by lia.
    cbn [sequences]. rewrite !PropZk.count_flat_map.
    destruct (elem_generated_by GL (H2G L mode x0) (H2G L mode x1) H0) as [u Hu].
    assert (Hu0 : u <> zero_scalar G) by (intros ->; rewrite (elem_mul_zero G GL) in Hu; contradiction).
    match goal with |- sum ?f nonces = _ => rewrite <- (sum_perm f _ _ (scale_perm u Hu0)), (sum_map f) end.
    apply sum_ext. intros r Hr. cbv beta. rewrite !PropZk.count_map. apply nonce_iff in Hr.
    assert (Hru : scalar_mul G r u <> zero_scalar G).
    { intros E. apply Hr. transitivity (scalar_mul G (scalar_mul G r u) (s_inv GL u)); [field; auto|]. rewrite E. ring. }
    assert (E : scalar_mul G r u [*] H2G L mode x0 = r [*] H2G L mode x1).
    { rewrite Hu, (elem_mul_mul G GL). f_equal. ring. }
    rewrite (count_ext _ (fun rs => spied blind judge false (next (Ok (r [*] H2G L mode x1)))
      (l ++ [(x0, client (scalar_mul G r u) (r [*] H2G L mode x1))]) (draw rs))).
    2: { intros rs _. cbn [spied]. rewrite blind_draws by auto. now rewrite E. }
    rewrite (count_ext (fun rs => spied blind judge true _ _ _) (fun rs => spied blind judge true (next (Ok (r [*] H2G L mode x1)))
      (l' ++ [(x1, client r (r [*] H2G L mode x1))]) (draw rs))).
    2: { intros rs _. cbn [spied]. now rewrite blind_draws by auto. }
    apply IH; auto. apply Forall2_app; auto. constructor; auto.
    exists (scalar_mul G r u), r, (r [*] H2G L mode x1). auto.
  - cbn [spied]. rewrite (judge_alike l l' a Hl). now apply IH.
  - reflexivity.
Qed.
End Generic.

Lemma oprf_accepts (c : OprfClient CS) (x : bytes) e : oprf_blind c <> zero_scalar G ->
  accepts (oprf_client_finalize CS c x e) = if 65535 <? len x then Err EInput else Ok tt.
Proof.
  intros Hc. destruct (N.ltb_spec 65535 (len x)).
  - now rewrite (oprf_finalize_long L).
  - now rewrite (oprf_finalize_ok L).
Qed.

Lemma same_length (x x' : bytes) : (len x <= 65535 <-> len x' <= 65535) -> (65535 <? len x) = (65535 <? len x').
Proof. intros H. destruct (N.ltb_spec 65535 (len x)), (N.ltb_spec 65535 (len x')); auto; lia. Qed.

Lemma oprf_alike l l' a : Forall2 (alike (fun r _ => mkOprfClient r)) l l' -> oprf_judges CS l a = oprf_judges CS l' a.
Proof.
  intros H.
  assert (Hone : forall p p' e, alike (fun r _ => mkOprfClient r) p p' ->
    accepts (oprf_client_finalize CS (snd p) (fst p) (mkEvaluation e)) = accepts (oprf_client_finalize CS (snd p') (fst p') (mkEvaluation e))).
  { intros p p' e (r & r' & m & Hr & Hr' & Ec & Ec' & Hlen).
    rewrite !oprf_accepts by (rewrite ?Ec, ?Ec'; auto). now rewrite (same_length _ _ Hlen). }
  destruct a as [i e c s pk info|is es c s pk info]; cbn [oprf_judges].
  - pose proof (nth_error_alike _ l l' i H) as Hi.
    destruct (nth_error l i) as [[x c1]|], (nth_error l' i) as [[x' c1']|]; try contradiction; auto.
    f_equal. exact (Hone _ _ e Hi).
  - do 2 f_equal. pose proof (pick_alike _ l l' is H) as Hp. clear H.
    revert es. induction Hp as [|[x c1] [x' c1'] p p' Hc Hp IH]; intros [|e es]; auto.
    cbn [combine map]. f_equal; auto. exact (Hone _ _ e Hc).
Qed.

Lemma voprf_accepts (x : bytes) e : accepts (voprf_finalize_one CS x e) = if 65535 <? len x then Err EInput else Ok tt.
Proof.
  destruct (N.ltb_spec 65535 (len x)).
  - now rewrite voprf_finalize_one_long.
  - now rewrite (voprf_finalize_one_ok L).
Qed.

Local Notation valike := (alike mkVoprfClient).
Lemma voprf_batch_alike p p' es c s pk : Forall2 valike p p' ->
  map_ok (map accepts) (voprf_client_batch_finalize CS (map fst p) (map snd p) es (mkProof c s) pk)
  = map_ok (map accepts) (voprf_client_batch_finalize CS (map fst p') (map snd p') es (mkProof c s) pk).
Proof.
  intros H.
  assert (Hb : map voprf_blinded_element (map snd p) = map voprf_blinded_element (map snd p')).
  { clear - H. induction H as [|a b p p' (r & r' & m & _ & _ & Ea & Eb & _) H IH]; simpl; auto. rewrite Ea, Eb. now f_equal. }
  assert (Hz : forall cl, In cl (map snd p) -> voprf_blind cl <> zero_scalar G).
  { clear - H. induction H as [|a b p p' (r & r' & m & Hr & _ & Ea & Eb & _) H IH]; simpl; [tauto|].
    intros cl [<-|Hc]; auto. now rewrite Ea. }
  assert (Hz' : forall cl, In cl (map snd p') -> voprf_blind cl <> zero_scalar G).
  { clear - H. induction H as [|a b p p' (r & r' & m & _ & Hr & Ea & Eb & _) H IH]; simpl; [tauto|].
    intros cl [<-|Hc]; auto. now rewrite Eb. }
  destruct (verify_proof CS (base_elem G) pk (map voprf_blinded_element (map snd p)) (map evaluation_value es)
    (mkProof c s) Voprf) as [[]|er| |] eqn:Ev.
  - rewrite (voprf_batch_finalize_ok L) by auto. rewrite Hb in Ev. rewrite (voprf_batch_finalize_ok L) by auto.
    cbn [map_ok]. f_equal. clear - H. revert es. induction H as [|[x c1] [x' c1'] p p' (r & r' & m & _ & _ & _ & _ & Hlen) H IH]; intros [|e es]; auto.
    cbn [map combine fst snd]. f_equal; auto. rewrite !voprf_accepts. now rewrite (same_length x x' Hlen).
  - rewrite (voprf_batch_finalize_fail _ _ _ _ _ _ Ev). rewrite Hb in Ev. now rewrite (voprf_batch_finalize_fail _ _ _ _ _ _ Ev).
  - unfold voprf_client_batch_finalize, verifiable_unblind. now rewrite <- Hb, Ev.
  - unfold voprf_client_batch_finalize, verifiable_unblind. now rewrite <- Hb, Ev.
Qed.

(** A single answer is a batch of one. *)
Lemma single_verdict (r : res (list (res bytes))) :
  accepts (bind r (fun l => next_unwrap l)) = match map_ok (map accepts) r with
    | Ok (v :: _) => v | Ok [] => Panic | Err e => Err e | Panic => Panic | Diverge => Diverge end.
Proof. destruct r as [[|v l]|e| |]; reflexivity. Qed.

Lemma voprf_alike l l' a : Forall2 valike l l' -> voprf_judges CS l a = voprf_judges CS l' a.
Proof.
  intros H. destruct a as [i e c s pk info|is es c s pk info]; cbn [voprf_judges].
  - pose proof (nth_error_alike _ l l' i H) as Hi.
    destruct (nth_error l i) as [[x c1]|], (nth_error l' i) as [[x' c1']|]; try contradiction; auto.
    f_equal. unfold voprf_client_finalize. rewrite !single_verdict.
    pose proof (voprf_batch_alike [(x, c1)] [(x', c1')] [mkEvaluation e] c s pk (Forall2_cons _ _ Hi (Forall2_nil _))) as E.
    cbn [map fst snd] in E. now rewrite E.
  - f_equal. apply voprf_batch_alike. now apply pick_alike.
Qed.

Lemma poprf_accepts e x (info : bytes) : len info <= 65535 ->
  accepts (poprf_finalize_one CS e x info) = if 65535 <? len x then Err EInput else Ok tt.
Proof.
  intros Hi. destruct (N.ltb_spec 65535 (len x)).
  - now rewrite poprf_finalize_one_long.
  - now rewrite (poprf_finalize_one_ok L).
Qed.

Local Notation palike := (alike mkPoprfClient).
Lemma poprf_batch_alike p p' es c s pk info : Forall2 palike p p' ->
  map_ok (map accepts) (poprf_client_batch_finalize CS (map fst p) (map snd p) es (mkProof c s) pk info)
  = map_ok (map accepts) (poprf_client_batch_finalize CS (map fst p') (map snd p') es (mkProof c s) pk info).
Proof.
  intros H.
  assert (Hb : map poprf_blinded_element (map snd p) = map poprf_blinded_element (map snd p')).
  { clear - H. induction H as [|a b p p' (r & r' & m & _ & _ & Ea & Eb & _) H IH]; simpl; auto. rewrite Ea, Eb. now f_equal. }
  assert (Hz : forall cl, In cl (map snd p) -> poprf_blind cl <> zero_scalar G).
  { clear - H. induction H as [|a b p p' (r & r' & m & Hr & _ & Ea & Eb & _) H IH]; simpl; [tauto|].
    intros cl [<-|Hc]; auto. now rewrite Ea. }
  assert (Hz' : forall cl, In cl (map snd p') -> poprf_blind cl <> zero_scalar G).
  { clear - H. induction H as [|a b p p' (r & r' & m & _ & Hr & Ea & Eb & _) H IH]; simpl; [tauto|].
    intros cl [<-|Hc]; auto. now rewrite Eb. }
  assert (Hll : length p = length p') by (clear - H; induction H; simpl; auto).
  destruct (compute_tweaked_key CS pk (Some (info_or_default info))) as [tk|er| |] eqn:Et.
  2: { now rewrite !(poprf_batch_finalize_tweak_fail _ _ _ _ _ _ _ Et). }
  2,3: unfold poprf_client_batch_finalize, poprf_unblind; now rewrite Et.
  destruct (N.leb_spec (len (info_or_default info)) 65535) as [Hi|Hi].
  2: { unfold compute_tweaked_key in Et. cbn [info_or_default] in Et. rewrite i2osp_2_err in Et by auto. discriminate. }
  rewrite (compute_tweaked_key_ok L) in Et by auto. cbn [info_or_default] in Et.
  set (t := tweaked_element L pk (info_or_default info)) in *.
  destruct (is_identity_elem G t) eqn:Eid; [discriminate|]. apply (is_identity_false GL) in Eid.
  destruct (verify_proof CS (base_elem G) t (map evaluation_value es) (map poprf_blinded_element (map snd p))
    (mkProof c s) Poprf) as [[]|er| |] eqn:Ev.
  - assert (Ev' := Ev). rewrite Hb in Ev'.
    assert (Hlen : len (combine (map snd p) es) = len (combine (map snd p') es)).
    { unfold len. rewrite !combine_length, !map_length. now rewrite Hll. }
    assert (Hin : len (map fst p) = len (map fst p')) by (unfold len; rewrite !map_length; now rewrite Hll).
    destruct (N.eq_dec (len (map fst p)) (len (combine (map snd p) es))) as [El|El].
    + rewrite (poprf_batch_finalize_ok L) by auto. rewrite (poprf_batch_finalize_ok L) by (auto; congruence).
      cbn [map_ok]. f_equal. clear - H Hi. revert es. induction H as [|[x c1] [x' c1'] p p' (r & r' & m & _ & _ & _ & _ & Hl) H IH]; intros [|e es]; auto.
      cbn [map combine fst snd]. f_equal; auto. rewrite !poprf_accepts by auto. now rewrite (same_length x x' Hl).
    + rewrite (poprf_batch_finalize_wrong_inputs L) by auto. now rewrite (poprf_batch_finalize_wrong_inputs L) by (auto; congruence).
  - rewrite (poprf_batch_finalize_fail L _ _ _ _ _ _ _ Hi Eid Ev). rewrite Hb in Ev.
    now rewrite (poprf_batch_finalize_fail L _ _ _ _ _ _ _ Hi Eid Ev).
  - unfold poprf_client_batch_finalize, poprf_unblind. rewrite (compute_tweaked_key_ok L) by auto. cbn [info_or_default]. fold t.
    rewrite (proj2 (is_identity_false GL _) Eid). cbn [bind]. now rewrite <- Hb, Ev.
  - unfold poprf_client_batch_finalize, poprf_unblind. rewrite (compute_tweaked_key_ok L) by auto. cbn [info_or_default]. fold t.
    rewrite (proj2 (is_identity_false GL _) Eid). cbn [bind]. now rewrite <- Hb, Ev.
Qed.

Lemma poprf_alike l l' a : Forall2 palike l l' -> poprf_judges CS l a = poprf_judges CS l' a.
Proof.
  intros H. destruct a as [i e c s pk info|is es c s pk info]; cbn [poprf_judges].
  - pose proof (nth_error_alike _ l l' i H) as Hi.
    destruct (nth_error l i) as [[x c1]|], (nth_error l' i) as [[x' c1']|]; try contradiction; auto.
    f_equal. unfold poprf_client_finalize. rewrite !single_verdict.
    pose proof (poprf_batch_alike [(x, c1)] [(x', c1')] [mkEvaluation e] c s pk info (Forall2_cons _ _ Hi (Forall2_nil _))) as E.
    cbn [map fst snd] in E. now rewrite E.
  - f_equal. apply poprf_batch_alike. now apply pick_alike.
Qed.
End Spied.

(** ** C56 *)

Theorem C56_oprf_oblivious :
  forall (CS : CipherSuite) (L : SuiteLaws CS) (scalars : list (scalar CS)), enumerates scalars ->
  forall (R : Rng) (draw : list (scalar CS) -> rng_state R), yields (CSGroup CS) R draw ->
  forall (n : nat) (D : spy (elem CS) (answer_of (elem CS) (scalar CS)) verdict),
  opens (exchangeable L modeOPRF) n D ->
  same_chance scalars (oprf_opens CS R) (oprf_judges CS) draw n D.
Proof.
  intros CS L scalars [Hd Ha] R draw Hy n D Ho. unfold same_chance.
  apply (spied_same L scalars Ha Hd (oprf_opens CS R) (oprf_judges CS) draw modeOPRF (fun r _ => mkOprfClient r)); auto.
  - intros x r rs Hr. unfold oprf_opens. rewrite (oprf_blind_ok L), (Hy r rs Hr). reflexivity.
  - exact (oprf_alike L).
Qed.

Theorem C56_voprf_oblivious :
  forall (CS : CipherSuite) (L : SuiteLaws CS) (scalars : list (scalar CS)), enumerates scalars ->
  forall (R : Rng) (draw : list (scalar CS) -> rng_state R), yields (CSGroup CS) R draw ->
  forall (n : nat) (D : spy (elem CS) (answer_of (elem CS) (scalar CS)) verdict),
  opens (exchangeable L modeVOPRF) n D ->
  same_chance scalars (voprf_opens CS R) (voprf_judges CS) draw n D.
Proof.
  intros CS L scalars [Hd Ha] R draw Hy n D Ho. unfold same_chance.
  apply (spied_same L scalars Ha Hd (voprf_opens CS R) (voprf_judges CS) draw modeVOPRF mkVoprfClient); auto.
  - intros x r rs Hr. unfold voprf_opens. rewrite (voprf_blind_ok L), (Hy r rs Hr). reflexivity.
  - exact (voprf_alike L).
Qed.

Theorem C56_poprf_oblivious :
  forall (CS : CipherSuite) (L : SuiteLaws CS) (scalars : list (scalar CS)), enumerates scalars ->
  forall (R : Rng) (draw : list (scalar CS) -> rng_state R), yields (CSGroup CS) R draw ->
  forall (n : nat) (D : spy (elem CS) (answer_of (elem CS) (scalar CS)) verdict),
  opens (exchangeable L modePOPRF) n D ->
  same_chance scalars (poprf_opens CS R) (poprf_judges CS) draw n D.
Proof.
  intros CS L scalars [Hd Ha] R draw Hy n D Ho. unfold same_chance.
  apply (spied_same L scalars Ha Hd (poprf_opens CS R) (poprf_judges CS) draw modePOPRF mkPoprfClient); auto.
  - intros x r rs Hr. unfold poprf_opens. rewrite (poprf_blind_ok L), (Hy r rs Hr). reflexivity.
  - exact (poprf_alike L).
Qed.

(** Cases, for the suite with 251 scalars.  A spy opens a session, answers
    with its own evaluation and proof, and says yes if the client accepts or
    the message was small. *)
Definition ex_answer : answer_of (elem TS) (scalar TS) := AOne 0 (ex_elem 9) (ex_scalar 1) (ex_scalar 2) (ex_elem 7) (Some ex_info).
Definition ex_small_message (m : res (elem TS)) : bool :=
  match m with Ok e => (fval (q := 251) e <? 50)%Z | _ => false end.
Definition ex_spy (x0 x1 : bytes) : spy (elem TS) (answer_of (elem TS) (scalar TS)) verdict :=
  SOpen x0 x1 (fun m => SAnswer ex_answer (fun v =>
    SSay (ex_small_message m || match v with One (Ok tt) => true | _ => false end)%bool)).
(* one with two sessions, answered together *)
Definition ex_spy2 : spy (elem TS) (answer_of (elem TS) (scalar TS)) verdict :=
  SOpen ex_input ex_input2 (fun m => SOpen ex_input2 ex_input (fun m' =>
    SAnswer (AMany [1; 0]%nat [ex_elem 9; ex_elem 10] (ex_scalar 1) (ex_scalar 2) (ex_elem 7) None) (fun v =>
    SAnswer ex_answer (fun v' => SSay (ex_small_message m))))).
Example C56_case :
  enumerates ex_scalars /\ yields (CSGroup TS) PropUniform.TapeRng ex_tape /\
  (forall mode, In mode [modeOPRF; modeVOPRF; modePOPRF] ->
     opens (exchangeable TL mode) 1 (ex_spy ex_input ex_input2) /\ opens (exchangeable TL mode) 2 ex_spy2) /\
  count (fun rs => spied (oprf_opens TS PropUniform.TapeRng) (oprf_judges TS) false (ex_spy ex_input ex_input2) [] (ex_tape rs))
    (sequences 1 (nonces ex_scalars)) = 250%nat /\
  count (fun rs => spied (voprf_opens TS PropUniform.TapeRng) (voprf_judges TS) false (ex_spy ex_input ex_input2) [] (ex_tape rs))
    (sequences 1 (nonces ex_scalars)) = 50%nat /\
  count (fun rs => spied (poprf_opens TS PropUniform.TapeRng) (poprf_judges TS) false (ex_spy ex_input ex_input2) [] (ex_tape rs))
    (sequences 1 (nonces ex_scalars)) = 49%nat.
Proof.
  split; [exact ex_scalars_all|]. split; [exact ex_tape_yields|]. split.
  { intros mode Hm.
    assert (He : exchangeable TL mode ex_input ex_input2 /\ exchangeable TL mode ex_input2 ex_input).
    { destruct Hm as [<-|[<-|[<-|[]]]]; (split; (split; [vm_compute; discriminate|]; split; [vm_compute; discriminate|]));
        (split; intros _; vm_compute; discriminate). }
    destruct He as [He He']. split.
    - split; [lia|]. split; [exact He|]. intros r v. exact I.
    - split; [lia|]. split; [exact He|]. intros r. split; [lia|]. split; [exact He'|]. intros r' v v'. exact I. }
  split; [|split]; vm_compute; reflexivity.
Qed.
