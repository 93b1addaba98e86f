(** * C65: a base-mode server with a secret seed is a random function.

    Both hash functions are random.  A program hashes, hashes to scalars, and
    has inputs evaluated by a server that [new_from_seed] (or [new]) made from
    a secret seed: it cannot tell this from a server without any key that
    answers with random strings.  This puts C64 (the key) and C57 (the outputs
    under a random key) together. *)
From Verif Require Import Laws Spec BytesFacts GroupFacts CommonFacts OprfFacts PropCorrectness Oracle RomFacts ZkFacts Guess PrfFacts
  PropUnpredict PropRom PropZk PropPrf PropDerived Zq.
From Verif Require PropUniform.
From Coq Require Import Lia ArithRing.
Open Scope N_scope.

(** ** The game *)
Inductive caller (CS : CipherSuite) : Type :=
| KHash (message : bytes) (next : bytes -> caller CS)
| KScalar (message tag : bytes) (next : scalar CS -> caller CS)
| KEvaluate (input : bytes) (next : res bytes -> caller CS)
| KSay (yes : bool).
Arguments KHash {CS} _ _.
Arguments KScalar {CS} _ _ _.
Arguments KEvaluate {CS} _ _.
Arguments KSay {CS} _.

(** It hashes at most [Q1] strings, and at most [Q2] to scalars. *)
Fixpoint caller_hashes {CS} (Q1 Q2 : nat) (A : caller CS) : Prop :=
  match A with
  | KHash _ next => (1 <= Q1)%nat /\ forall v, caller_hashes (Q1 - 1) Q2 (next v)
  | KScalar _ _ next => (1 <= Q2)%nat /\ forall a, caller_hashes Q1 (Q2 - 1) (next a)
  | KEvaluate _ next => forall r, caller_hashes Q1 Q2 (next r)
  | KSay _ => True
  end.

(** What it says, when [evaluate] answers its inputs. *)
Fixpoint caller_says {CS} (O1 : oracle (output_digest CS)) (O2 : oracle (scalar CS)) (evaluate : bytes -> res bytes) (A : caller CS) : bool :=
  match A with
  | KHash m next => caller_says O1 O2 evaluate (next (value (O1 m [])))
  | KScalar m t next => caller_says O1 O2 evaluate (next (O2 m t))
  | KEvaluate i next => caller_says O1 O2 evaluate (next (evaluate i))
  | KSay yes => yes
  end.

(** The server made from the seed; without one if the derivation fails. *)
Definition seeded_evaluate (CS : CipherSuite) (seed info input : bytes) : res bytes :=
  match oprf_server_new_from_seed CS seed info with
  | Ok server => oprf_server_evaluate CS server input
  | Err e => Err e | Panic => Panic | Diverge => Diverge
  end.
Definition both_random (CS : CipherSuite) (O1 : oracle (output_digest CS)) (O2 : oracle (scalar CS)) : CipherSuite :=
  with_oracle (with_digest CS O1) O2.
Definition seeded_says {CS} (A : caller CS) (info seed : bytes) (O1 : oracle (output_digest CS)) (O2 : oracle (scalar CS)) : bool :=
  caller_says O1 O2 (seeded_evaluate (both_random CS O1 O2) seed info) A.
(** Without a key: the values of [F], and an error for the inputs that cannot
    be evaluated. *)
Definition random_says {CS} (L : SuiteLaws CS) (A : caller CS) (F O1 : oracle (output_digest CS)) (O2 : oracle (scalar CS)) : bool :=
  caller_says O1 O2 (fun input => fst (random_server L F input tt)) A.

(** ** The two steps *)
Section Steps.
Context {CS : CipherSuite} (L : SuiteLaws CS).
Local Notation S := (scalar CS).

(* the server with the key, or the error *)
Definition keyed (O1 : oracle (output_digest CS)) (r : res (S * option (elem CS))) (input : bytes) : res bytes :=
  match r with
  | Ok (k, _) => fst (evaluate_server k O1 input tt)
  | Err e => Err e | Panic => Panic | Diverge => Diverge
  end.
Fixpoint body (O1 : oracle (output_digest CS)) (r : res (S * option (elem CS))) (A : caller CS) : key_user CS :=
  match A with
  | KHash m next => body O1 r (next (value (O1 m [])))
  | KScalar m t next => UHash m t (fun a => body O1 r (next a))
  | KEvaluate i next => body O1 r (next (keyed O1 r i))
  | KSay yes => USay yes
  end.
Definition as_user (info : bytes) (O1 : oracle (output_digest CS)) (A : caller CS) : key_user CS :=
  UKeys Oprf info (fun r => body O1 r A).

Lemma uses_body O1 O2 keys r A : uses (CS := CS) O2 keys (body O1 r A) = caller_says O1 O2 (keyed O1 r) A.
Proof. induction A; cbn [body uses caller_says]; auto. Qed.
Lemma body_hashes O1 r A : forall Q1 Q2, caller_hashes Q1 Q2 A -> user_hashes Q2 (body O1 r A).
Proof.
  induction A; intros Q1 Q2; cbn [caller_hashes body user_hashes]; auto.
  - intros [_ H']. eauto.
  - intros [H1 H']. split; auto. eauto.
  - intros H'. eauto.
Qed.
Lemma caller_ext O1 O2 f g (A : caller CS) : (forall i, f i = g i) -> caller_says O1 O2 f A = caller_says O1 O2 g A.
Proof. intros H. induction A; cbn [caller_says]; auto. now rewrite H. Qed.

Lemma seeded_keyed O1 O2 seed info input :
  seeded_evaluate (both_random CS O1 O2) seed info input = keyed O1 (keys_from_seed (with_oracle CS O2) Oprf seed info) input.
Proof.
  unfold seeded_evaluate, keyed, keys_from_seed.
  change (oprf_server_new_from_seed (both_random CS O1 O2) seed info) with
    (match derive_key_internal (with_oracle CS O2) seed info Oprf with
     | Ok sk => Ok (mkOprfServer (CS := both_random CS O1 O2) sk)
     | Err e => Err e | Panic => Panic | Diverge => Diverge end).
  change (oprf_server_new_from_seed (with_oracle CS O2) seed info) with
    (match derive_key_internal (with_oracle CS O2) seed info Oprf with
     | Ok sk => Ok (mkOprfServer (CS := with_oracle CS O2) sk)
     | Err e => Err e | Panic => Panic | Diverge => Diverge end).
  destruct (derive_key_internal (with_oracle CS O2) seed info Oprf); reflexivity.
Qed.

(* the program as an attack of C57 *)
Fixpoint as_attack (O2 : oracle S) (A : caller CS) : attack bytes (res bytes) bool :=
  match A with
  | KHash m next => Hash m (fun v => as_attack O2 (next v))
  | KScalar m t next => as_attack O2 (next (O2 m t))
  | KEvaluate i next => Query i (fun r => as_attack O2 (next r))
  | KSay yes => Name yes
  end.
Lemma attack_hashes O2 A : forall Q1 Q2, caller_hashes Q1 Q2 A -> hashes_at_most Q1 (as_attack O2 A).
Proof.
  induction A; intros Q1 Q2; cbn [caller_hashes as_attack hashes_at_most]; auto.
  - intros [H1 H']. destruct Q1 as [|Q1]; [lia|]. intros v. specialize (H' v). rewrite Nat.sub_succ, Nat.sub_0_r in H'. eauto.
  - intros [_ H']. eauto.
  - intros H' r. eauto.
Qed.
Lemma play_attack O1 O2 (serve : bytes -> unit -> res bytes * unit) A :
  fst (fst (play (fun m => value (O1 m [])) serve (as_attack O2 A) tt)) = caller_says O1 O2 (fun i => fst (serve i tt)) A.
Proof.
  induction A as [m next IH|m t next IH|i next IH|yes]; cbn [as_attack play caller_says]; auto.
  - rewrite <- IH. now destruct (play _ _ _ _) as [[? ?] ?].
  - destruct (serve i tt) as [r []]. cbn [fst]. rewrite <- IH. now destruct (play _ _ _ _) as [[? ?] ?].
Qed.
End Steps.

(** ** Fractions *)
Section Fractions.
Open Scope nat_scope.
Lemma differ_trans e1 d1 e2 d2 a ta b tb c tc : 0 < tb ->
  differ_at_most e1 d1 a ta b tb -> differ_at_most e2 d2 b tb c tc -> differ_at_most (e1 * d2 + e2 * d1) (d1 * d2) a ta c tc.
Proof.
  unfold differ_at_most. intros Hb [H1 H2] [H3 H4]. split.
  - apply (Nat.mul_le_mono_pos_r _ _ tb Hb).
    replace (d1 * d2 * (a * tc) * tb) with (d2 * tc * (d1 * (a * tb))) by ring.
    etransitivity; [apply Nat.mul_le_mono_l; exact H1|].
    replace (d2 * tc * (d1 * (b * ta) + e1 * (ta * tb))) with (d1 * ta * (d2 * (b * tc)) + d2 * tc * (e1 * (ta * tb))) by ring.
    etransitivity; [apply Nat.add_le_mono_r, Nat.mul_le_mono_l; exact H3|]. apply Nat.eq_le_incl. ring.
  - apply (Nat.mul_le_mono_pos_r _ _ tb Hb).
    replace (d1 * d2 * (c * ta) * tb) with (d1 * ta * (d2 * (c * tb))) by ring.
    etransitivity; [apply Nat.mul_le_mono_l; exact H4|].
    replace (d1 * ta * (d2 * (b * tc) + e2 * (tb * tc))) with (d2 * tc * (d1 * (b * ta)) + d1 * ta * (e2 * (tb * tc))) by ring.
    etransitivity; [apply Nat.add_le_mono_r, Nat.mul_le_mono_l; exact H2|]. apply Nat.eq_le_incl. ring.
Qed.
Lemma differ_sum {A} e d (f g : A -> nat) ta tb (l : list A) :
  (forall x, In x l -> differ_at_most e d (f x) ta (g x) tb) ->
  differ_at_most e d (sum f l) (length l * ta) (sum g l) (length l * tb).
Proof.
  intros H. unfold differ_at_most in *. split.
  - assert (H1 : d * (sum f l * tb) <= d * (sum g l * ta) + length l * (e * (ta * tb))).
    { rewrite <- (sum_scale tb f), <- (sum_scale ta g), <- !(sum_scale_l d), <- (sum_const (e * (ta * tb)) l), <- sum_add. apply sum_le. intros x Hx. exact (proj1 (H x Hx)). }
    replace (d * (sum f l * (length l * tb))) with (length l * (d * (sum f l * tb))) by ring.
    etransitivity; [apply Nat.mul_le_mono_l; exact H1|]. apply Nat.eq_le_incl. ring.
  - assert (H1 : d * (sum g l * ta) <= d * (sum f l * tb) + length l * (e * (ta * tb))).
    { rewrite <- (sum_scale tb f), <- (sum_scale ta g), <- !(sum_scale_l d), <- (sum_const (e * (ta * tb)) l), <- sum_add. apply sum_le. intros x Hx. exact (proj2 (H x Hx)). }
    replace (d * (sum g l * (length l * ta))) with (length l * (d * (sum g l * ta))) by ring.
    etransitivity; [apply Nat.mul_le_mono_l; exact H1|]. apply Nat.eq_le_incl. ring.
Qed.
Lemma sum_single {A} (eqb : A -> A -> bool) (f : A -> nat) (x : A) l : NoDup l -> In x l -> (forall y, eqb x y = true <-> x = y) ->
  sum (fun y => if eqb x y then f y else 0) l = f x.
Proof.
  intros Hl Hx Hs. induction Hl as [|y l Hy Hl IH]; [destruct Hx|]. simpl. destruct (eqb x y) eqn:E.
  - apply Hs in E. subst y. rewrite (sum_ext _ (fun _ => 0)); [rewrite sum_const; lia|].
    intros y Hin. destruct (eqb x y) eqn:E; auto. apply Hs in E. subst. contradiction.
  - destruct Hx as [->|Hx]; [rewrite (proj2 (Hs x) eq_refl) in E; discriminate|]. now apply IH.
Qed.
End Fractions.

(** ** The key of the independent function is uniform *)
Section Uniform.
Context {CS : CipherSuite} (L : SuiteLaws CS) (scalars : list (scalar CS)) (Hs : enumerates scalars).
Local Notation S := (scalar CS).
Local Notation G := (CSGroup CS).
Definition nonzero_scalars : list S := filter (fun k => negb (is_zero_scalar G k)) scalars.

Lemma first_value_nonzero (f : point -> S) ps k : first_value f ps = Some k -> is_zero_scalar G k = false.
Proof.
  induction ps as [|p ps IH]; cbn [first_value]; [discriminate|].
  destruct (is_zero_scalar G (f p)) eqn:E; [exact IH|]. intros H. now injection H as <-.
Qed.

Lemma uniform_key (info : bytes) : len info <= 65535 ->
  exists needed : list point, forall (inputs : list point) (F0 : oracle S), NoDup inputs -> incl needed inputs ->
  let Fs := oracles scalars inputs F0 in
  forall h : res (S * option (elem CS)) -> bool,
  differ_at_most 1 (length scalars ^ 256) (count (fun F => h (keys_from_seed (with_oracle CS F) Oprf [] info)) Fs) (length Fs)
    (count (fun k => h (Ok (k, None))) nonzero_scalars) (length nonzero_scalars).
Proof.
  intros Hi.
  destruct (C64_uniform_keys CS L scalars Hs [([], Oprf, info)] 0) as (needed & H).
  { constructor; [intros []|constructor]. }
  { intros seed mode i [E|[]]. injection E as <- <- <-. split; [reflexivity|exact Hi]. }
  exists needed. intros inputs F0 Hn Hinc Fs h. specialize (H inputs F0 Hn Hinc). cbv zeta in H. fold Fs in H.
  destruct H as [Hu He]. specialize (He [] Oprf info (or_introl eq_refl)).
  set (K := fun F => keys_from_seed (with_oracle CS F) Oprf [] info).
  set (isk := fun F k => match K F with Ok (sk, _) => scalar_ct_eq G sk k | _ => false end).
  set (bad := fun F => match K F with Ok _ => false | _ => true end).
  change (fun F => match keys_from_seed (with_oracle CS F) Oprf [] info with Ok _ => false | _ => true end) with bad in He.
  set (num := fun k => count (fun F => isk F k) Fs).
  assert (Hnum : forall k k', In k nonzero_scalars -> In k' nonzero_scalars -> num k = num k').
  { intros k k' Hk Hk'.
    assert (Hz : forall x, In x nonzero_scalars -> length [x] = length [([] : bytes, Oprf, info)] /\ Forall (fun k => k <> zero_scalar G) [x]).
    { intros x Hx. split; [reflexivity|]. constructor; [|constructor]. apply filter_In in Hx as [_ Hx]. apply Bool.negb_true_iff in Hx.
      now apply (is_zero_false (group_laws L)). }
    specialize (Hu [k] [k'] (Hz k Hk) (Hz k' Hk')).
    assert (E : forall x, num x = count (fun F => forallb (fun '((seed, mode, info), k) => match keys_from_seed (with_oracle CS F) mode seed info with
      | Ok (sk, _) => scalar_ct_eq (CSGroup CS) sk k | _ => false end) (combine [([], Oprf, info)] [x])) Fs).
    { intros x. apply count_ext. intros F _. cbn [combine forallb]. now rewrite Bool.andb_true_r. }
    now rewrite !E. }
  set (N0 := match nonzero_scalars with k :: _ => num k | [] => 0%nat end).
  assert (HN : forall k, In k nonzero_scalars -> num k = N0).
  { intros k Hk. unfold N0. destruct nonzero_scalars as [|k0 l] eqn:E; [destruct Hk|]. apply Hnum; [exact Hk|now left]. }
  assert (HK : forall F, (exists k, K F = Ok (k, None) /\ In k nonzero_scalars) \/ bad F = true).
  { intros F. unfold bad. unfold K. rewrite (keys_request L) by exact Hi. unfold request_key.
    destruct (first_value (at_point F) (request_points ([], Oprf, info))) as [k|] eqn:E; cbn [the_keys]; [left|now right].
    exists k. split; auto. apply filter_In. split; [apply Hs|]. apply first_value_nonzero in E. now rewrite E. }
  assert (Hnd : NoDup nonzero_scalars) by (apply NoDup_filter, Hs).
  assert (Hd : forall g : res (S * option (elem CS)) -> bool,
    count (fun F => g (K F)) Fs = (N0 * count (fun k => g (Ok (k, None))) nonzero_scalars + count (fun F => bad F && g (K F)) Fs)%nat).
  { intros g. rewrite !count_sum.
    rewrite (sum_ext (fun F => if g (K F) then 1%nat else 0%nat)
      (fun F => (sum (fun k => if isk F k then if g (Ok (k, None)) then 1 else 0 else 0) nonzero_scalars
         + (if bad F && g (K F) then 1 else 0))%nat)).
    - rewrite sum_add. f_equal. rewrite sum_swap, <- sum_scale_l. apply sum_ext. intros k Hk.
      rewrite <- (HN k Hk). unfold num. rewrite count_sum, <- sum_scale. apply sum_ext. intros F _.
      destruct (isk F k), (g (Ok (k, None))); reflexivity.
    - intros F _. destruct (HK F) as [(k & Ek & Hin)|Eb].
      + assert (Eb : bad F = false) by (unfold bad; now rewrite Ek). rewrite Eb. cbn [andb]. rewrite Nat.add_0_r.
        rewrite (sum_ext _ (fun k' => if scalar_ct_eq G k k' then if g (Ok (k', None)) then 1 else 0 else 0)%nat).
        * rewrite (sum_single (scalar_ct_eq G) _ k nonzero_scalars Hnd Hin (fun y => scalar_ct_eq_spec _ (group_laws L) k y)). now rewrite Ek.
        * intros k' _. unfold isk. now rewrite Ek.
      + rewrite Eb. cbn [andb]. rewrite (sum_ext _ (fun _ => 0%nat)); [rewrite sum_const; destruct (g (K F)); lia|].
        intros k _. unfold isk. unfold bad in Eb. destruct (K F) as [[? ?]| | |]; [discriminate|auto..]. }
  pose proof (Hd h) as H1. pose proof (Hd (fun _ => true)) as H2.
  assert (Hlen : forall {T} (l : list T), count (fun _ => true) l = length l).
  { intros T l. unfold count. induction l as [|a l IH]; simpl; auto. }
  rewrite !Hlen in H2.
  assert (Hbad : (count (fun F => bad F && h (K F)) Fs <= count bad Fs)%nat).
  { apply count_mono. intros F _ E. now apply andb_prop in E as [E _]. }
  assert (Hb' : count (fun F => bad F && true) Fs = count bad Fs) by (apply count_ext; intros F _; apply Bool.andb_true_r).
  rewrite Hb' in H2. fold (K) in H1.
  assert (Hhk : (count (fun k => h (Ok (k, None))) nonzero_scalars <= length nonzero_scalars)%nat).
  { rewrite <- (Hlen _ nonzero_scalars). now apply count_mono. }
  unfold differ_at_most. change (fun F => h (keys_from_seed (with_oracle CS F) Oprf [] info)) with (fun F => h (K F)).
  set (D := (length scalars ^ 256)%nat) in *. set (c := count (fun F => h (K F)) Fs) in *. set (t := length Fs) in *.
  set (hk := count (fun k => h (Ok (k, None))) nonzero_scalars) in *. set (z := length nonzero_scalars) in *.
  set (b := count bad Fs) in *. set (bh := count (fun F => bad F && h (K F)) Fs) in *.
  clearbody D c t hk z b bh N0. clear - H1 H2 Hbad Hhk He.
  assert (A1 : (c * z <= hk * t + b * z)%nat).
  { rewrite H1, H2. replace ((N0 * hk + bh) * z)%nat with (N0 * hk * z + bh * z)%nat by ring.
    replace (hk * (N0 * z + b) + b * z)%nat with (N0 * hk * z + (hk * b + b * z))%nat by ring.
    apply Nat.add_le_mono_l. etransitivity; [apply Nat.mul_le_mono_r, Hbad|]. lia. }
  assert (A2 : (hk * t <= c * z + b * z)%nat).
  { rewrite H1, H2. replace (hk * (N0 * z + b))%nat with (N0 * hk * z + hk * b)%nat by ring.
    replace ((N0 * hk + bh) * z + b * z)%nat with (N0 * hk * z + (bh * z + b * z))%nat by ring.
    apply Nat.add_le_mono_l. rewrite (Nat.mul_comm hk b). etransitivity; [apply Nat.mul_le_mono_l, Hhk|]. lia. }
  replace (1 * (t * z))%nat with (D * (b * z))%nat by (rewrite <- He; ring).
  rewrite <- !Nat.mul_add_distr_l. split; apply Nat.mul_le_mono_l; assumption.
Qed.
End Uniform.

(** ** Together *)
Section Together.
Context {CS : CipherSuite} (L : SuiteLaws CS) (scalars : list (scalar CS)) (Hs : enumerates scalars).
Local Notation S := (scalar CS).
Local Notation G := (CSGroup CS).

Lemma body_points O1 r v (A : caller CS) : evaluated scalars (user_tree v (body O1 r A)) = [].
Proof.
  induction A as [m next IH|m t next IH|i next IH|yes]; cbn [body user_tree evaluated]; auto.
  match goal with |- flat_map ?f ?l = [] => assert (E : forall l', flat_map f l' = []) end.
  { intros l'. induction l' as [|a l' IHl]; cbn [flat_map]; auto. now rewrite IH, IHl. }
  apply E.
Qed.
Lemma draws_points ps (k : option S -> ptree (S := S)) : (forall o, evaluated scalars (k o) = []) -> incl (evaluated scalars (draws (CS := CS) ps k)) ps.
Proof.
  intros H. induction ps as [|p ps IH]; cbn [draws].
  - rewrite H. intros x [].
  - cbn [evaluated]. intros x [<-|Hx]; [now left|]. right. apply in_flat_map in Hx as (a & _ & Hx).
    destruct (is_zero_scalar G a); [now apply IH|]. now rewrite H in Hx.
Qed.
Lemma as_user_points info O1 (A : caller CS) : len info <= 65535 ->
  incl (user_points scalars (as_user info O1 A)) (key_points (CS := CS) Oprf info).
Proof.
  intros Hi. apply N.ltb_ge in Hi. unfold user_points, as_user. cbn [user_tree]. rewrite Hi.
  apply incl_app; apply draws_points; intros o; apply body_points.
Qed.

Lemma prf_of_list (keys : list S) (Hk : NoDup keys) Q (As : list (attack bytes (res bytes) bool)) :
  (forall A, In A As -> hashes_at_most Q A) ->
  exists needed needed_inputs : list point, forall (points inputs : list point) (O0 F0 : oracle (output_digest CS)),
  NoDup points -> NoDup inputs -> incl needed points -> incl needed_inputs inputs ->
  let Os := oracles (all_digests (output_size (CSHash CS))) points O0 in
  let Fs := oracles (all_digests (output_size (CSHash CS))) inputs F0 in
  forall A, In A As ->
  differ_at_most Q (length keys)
    (count (fun kO => fst (fst (play (fun m => value (snd kO m [])) (evaluate_server (fst kO) (snd kO)) A tt))) (list_prod keys Os))
    (length keys * length Os)
    (count (fun OF => fst (fst (play (fun m => value (fst OF m [])) (random_server L (snd OF)) A tt))) (list_prod Os Fs))
    (length Os * length Fs).
Proof.
  induction As as [|A0 As IH]; intros HQ.
  - exists [], []. intros points inputs O0 F0 _ _ _ _ Os Fs A [].
  - destruct (C57_oprf_prf CS L keys Hk Q A0 (HQ A0 (or_introl eq_refl))) as (n1 & n2 & H).
    destruct IH as (m1 & m2 & IH); [intros A HA; apply HQ; now right|].
    exists (n1 ++ m1), (n2 ++ m2). intros points inputs O0 F0 Hp Hi Hip Hii Os Fs A [<-|HA].
    + apply (H points inputs O0 F0 Hp Hi); intros x Hx; [apply Hip|apply Hii]; apply in_or_app; now left.
    + apply (IH points inputs O0 F0 Hp Hi); [intros x Hx; apply Hip|intros x Hx; apply Hii|exact HA]; apply in_or_app; now right.
Qed.

Lemma nonzero_length : length (nonzero_scalars (CS := CS) scalars) = (length scalars - 1)%nat /\ (0 < length (nonzero_scalars (CS := CS) scalars))%nat.
Proof.
  assert (E : length (nonzero_scalars (CS := CS) scalars) = (length scalars - 1)%nat).
  { destruct Hs as [Hnd Hall]. unfold nonzero_scalars.
    assert (Hc : (count (fun k => is_zero_scalar G k) scalars + length (filter (fun k => negb (is_zero_scalar G k)) scalars) = length scalars)%nat).
    { unfold count. clear. induction scalars as [|k l IH]; cbn [filter length]; auto. destruct (is_zero_scalar G k); cbn [negb length]; lia. }
    assert (H1 : count (fun k => is_zero_scalar G k) scalars = 1%nat).
    { rewrite count_sum. rewrite (sum_ext _ (fun y => if scalar_ct_eq G (zero_scalar G) y then 1 else 0)%nat).
      - apply (sum_single (scalar_ct_eq G) (fun _ => 1%nat)); auto. intros y. apply (scalar_ct_eq_spec _ (group_laws L)).
      - intros k _. destruct (is_zero_scalar G k) eqn:E1, (scalar_ct_eq G (zero_scalar G) k) eqn:E2; auto; exfalso.
        + apply (is_zero_spec _ (group_laws L)) in E1. subst k. rewrite (proj2 (scalar_ct_eq_spec _ (group_laws L) _ _) eq_refl) in E2. discriminate.
        + apply (scalar_ct_eq_spec _ (group_laws L)) in E2. subst k. rewrite (proj2 (is_zero_spec _ (group_laws L) _) eq_refl) in E1. discriminate. }
    lia. }
  split; auto.
  assert (Hin : In (s_one (group_laws L)) (nonzero_scalars (CS := CS) scalars)).
  { apply filter_In. split; [apply Hs|]. apply Bool.negb_true_iff, (is_zero_false (group_laws L)), (one_neq_zero (group_laws L)). }
  destruct (nonzero_scalars (CS := CS) scalars); [destruct Hin|cbn [length]; lia].
Qed.
End Together.

(** A program that hashes at most [Q1] strings, and [Q2] to scalars, tells the
    server of a secret seed from a random function with advantage at most
    [Q2 / |seeds| + Q1 / (q - 1) + 1 / q^256], q the number of scalars,
    however many inputs it has evaluated. *)
Theorem C65_seeded_server :
  forall (CS : CipherSuite) (L : SuiteLaws CS) (scalars : list (scalar CS)), enumerates scalars ->
  forall (Q1 Q2 : nat) (A : caller CS), caller_hashes Q1 Q2 A ->
  forall (info : bytes), len info <= 65535 ->
  forall (seeds : list bytes) (l : N), NoDup seeds -> (forall seed, In seed seeds -> len seed = l) ->
  exists needed2 : list point, forall (points2 : list point) (O20 : oracle (scalar CS)), NoDup points2 -> incl needed2 points2 ->
  exists needed1 needed_inputs : list point, forall (points1 inputs : list point) (O10 F0 : oracle (output_digest CS)),
  NoDup points1 -> NoDup inputs -> incl needed1 points1 -> incl needed_inputs inputs ->
  let O1s := oracles (all_digests (output_size (CSHash CS))) points1 O10 in
  let Fs := oracles (all_digests (output_size (CSHash CS))) inputs F0 in
  let O2s := oracles scalars points2 O20 in
  let real := count (fun '(O1, (seed, O2)) => seeded_says A info seed O1 O2) (list_prod O1s (list_prod seeds O2s)) in
  let random := count (fun '(O2, (O1, F)) => random_says L A F O1 O2) (list_prod O2s (list_prod O1s Fs)) in
  let n := length seeds in
  let q := length scalars in
  differ_at_most (Q2 * (q ^ 256 * (q - 1)) + Q1 * (n * q ^ 256) + n * (q - 1)) (n * q ^ 256 * (q - 1))
    real (length O1s * (n * length O2s)) random (length O2s * (length O1s * length Fs)).
Proof.
  intros CS L scalars Hs Q1 Q2 A HQ info Hi seeds l Hd Hl.
  exists (flat_map (fun seed => map (with_seed seed) (key_points (CS := CS) Oprf info)) seeds).
  intros points2 O20 Hp2 Hip2.
  set (O2s := oracles scalars points2 O20).
  set (nz := nonzero_scalars (CS := CS) scalars).
  assert (Hnz : NoDup nz) by (apply NoDup_filter, Hs).
  destruct (nonzero_length L scalars Hs) as [Hz Hz0]. fold nz in Hz, Hz0.
  assert (HQa : forall B, In B (map (fun O2 => as_attack O2 A) O2s) -> hashes_at_most Q1 B).
  { intros B HB. apply in_map_iff in HB as (O2 & <- & _). now apply (attack_hashes O2 A Q1 Q2). }
  destruct (prf_of_list L nz Hnz Q1 _ HQa) as (needed1 & needed_inputs & HP).
  exists needed1, needed_inputs. intros points1 inputs O10 F0 Hp1 Hin Hip1 Hii O1s Fs O2s' real random n q. subst O2s'.
  specialize (HP points1 inputs O10 F0 Hp1 Hin Hip1 Hii). cbv zeta in HP. fold O1s Fs in HP.
  destruct (uniform_key L scalars Hs info Hi) as (nu & HU).
  set (inputs2 := nodup point_dec (nu ++ key_points (CS := CS) Oprf info)).
  specialize (HU inputs2 O20 (NoDup_nodup _ _)). cbv zeta in HU.
  specialize (HU (fun x Hx => proj2 (nodup_In point_dec _ x) (in_or_app _ _ _ (or_introl Hx)))).
  set (F2s := oracles scalars inputs2 O20) in HU.
  (* the key of the seed and the key of another function *)
  set (ind := fun O1 => count (fun '(hash, other) => independent_says (as_user info O1 A) hash other) (list_prod O2s F2s)).
  assert (S1 : differ_at_most Q2 n real (length O1s * (n * length O2s)) (sum ind O1s) (length O1s * (length O2s * length F2s))).
  { assert (E : real = sum (fun O1 => count (fun '(seed, hash) => with_seed_says (as_user info O1 A) hash seed) (list_prod seeds O2s)) O1s).
    { unfold real. rewrite count_prod. apply sum_ext. intros O1 _. apply count_ext. intros [seed O2] _.
      unfold seeded_says, with_seed_says, as_user. cbn [uses]. rewrite uses_body. apply caller_ext. intros i. apply seeded_keyed. }
    rewrite E. apply differ_sum. intros O1 _.
    apply (derived_keys L scalars Hs Q2 (as_user info O1 A)) with (l := l); auto.
    - unfold as_user. cbn [user_hashes]. intros r. now apply (body_hashes O1 r A Q1 Q2).
    - apply NoDup_nodup.
    - intros x Hx. apply Hip2. apply in_flat_map in Hx as (seed & Hseed & Hx). apply in_flat_map. exists seed. split; auto.
      apply in_map_iff in Hx as (y & <- & Hy). apply in_map. now apply (as_user_points scalars info O1 A Hi).
    - intros x Hx. apply nodup_In, in_or_app. right. now apply (as_user_points scalars info O1 A Hi). }
  (* that key is uniform *)
  set (hk := fun O1 O2 => count (fun k => caller_says O1 O2 (keyed O1 (Ok (k, None))) A) nz).
  assert (S2 : differ_at_most 1 (q ^ 256) (sum ind O1s) (length O1s * (length O2s * length F2s))
    (sum (fun O1 => sum (fun O2 => hk O1 O2) O2s) O1s) (length O1s * (length O2s * length nz))).
  { apply differ_sum. intros O1 _. unfold ind. rewrite count_prod. apply differ_sum. intros O2 _.
    pose proof (HU (fun r => caller_says O1 O2 (keyed O1 r) A)) as H. cbv beta in H.
    assert (E : count (fun b => independent_says (as_user info O1 A) O2 b) F2s
      = count (fun F => caller_says O1 O2 (keyed O1 (keys_from_seed (with_oracle CS F) Oprf [] info)) A) F2s).
    { apply count_ext. intros F _. unfold independent_says, as_user. cbn [uses]. apply uses_body. }
    rewrite E. exact H. }
  (* the outputs under a uniform key *)
  assert (S3 : differ_at_most Q1 (length nz) (sum (fun O1 => sum (fun O2 => hk O1 O2) O2s) O1s) (length O1s * (length O2s * length nz))
    random (length O2s * (length O1s * length Fs))).
  { replace (length O1s * (length O2s * length nz))%nat with (length O2s * (length nz * length O1s))%nat by ring.
    rewrite sum_swap. unfold random. rewrite count_prod. apply differ_sum. intros O2 HO2.
    specialize (HP (as_attack O2 A) (in_map (fun O2 => as_attack O2 A) O2s O2 HO2)).
    assert (E1 : count (fun kO => fst (fst (play (fun m => value (snd kO m [])) (evaluate_server (fst kO) (snd kO)) (as_attack O2 A) tt))) (list_prod nz O1s)
      = sum (fun O1 => hk O1 O2) O1s).
    { rewrite count_prod. unfold hk. rewrite (sum_ext _ (fun k => sum (fun O1 => if caller_says O1 O2 (keyed O1 (Ok (k, None))) A then 1%nat else 0%nat) O1s)).
      - rewrite sum_swap. apply sum_ext. intros O1 _. now rewrite count_sum.
      - intros k _. rewrite count_sum. apply sum_ext. intros O1 _. cbn [fst snd]. now rewrite play_attack. }
    assert (E2 : count (fun OF => fst (fst (play (fun m => value (fst OF m [])) (random_server L (snd OF)) (as_attack O2 A) tt))) (list_prod O1s Fs)
      = count (fun b => let '(O1, F) := b in random_says L A F O1 O2) (list_prod O1s Fs)).
    { apply count_ext. intros [O1 F] _. cbn [fst snd]. unfold random_says. now rewrite play_attack. }
    rewrite E1, E2 in HP. exact HP. }
  assert (Hq : (0 < q)%nat) by (subst q; lia).
  assert (HO2 : (0 < length O2s)%nat) by (unfold O2s; rewrite oracles_length; apply Nat.neq_0_lt_0, Nat.pow_nonzero; lia).
  assert (HF2 : (0 < length F2s)%nat) by (unfold F2s; rewrite oracles_length; apply Nat.neq_0_lt_0, Nat.pow_nonzero; lia).
  assert (Hdg : (0 < length (all_digests (output_size (CSHash CS))))%nat).
  { pose proof (all_digests_number (output_size (CSHash CS))) as E. pose proof (N.pow_nonzero 256 (output_size (CSHash CS)) ltac:(discriminate)). lia. }
  assert (HO1 : (0 < length O1s)%nat) by (unfold O1s; rewrite oracles_length; apply Nat.neq_0_lt_0, Nat.pow_nonzero; lia).
  assert (HT1 : (0 < length O1s * (length O2s * length F2s))%nat) by now repeat apply Nat.mul_pos_pos.
  assert (HT2 : (0 < length O1s * (length O2s * length nz))%nat) by now repeat apply Nat.mul_pos_pos.
  pose proof (differ_trans _ _ _ _ _ _ _ _ _ _ HT1 S1 S2) as S12.
  pose proof (differ_trans _ _ _ _ _ _ _ _ _ _ HT2 S12 S3) as S. rewrite Hz in S. fold q in S.
  set (D := (q ^ 256)%nat) in *. clearbody D.
  replace (Q2 * (D * (q - 1)) + Q1 * (n * D) + n * (q - 1))%nat with ((Q2 * D + 1 * n) * (q - 1) + Q1 * (n * D))%nat by ring.
  exact S.
Qed.

(** The same for a server made by [OprfServer::new], with a tape of random
    bytes. *)
Definition new_evaluate (CS : CipherSuite) (tape input : bytes) : res bytes :=
  match fst (oprf_server_new CS PropUniform.TapeRng tape) with
  | Ok server => oprf_server_evaluate CS server input
  | Err e => Err e | Panic => Panic | Diverge => Diverge
  end.
Definition new_server_says {CS} (A : caller CS) (tape : bytes) (O1 : oracle (output_digest CS)) (O2 : oracle (scalar CS)) : bool :=
  caller_says O1 O2 (new_evaluate (both_random CS O1 O2) tape) A.

Lemma new_evaluate_tape (CS : CipherSuite) tape input : length tape = N.to_nat (scalar_len (CSGroup CS)) ->
  new_evaluate CS tape input = seeded_evaluate CS tape [] input.
Proof.
  intros H. unfold new_evaluate, seeded_evaluate, oprf_server_new. cbn [fill_bytes PropUniform.TapeRng].
  rewrite <- H, firstn_all, Nat.sub_diag, app_nil_r. reflexivity.
Qed.

Theorem C65_new_server :
  forall (CS : CipherSuite) (L : SuiteLaws CS) (scalars : list (scalar CS)), enumerates scalars ->
  forall (Q1 Q2 : nat) (A : caller CS), caller_hashes Q1 Q2 A ->
  exists needed2 : list point, forall (points2 : list point) (O20 : oracle (scalar CS)), NoDup points2 -> incl needed2 points2 ->
  exists needed1 needed_inputs : list point, forall (points1 inputs : list point) (O10 F0 : oracle (output_digest CS)),
  NoDup points1 -> NoDup inputs -> incl needed1 points1 -> incl needed_inputs inputs ->
  let O1s := oracles (all_digests (output_size (CSHash CS))) points1 O10 in
  let Fs := oracles (all_digests (output_size (CSHash CS))) inputs F0 in
  let O2s := oracles scalars points2 O20 in
  let tapes := PropUniform.strings (N.to_nat (scalar_len (CSGroup CS))) in
  let real := count (fun '(O1, (tape, O2)) => new_server_says A tape O1 O2) (list_prod O1s (list_prod tapes O2s)) in
  let random := count (fun '(O2, (O1, F)) => random_says L A F O1 O2) (list_prod O2s (list_prod O1s Fs)) in
  let n := length tapes in
  let q := length scalars in
  N.of_nat n = 256 ^ scalar_len (CSGroup CS) /\
  differ_at_most (Q2 * (q ^ 256 * (q - 1)) + Q1 * (n * q ^ 256) + n * (q - 1)) (n * q ^ 256 * (q - 1))
    real (length O1s * (n * length O2s)) random (length O2s * (length O1s * length Fs)).
Proof.
  intros CS L scalars Hs Q1 Q2 A HQ. set (tapes := PropUniform.strings (N.to_nat (scalar_len (CSGroup CS)))).
  destruct (C65_seeded_server CS L scalars Hs Q1 Q2 A HQ [] ltac:(discriminate) tapes (scalar_len (CSGroup CS))) as (needed2 & H2).
  - apply PropUniform.strings_nodup.
  - intros seed Hin. apply PropUniform.strings_in in Hin. unfold len. lia.
  - exists needed2. intros points2 O20 Hp2 Hi2. destruct (H2 points2 O20 Hp2 Hi2) as (needed1 & needed_inputs & H).
    exists needed1, needed_inputs. intros points1 inputs O10 F0 Hp1 Hin Hi1 Hii O1s Fs O2s tapes' real random n q.
    specialize (H points1 inputs O10 F0 Hp1 Hin Hi1 Hii). cbv zeta in H. fold O1s Fs O2s q in H.
    split. { unfold n, tapes'. fold tapes. unfold tapes. rewrite strings_length, Nat2N.inj_pow. now rewrite N2Nat.id. }
    assert (E : real = count (fun '(O1, (seed, O2)) => seeded_says A [] seed O1 O2) (list_prod O1s (list_prod tapes O2s))).
    { apply count_ext. intros [O1 [tape O2]] Hx. apply in_prod_iff in Hx as [_ Hx]. apply in_prod_iff in Hx as [Hx _].
      apply PropUniform.strings_in in Hx. apply caller_ext. intros i. exact (new_evaluate_tape (both_random CS O1 O2) tape i Hx). }
    rewrite E. exact H.
Qed.

(** Cases.  A program that guesses the seed computes the output itself and
    compares; it says yes to that seed, no to another one and to a random
    function.  One that evaluates twice says yes to all. *)
Definition ex_seed_caller : caller TS :=
  KEvaluate ex_input (fun r => KScalar (bstr "seed" ++ lv ex_info ++ I2OSP 0 1) (derive_tag (CS := TS) Oprf) (fun k =>
    KHash (lv ex_input ++ lv (serialize_elem (CSGroup TS) (elem_mul (CSGroup TS) (H2G TL modeOPRF ex_input) k)) ++ str "Finalize") (fun v =>
    KSay match r with Ok out => same_bytes out v | _ => false end))).
Definition ex_same_caller : caller TS :=
  KEvaluate ex_input (fun r => KEvaluate ex_input (fun r' => KSay match r, r' with Ok o, Ok o' => same_bytes o o' | _, _ => false end)).
Definition ex_output_hash : oracle (output_digest TS) := fun m t => exist _ (digest (CSHash TS) m) (digest_len TS TL m).
Definition ex_output_function : oracle (output_digest TS) := fun m t => exist _ (digest (CSHash TS) []) (digest_len TS TL []).
Definition ex_seeded (A : caller TS) (seed : bytes) : bool := seeded_says A ex_info seed ex_output_hash ex_derive_hash.
Definition ex_new (A : caller TS) (tape : bytes) : bool := new_server_says A tape ex_output_hash ex_derive_hash.
Definition ex_random (A : caller TS) : bool := random_says TL A ex_output_function ex_output_hash ex_derive_hash.

Example C65_case :
  caller_hashes 1 1 ex_seed_caller /\ caller_hashes 0 0 ex_same_caller /\
  NoDup [bstr "seed"; bstr "tree"] /\ (forall s, In s [bstr "seed"; bstr "tree"] -> len s = 4) /\
  [ex_seeded ex_seed_caller (bstr "seed"); ex_seeded ex_seed_caller (bstr "tree"); ex_random ex_seed_caller] = [true; false; false] /\
  [ex_seeded ex_same_caller (bstr "seed"); ex_seeded ex_same_caller (bstr "tree"); ex_new ex_same_caller [x05]; ex_random ex_same_caller] = [true; true; true; true].
Proof.
  split. { unfold ex_seed_caller. cbn [caller_hashes]. intros r. split; [auto|]. intros a. split; auto. }
  split. { unfold ex_same_caller. cbn [caller_hashes]. intros r r'. exact I. }
  split. { repeat constructor; simpl; intuition discriminate. }
  split. { intros s [<-|[<-|[]]]; reflexivity. }
  split; vm_compute; reflexivity.
Qed.
