(** * PropApi: properties of every history of calls of the safe API.

    Property C26. *)
From Verif Require Import Api Spec OprfFacts VoprfFacts PoprfFacts Zq.
From Verif Require Import SerializationFacts PropCorrectness PropBatch PropSerialization PropErrors PropSerde.
Open Scope N_scope.

(** What holds of every value a program can obtain: secret scalars are not
    zero. *)
Definition sound_obj {CS : CipherSuite} (o : obj CS) : Prop :=
  let z := zero_scalar (CSGroup CS) in
  match o with
  | OOprfClient c => oprf_blind c <> z
  | OVoprfClient c => voprf_blind c <> z
  | OPoprfClient c => poprf_blind c <> z
  | OOprfServer s => oprf_sk s <> z
  | OVoprfServer s => voprf_sk s <> z
  | OPoprfServer s => poprf_sk s <> z
  | OTweak t => tweak_value t <> z
  | _ => True
  end.

(** A result is fine if it is an error or a value with the invariant. *)
Definition fine {CS : CipherSuite} (ends : Prop) (r : res (obj CS)) : Prop :=
  match r with
  | Ok o => sound_obj o
  | Err _ => True
  | Panic => False
  | Diverge => ~ ends
  end.

Section Facts.
Context {CS : CipherSuite} (L : SuiteLaws CS) (R : Rng).
Local Notation G := (CSGroup CS).
Local Notation GL := (group_laws L).

Lemma fine_one {A} ends (f : A -> list (obj CS)) (r : res A) :
  match r with Ok a => Forall sound_obj (f a) | Err _ => True | Panic => False | Diverge => ~ ends end ->
  Forall (fine ends) (one CS f r).
Proof.
  destruct r as [a|e| |]; cbn; intros H; repeat constructor; auto.
  induction (f a); cbn; constructor; inversion H; auto.
Qed.

Lemma fine_many {A} ends (f : A -> obj CS) (r : res (list (res A))) :
  (forall a, sound_obj (f a)) ->
  match r with
  | Ok l => Forall (fun x => x <> Panic /\ x <> Diverge) l
  | Err _ => True | Panic => False | Diverge => ~ ends end ->
  Forall (fine ends) (many CS f r).
Proof.
  intros Hf. destruct r as [l|e| |]; cbn; intros H; repeat constructor; auto.
  induction H as [|x l [Hp Hd] Hl IH]; cbn; constructor; auto. destruct x; cbn; congruence || auto.
Qed.

Lemma ends_dec st : sampling_ends G R st \/
  (~ sampling_ends G R st /\ exists st', random_scalar G R st = (Diverge, st')).
Proof.
  unfold sampling_ends. destruct (random_cases L R st) as [(r & st' & Hr & _)|(st' & Hr)].
  - left. rewrite Hr. discriminate.
  - right. rewrite Hr. cbn. eauto.
Qed.

Lemma derive_sound seed info mode :
  match derive_key_internal CS seed info mode with
  | Ok sk => sk <> zero_scalar G | Err _ => True | _ => False end.
Proof.
  destruct (N.leb_spec (len info) 65535) as [H|H].
  - destruct (derive_key_internal_cases L seed info mode H) as [(sk & -> & (c & _ & _ & Hz & _))|[-> _]]; auto.
  - now rewrite (derive_key_internal_long L).
Qed.

Lemma tweak_sound sk info :
  match compute_tweak CS sk info with Ok t => t <> zero_scalar G | Err _ => True | _ => False end.
Proof.
  destruct (N.leb_spec (len (info_or_default info)) 65535) as [H|H].
  - rewrite (compute_tweak_ok L) by auto.
    destruct (is_zero_scalar _ _) eqn:E; auto. now apply (is_zero_false GL) in E.
  - now rewrite (compute_tweak_long (CS := CS)).
Qed.

Lemma tweaked_key_sound pk info :
  match compute_tweaked_key CS pk info with Ok _ | Err _ => True | _ => False end.
Proof.
  destruct (N.leb_spec (len (info_or_default info)) 65535) as [H|H].
  - rewrite (compute_tweaked_key_ok L) by auto. destruct (is_identity_elem _ _); auto.
  - now rewrite (compute_tweaked_key_long (CS := CS)).
Qed.

Lemma evaluate_hash_sound input info e :
  match server_evaluate_hash_input CS input info e with Ok _ | Err _ => True | _ => False end.
Proof.
  unfold server_evaluate_hash_input, i2osp_2.
  destruct (len input <=? u16_max); cbn [map_err bind]; auto.
  destruct info as [i|]; [destruct (len i <=? u16_max)|]; cbn [map_err bind]; auto;
    destruct (len e <=? u16_max); cbn [map_err bind]; auto.
Qed.

Lemma total_sound {T} (de : bytes -> res T) n ok b :
  total_and_safe de n ok -> match de b with Ok x => ok x | Err _ => True | _ => False end.
Proof. intros (H & _). destruct (H b) as [(x & -> & Hx)| ->]; auto. Qed.

Lemma voprf_finalize_one_sound input e : voprf_finalize_one CS input e <> Panic /\ voprf_finalize_one CS input e <> Diverge.
Proof.
  unfold voprf_finalize_one, i2osp_2. destruct (len input <=? u16_max); cbn [map_err bind]; split; discriminate.
Qed.
Lemma poprf_finalize_one_sound e input info :
  poprf_finalize_one CS e input info <> Panic /\ poprf_finalize_one CS e input info <> Diverge.
Proof.
  unfold poprf_finalize_one, i2osp_2. destruct (len input <=? u16_max); cbn [map_err bind]; [|split; discriminate].
  destruct (len info <=? u16_max); cbn [map_err bind]; split; discriminate.
Qed.

Lemma voprf_batch_finalize_sound inputs cs es p pk :
  (forall c, In c cs -> voprf_blind c <> zero_scalar G) ->
  match voprf_client_batch_finalize CS inputs cs es p pk with
  | Ok l => Forall (fun x => x <> Panic /\ x <> Diverge) l
  | Err _ => True | _ => False end.
Proof.
  intros Hz.
  destruct (verify_proof_cases L (base_elem G) pk (map voprf_blinded_element cs)
              (map evaluation_value es) p Voprf) as [Hv|[Hv|Hv]].
  - rewrite (voprf_batch_finalize_ok L) by auto. apply Forall_forall. intros x Hx.
    apply in_map_iff in Hx as ((i & c & y) & <- & _). apply voprf_finalize_one_sound.
  - now rewrite (voprf_batch_finalize_fail _ _ _ _ _ _ Hv).
  - now rewrite (voprf_batch_finalize_fail _ _ _ _ _ _ Hv).
Qed.

Lemma poprf_batch_finalize_sound inputs cs es p pk info :
  (forall c, In c cs -> poprf_blind c <> zero_scalar G) ->
  match poprf_client_batch_finalize CS inputs cs es p pk info with
  | Ok l => Forall (fun x => x <> Panic /\ x <> Diverge) l
  | Err _ => True | _ => False end.
Proof.
  intros Hz. unfold poprf_client_batch_finalize, poprf_unblind.
  pose proof (tweaked_key_sound pk (Some (info_or_default info))) as Ht.
  destruct (compute_tweaked_key _ _ _) as [tk|e| |]; cbn [bind]; auto.
  destruct (verify_proof_cases L (base_elem G) tk (map evaluation_value es)
              (map poprf_blinded_element cs) p Poprf) as [->|[->| ->]]; cbn [bind]; auto.
  unfold poprf_finalize_after_unblind. destruct (negb _); auto.
  apply Forall_forall. intros x Hx. apply in_map_iff in Hx as (((u & i) & inf) & <- & Hin).
  apply in_combine_l in Hin. apply in_combine_l in Hin. apply in_map_iff in Hin as ((b & ev) & <- & Hin).
  apply in_combine_l in Hin. apply in_map_iff in Hin as (c & <- & Hin).
  unfold poprf_unblind_one. rewrite (invert_nonzero G GL) by auto. cbn [bind].
  apply poprf_finalize_one_sound.
Qed.

Lemma next_unwrap_sound (l : list (res bytes)) :
  Forall (fun x => x <> Panic /\ x <> Diverge) l -> l <> [] ->
  match next_unwrap l with Ok _ | Err _ => True | _ => False end.
Proof. intros H Hl. destruct H as [|x l [H1 H2] _]; [congruence|]. destruct x; cbn; congruence || auto. Qed.

Lemma all_outputs (f : bytes -> obj CS) l : (forall a, sound_obj (f a)) -> Forall sound_obj (map f l).
Proof. intros H. induction l; cbn; constructor; auto. Qed.

Lemma forall_true {A} (f : A -> obj CS) l : (forall a, sound_obj (f a)) -> Forall sound_obj (map f l).
Proof. intros H. induction l; cbn; constructor; auto. Qed.

(** The one call that may panic. *)
Definition long_poprf_batch (c : call CS) : Prop :=
  exists s bs info, c = CPoprfBatchBlindEvaluate CS s bs info /\ 65535 < len bs.

Lemma voprf_single_items inputs cs es p pk l :
  voprf_client_batch_finalize CS inputs cs es p pk = Ok l ->
  length l = Nat.min (length inputs) (Nat.min (length cs) (length es)).
Proof.
  unfold voprf_client_batch_finalize, verifiable_unblind.
  destruct (verify_proof _ _ _ _ _ _ _); try discriminate. cbn [bind]. intros H. injection H as <-.
  unfold voprf_finalize_after_unblind. rewrite !map_length, !combine_length, !map_length, !combine_length, map_length. reflexivity.
Qed.

Lemma poprf_single_items inputs cs es p pk info l :
  poprf_client_batch_finalize CS inputs cs es p pk info = Ok l ->
  length l = length inputs.
Proof.
  unfold poprf_client_batch_finalize, poprf_unblind.
  destruct (compute_tweaked_key _ _ _); try discriminate. cbn [bind].
  destruct (verify_proof _ _ _ _ _ _ _); try discriminate. cbn [bind].
  unfold poprf_finalize_after_unblind.
  destruct (N.eqb_spec (len (map (fun '(blind, x) => poprf_unblind_one CS blind x)
                  (combine (map poprf_blind cs) es))) (len inputs)) as [E|]; [|discriminate].
  cbn [negb]. intros H. injection H as <-. unfold len in E. apply Nnat.Nat2N.inj in E.
  rewrite map_length, combine_length, repeat_length, combine_length. lia.
Qed.

Lemma serde_one_fine {A} ends (f : A -> obj CS) (ok : A -> Prop) (r : sres A) :
  match r with Ok x => ok x | Err _ => True | Panic | Diverge => False end ->
  (forall x, ok x -> sound_obj (f x)) -> Forall (fine ends) (serde_one CS f r).
Proof. destruct r; cbn; intros H Hf; try contradiction; constructor; auto. apply Hf, H. Qed.

Lemma serde_fine ends t d : Forall (fine ends) (serde_read CS t d).
Proof.
  destruct (C36_serde_validates CS L) as (V1 & V2 & V3 & V4 & V5 & V6 & V7 & V8 & V9 & V10 & V11).
  destruct t; cbn [serde_read];
    [eapply serde_one_fine; [apply V1|]|eapply serde_one_fine; [apply V3|]|eapply serde_one_fine; [apply V5|]
    |eapply serde_one_fine; [apply V2|]|eapply serde_one_fine; [apply V4|]|eapply serde_one_fine; [apply V6|]
    |eapply serde_one_fine; [apply V7|]|eapply serde_one_fine; [apply V8|]|eapply serde_one_fine; [apply V9|]
    |eapply serde_one_fine; [apply V10|]|eapply serde_one_fine; [apply V11|]]; intros x Hx; cbn in *; tauto.
Qed.

Local Ltac out Hp := apply (f_equal fst) in Hp; cbn [fst] in Hp; rewrite <- Hp; clear Hp.

Lemma perform_fine (c : call CS) st rs st' :
  Forall sound_obj (arguments CS c) -> ~ long_poprf_batch c ->
  perform CS R c st = (rs, st') -> Forall (fine (sampling_ends G R st)) rs.
Proof.
  intros Ha Hnl Hp.
  assert (Hr : (exists r s', random_scalar G R st = (Ok r, s') /\ r <> zero_scalar G)
               \/ (~ sampling_ends G R st /\ exists s', random_scalar G R st = (Diverge, s'))).
  { destruct (ends_dec st) as [He|H]; auto. left. apply (sampling_cases L R st He). }
  destruct (C24_total_and_safe CS L) as (T1 & T2 & T3 & T4 & T5 & T6 & T7 & T8 & T9).
  destruct c; cbn [arguments] in Ha; cbn [perform pure with_rng] in Hp; unfold with_rng, pure in Hp;
    
    try (match type of Hp with (_, _) = (_, _) => out Hp end); try (apply fine_one).
  - (* blind *)
    rewrite (oprf_blind_ok L) in Hp. destruct Hr as [(r & s' & E & Hz)|(Hn & s' & E)]; rewrite E in Hp;
      out Hp; apply fine_one; auto. repeat constructor. exact Hz.
  - inversion Ha as [|? ? Hc _]; subst. cbn in Hc.
    destruct (N.leb_spec (len input) 65535) as [H|H].
    + rewrite (oprf_finalize_ok L) by auto. repeat constructor.
    + rewrite (oprf_finalize_long L) by auto. exact I.
  - unfold oprf_server_new in Hp. destruct (fill_bytes _ _ _) as [seed s1]. out Hp.
    apply fine_one. unfold oprf_server_new_from_seed. pose proof (derive_sound seed [] Oprf) as H.
    destruct (derive_key_internal _ _ _ _); cbn [bind]; auto; repeat constructor; try exact H; try contradiction.
  - unfold oprf_server_new_with_key. pose proof (deserialize_scalar_safe _ GL key) as H.
    destruct (deserialize_scalar _ _); cbn [bind]; auto; repeat constructor; try exact H; try contradiction.
  - unfold oprf_server_new_from_seed. pose proof (derive_sound seed info Oprf) as H.
    destruct (derive_key_internal _ _ _ _); cbn [bind]; auto; repeat constructor; try exact H; try contradiction.
  - repeat constructor.
  - unfold oprf_server_evaluate. rewrite (hash_to_group_ok L). cbn [bind].
    destruct (is_identity_elem _ _); auto.
    match goal with |- match ?x with _ => _ end => pose proof (evaluate_hash_sound input None
       (serialize_elem G (elem_mul G (H2G L (mode_id Oprf) input) (oprf_sk s)))) as H; destruct x end; auto;
      repeat constructor; try contradiction.
  - rewrite (voprf_blind_ok L) in Hp. destruct Hr as [(r & s' & E & Hz)|(Hn & s' & E)]; rewrite E in Hp;
      out Hp; apply fine_one; auto. repeat constructor. exact Hz.
  - inversion Ha as [|? ? Hc _]; subst. cbn in Hc. unfold voprf_client_finalize.
    pose proof (voprf_batch_finalize_sound [input] [c] [e] p pk) as H.
    pose proof (voprf_single_items [input] [c] [e] p pk) as Hl.
    destruct (voprf_client_batch_finalize _ _ _ _ _ _) as [l|?| |]; cbn [bind]; auto;
      try (elim H; intros ? [<-|[]]; exact Hc).
    assert (Hs : match next_unwrap l with Ok _ | Err _ => True | _ => False end).
    { apply next_unwrap_sound; [apply H; intros ? [<-|[]]; exact Hc|].
      specialize (Hl l eq_refl). destruct l; discriminate. }
    destruct (next_unwrap l); try contradiction; repeat constructor.
  - apply fine_many; [intros; exact I|].
    assert (Hz : forall c, In c cs -> voprf_blind c <> zero_scalar G).
    { intros c Hc. rewrite Forall_forall in Ha. apply (Ha (OVoprfClient c)), in_or_app. left. now apply in_map. }
    pose proof (voprf_batch_finalize_sound inputs cs es p pk Hz) as H.
    destruct (voprf_client_batch_finalize _ _ _ _ _ _); auto; contradiction.
  - unfold voprf_server_new in Hp. destruct (fill_bytes _ _ _) as [seed s1]. out Hp.
    apply fine_one. unfold voprf_server_new_from_seed, derive_keypair. pose proof (derive_sound seed [] Voprf) as H.
    destruct (derive_key_internal _ _ _ _); cbn [bind]; auto; repeat constructor; try exact H; try contradiction.
  - unfold voprf_server_new_with_key. pose proof (deserialize_scalar_safe _ GL key) as H.
    destruct (deserialize_scalar _ _); cbn [bind]; auto; repeat constructor; try exact H; try contradiction.
  - unfold voprf_server_new_from_seed, derive_keypair. pose proof (derive_sound seed info Voprf) as H.
    destruct (derive_key_internal _ _ _ _); cbn [bind]; auto; repeat constructor; try exact H; try contradiction.
  - rewrite (voprf_single_ok L) in Hp. destruct Hr as [(r & s' & E & Hz)|(Hn & s' & E)]; rewrite E in Hp;
      out Hp; apply fine_one; auto. repeat constructor.
  - destruct (N.leb_spec (len bs) 65535) as [H|H].
    + rewrite (voprf_batch_ok L) in Hp by auto.
      destruct Hr as [(r & s' & E & Hz)|(Hn & s' & E)]; rewrite E in Hp;
      out Hp; apply fine_one; auto. constructor; [exact I|]. apply forall_true. intros; exact I.
    + rewrite (voprf_batch_err (CS := CS)) in Hp by auto. out Hp. now apply fine_one.
  - apply Forall_forall. intros x Hx. apply in_map_iff in Hx as (y & <- & _). exact I.
  - destruct (bad_batch_dec bs ps) as [H|H].
    + apply bad_batch_len in H. rewrite (voprf_finish_err (CS := CS)) in Hp by auto.
      out Hp. now apply fine_one.
    + apply not_bad_batch in H as [He Hl]. rewrite (voprf_finish_ok L) in Hp by auto. cbv zeta in Hp.
      destruct Hr as [(r & s' & E & Hz)|(Hn & s' & E)]; rewrite E in Hp;
      out Hp; apply fine_one; auto. constructor; [exact I|]. apply forall_true. intros; exact I.
  - unfold voprf_server_evaluate. rewrite (hash_to_group_ok L). cbn [bind].
    destruct (is_identity_elem _ _); auto.
    match goal with |- match ?x with _ => _ end => pose proof (evaluate_hash_sound input None
       (serialize_elem G (elem_mul G (H2G L (mode_id Voprf) input) (voprf_sk s)))) as H; destruct x end; auto;
      repeat constructor; try contradiction.
  - repeat constructor.
  - rewrite (poprf_blind_ok L) in Hp. destruct Hr as [(r & s' & E & Hz)|(Hn & s' & E)]; rewrite E in Hp;
      out Hp; apply fine_one; auto. repeat constructor. exact Hz.
  - inversion Ha as [|? ? Hc _]; subst. cbn in Hc. unfold poprf_client_finalize.
    pose proof (poprf_batch_finalize_sound [input] [c] [e] p pk info) as H.
    pose proof (poprf_single_items [input] [c] [e] p pk info) as Hl.
    destruct (poprf_client_batch_finalize _ _ _ _ _ _ _) as [l|?| |]; cbn [bind]; auto;
      try (elim H; intros ? [<-|[]]; exact Hc).
    assert (Hs : match next_unwrap l with Ok _ | Err _ => True | _ => False end).
    { apply next_unwrap_sound; [apply H; intros ? [<-|[]]; exact Hc|].
      specialize (Hl l eq_refl). destruct l; discriminate. }
    destruct (next_unwrap l); try contradiction; repeat constructor.
  - apply fine_many; [intros; exact I|].
    assert (Hz : forall c, In c cs -> poprf_blind c <> zero_scalar G).
    { intros c Hc. rewrite Forall_forall in Ha. apply (Ha (OPoprfClient c)), in_or_app. left. now apply in_map. }
    pose proof (poprf_batch_finalize_sound inputs cs es p pk info Hz) as H.
    destruct (poprf_client_batch_finalize _ _ _ _ _ _ _); auto; contradiction.
  - unfold poprf_server_new in Hp. destruct (fill_bytes _ _ _) as [seed s1]. out Hp.
    apply fine_one. unfold poprf_server_new_from_seed, derive_keypair. pose proof (derive_sound seed [] Poprf) as H.
    destruct (derive_key_internal _ _ _ _); cbn [bind]; auto; repeat constructor; try exact H; try contradiction.
  - unfold poprf_server_new_with_key. pose proof (deserialize_scalar_safe _ GL key) as H.
    destruct (deserialize_scalar _ _); cbn [bind]; auto; repeat constructor; try exact H; try contradiction.
  - unfold poprf_server_new_from_seed, derive_keypair. pose proof (derive_sound seed info Poprf) as H.
    destruct (derive_key_internal _ _ _ _); cbn [bind]; auto; repeat constructor; try exact H; try contradiction.
  - (* blind_evaluate *)
    destruct (N.leb_spec (len (info_or_default info)) 65535) as [H|H].
    2:{ unfold poprf_server_blind_evaluate, rbind, rret, poprf_server_batch_blind_evaluate_prepare in Hp.
        rewrite compute_tweak_long in Hp by auto. cbn in Hp. out Hp. repeat constructor. }
    destruct (scalar_eq_dec GL (tweaked_scalar L (poprf_sk s) (info_or_default info)) (zero_scalar G)) as [Hz|Hz].
    { unfold poprf_server_blind_evaluate, rbind, rret, poprf_server_batch_blind_evaluate_prepare in Hp.
      rewrite (compute_tweak_ok L) in Hp by auto.
      rewrite (proj2 (is_zero_spec _ GL _) Hz) in Hp. cbn in Hp. out Hp. repeat constructor. }
    rewrite (poprf_single_ok L) in Hp by auto.
    destruct Hr as [(r & s' & E & _)|(Hn & s' & E)]; rewrite E in Hp;
      out Hp; apply fine_one; auto. repeat constructor.
  - (* batch_blind_evaluate *)
    assert (Hl : len bs <= 65535).
    { destruct (N.leb_spec (len bs) 65535); auto. exfalso. apply Hnl. exists s, bs, info. auto. }
    destruct (N.leb_spec (len (info_or_default info)) 65535) as [H|H].
    2:{ unfold poprf_server_batch_blind_evaluate, rbind, rret, poprf_server_batch_blind_evaluate_prepare in Hp.
        rewrite compute_tweak_long in Hp by auto. cbn in Hp. out Hp. repeat constructor. }
    destruct (scalar_eq_dec GL (tweaked_scalar L (poprf_sk s) (info_or_default info)) (zero_scalar G)) as [Hz|Hz].
    { unfold poprf_server_batch_blind_evaluate, rbind, rret, poprf_server_batch_blind_evaluate_prepare in Hp.
      rewrite (compute_tweak_ok L) in Hp by auto.
      rewrite (proj2 (is_zero_spec _ GL _) Hz) in Hp. cbn in Hp. out Hp. repeat constructor. }
    rewrite (poprf_batch_ok L) in Hp by auto.
    destruct Hr as [(r & s' & E & _)|(Hn & s' & E)]; rewrite E in Hp;
      out Hp; apply fine_one; auto. constructor; [exact I|]. apply forall_true. intros; exact I.
  - (* prepare *)
    unfold poprf_server_batch_blind_evaluate_prepare. pose proof (tweak_sound (poprf_sk s) info) as Ht.
    destruct (compute_tweak _ _ _) as [t|?| |]; cbn [bind]; try contradiction; [|repeat constructor].
    constructor; [exact Ht|]. cbn [poprf_prepared_elements].
    apply Forall_forall. intros x Hx. apply in_map_iff in Hx as (y & <- & Hy).
    apply in_map_iff in Hy as ((b & t') & <- & Hb). apply in_combine_r in Hb. apply repeat_spec in Hb. subst t'.
    rewrite (invert_nonzero G GL) by auto. exact I.
  - destruct (bad_batch_dec bs ps) as [H|H].
    + apply bad_batch_len in H. rewrite (poprf_finish_err (CS := CS)) in Hp by auto.
      out Hp. now apply fine_one.
    + apply not_bad_batch in H as [He Hl]. rewrite (poprf_finish_ok L) in Hp by auto. cbv zeta in Hp.
      destruct Hr as [(r & s' & E & Hz)|(Hn & s' & E)]; rewrite E in Hp;
      out Hp; apply fine_one; auto. constructor; [exact I|]. apply forall_true. intros; exact I.
  - unfold poprf_server_evaluate. rewrite (hash_to_group_ok L). cbn [bind].
    destruct (is_identity_elem _ _); auto. pose proof (tweak_sound (poprf_sk s) info) as Ht.
    destruct (compute_tweak _ _ _) as [t|?| |]; cbn [bind]; auto.
    rewrite (invert_nonzero G GL) by auto. cbn [bind].
    match goal with |- match ?x with _ => _ end => pose proof (evaluate_hash_sound input info
       (serialize_elem G (elem_mul G (H2G L (mode_id Poprf) input) (s_inv GL t)))) as H; destruct x end; auto;
      repeat constructor; try contradiction.
  - repeat constructor.
  - repeat constructor.
  - pose proof (total_sound _ _ _ b T1) as H. destruct (oprf_client_deserialize CS b); auto; repeat constructor; try apply H; try contradiction.
  - pose proof (total_sound _ _ _ b T2) as H. destruct (voprf_client_deserialize CS b); auto; repeat constructor; try apply H; try contradiction.
  - pose proof (total_sound _ _ _ b T3) as H. destruct (poprf_client_deserialize CS b); auto; repeat constructor; try apply H; try contradiction.
  - pose proof (total_sound _ _ _ b T4) as H. destruct (oprf_server_deserialize CS b); auto; repeat constructor; try apply H; try contradiction.
  - pose proof (total_sound _ _ _ b T5) as H. destruct (voprf_server_deserialize CS b); auto; repeat constructor; try apply H; try contradiction.
  - pose proof (total_sound _ _ _ b T6) as H. destruct (poprf_server_deserialize CS b); auto; repeat constructor; try apply H; try contradiction.
  - pose proof (total_sound _ _ _ b T7) as H. destruct (proof_deserialize CS b); auto; repeat constructor; try apply H; try contradiction.
  - pose proof (total_sound _ _ _ b T8) as H. destruct (blinded_deserialize CS b); auto; repeat constructor; try apply H; try contradiction.
  - pose proof (total_sound _ _ _ b T9) as H. destruct (evaluation_deserialize CS b); auto; repeat constructor; try apply H; try contradiction.
  - apply serde_fine.
Qed.

Lemma long_batch_results server bs info st rs st' :
  65535 < len bs -> perform CS R (CPoprfBatchBlindEvaluate CS server bs info) st = (rs, st') ->
  rs = [Panic] \/ exists e, rs = [Err e].
Proof.
  intros Hl Hp. cbn [perform] in Hp. unfold with_rng in Hp.
  destruct (N.leb_spec (len (info_or_default info)) 65535) as [H|H].
  2:{ unfold poprf_server_batch_blind_evaluate, rbind, rret, poprf_server_batch_blind_evaluate_prepare in Hp.
      rewrite compute_tweak_long in Hp by auto. cbn in Hp. injection Hp as <- <-. eauto. }
  destruct (scalar_eq_dec GL (tweaked_scalar L (poprf_sk server) (info_or_default info)) (zero_scalar G)) as [Hz|Hz].
  { unfold poprf_server_batch_blind_evaluate, rbind, rret, poprf_server_batch_blind_evaluate_prepare in Hp.
    rewrite (compute_tweak_ok L) in Hp by auto.
    rewrite (proj2 (is_zero_spec _ GL _) Hz) in Hp. cbn in Hp. injection Hp as <- <-. eauto. }
  rewrite (poprf_batch_too_long L) in Hp by auto. injection Hp as <- <-. now left.
Qed.

Lemma long_dec (c : call CS) : long_poprf_batch c \/ ~ long_poprf_batch c.
Proof.
  destruct c; try (right; intros (? & ? & ? & E & _); discriminate).
  destruct (N.leb_spec (len bs) 65535) as [H|H].
  - right. intros (s' & bs' & i' & E & Hl). injection E as -> -> ->. lia.
  - left. exists s, bs, info. auto.
Qed.

Lemma reachable_sound st0 store st : reachable CS R st0 store st -> Forall sound_obj store.
Proof.
  induction 1 as [|store st c rs st' Hr IH Hi Hp]; [constructor|].
  apply Forall_app. split; auto.
  assert (Ha : Forall sound_obj (arguments CS c)).
  { apply Forall_forall. intros o Ho. rewrite Forall_forall in IH. auto. }
  apply Forall_forall. intros o Ho. unfold obtained in Ho. apply in_flat_map in Ho as (r & Hin & Ho).
  destruct (long_dec c) as [(s & bs & i & -> & Hl)|Hn].
  - apply long_batch_results in Hp as [->|(e & ->)]; auto; destruct Hin as [<-|[]]; destruct Ho.
  - pose proof (perform_fine c st rs st' Ha Hn Hp) as Hf. rewrite Forall_forall in Hf.
    apply Hf in Hin. destruct r; cbn in Ho; try contradiction. destruct Ho as [<-|[]]. exact Hin.
Qed.
End Facts.

(** ** C26 *)

(** In every history of calls of the safe API, no call panics, except
    [PoprfServer::batch_blind_evaluate] with more than 65535 elements; and a
    call that never returns is one whose random-scalar sampling never ends. *)
Theorem C26_no_panic :
  forall (CS : CipherSuite) (L : SuiteLaws CS) (R : Rng) (st0 st st' : rng_state R)
         (store : list (obj CS)) (c : call CS) (rs : results CS),
  reachable CS R st0 store st ->
  incl (arguments CS c) store ->
  perform CS R c st = (rs, st') ->
  (In Panic rs ->
     exists server blinded info,
       c = CPoprfBatchBlindEvaluate CS server blinded info /\ 65535 < len blinded) /\
  (In Diverge rs -> ~ sampling_ends (CSGroup CS) R st).
Proof.
  intros CS L R st0 st st' store c rs Hr Hi Hp.
  assert (Ha : Forall sound_obj (arguments CS c)).
  { apply Forall_forall. intros o Ho. pose proof (reachable_sound L R st0 store st Hr) as H.
    rewrite Forall_forall in H. auto. }
  destruct (long_dec c) as [(s & bs & i & -> & Hl)|Hn].
  - split; [intros _; exists s, bs, i; auto|].
    apply (long_batch_results L) in Hp as [->|(e & ->)]; auto; intros [H|[]]; discriminate.
  - pose proof (perform_fine L R c st rs st' Ha Hn Hp) as Hf. rewrite Forall_forall in Hf.
    split; intros H; apply Hf in H; [destruct H|exact H].
Qed.

(** The invariant behind it: the secret scalar of every value obtained is not
    zero. *)
Theorem C26_secrets_nonzero :
  forall (CS : CipherSuite) (L : SuiteLaws CS) (R : Rng) (st0 st : rng_state R) (store : list (obj CS)),
  reachable CS R st0 store st -> Forall sound_obj store.
Proof. intros. eapply reachable_sound; eauto. Qed.

(** A reachable store with a client, its message, a server, the reply and a
    proof. *)
Lemma reach_one CS R st0 store st c rs st' :
  reachable CS R st0 store st -> incl (arguments CS c) store -> perform CS R c st = (map Ok rs, st') ->
  reachable CS R st0 (rs ++ store) st'.
Proof.
  intros Hr Hi Hp.
  assert (E : obtained CS (map Ok rs) = rs).
  { unfold obtained. clear. induction rs as [|x rs IH]; cbn; [reflexivity|]. now rewrite IH. }
  rewrite <- E. eapply reach_call; eauto.
Qed.

Lemma full_store {CS} (L : SuiteLaws CS) (R : Rng) st0 st1 st2 r1 r2 key sk (input : bytes) :
  random_scalar (CSGroup CS) R st0 = (Ok r1, st1) -> random_scalar (CSGroup CS) R st1 = (Ok r2, st2) ->
  deserialize_scalar (CSGroup CS) key = Ok sk ->
  exists store st b s e p c,
    reachable CS R st0 store st /\
    In (OVoprfClient c) store /\ In (OBlinded b) store /\ In (OVoprfServer s) store /\
    In (OEvaluation e) store /\ In (OProof p) store.
Proof.
  intros H1 H2 H3.
  pose proof (reach_start CS R st0) as R0.
  pose proof (reach_one CS R st0 _ _ (CVoprfNewWithKey CS key)
    [OVoprfServer (mkVoprfServer sk (elem_mul (CSGroup CS) (base_elem (CSGroup CS)) sk))] st0 R0) as R1.
  specialize (R1 (incl_nil_l _)).
  cbn [perform] in R1. unfold pure, voprf_server_new_with_key in R1. rewrite H3 in R1.
  specialize (R1 eq_refl).
  pose proof (reach_one CS R st0 _ _ (CVoprfBlind CS input)
    [OVoprfClient (mkVoprfClient r1 (elem_mul (CSGroup CS) (H2G L modeVOPRF input) r1));
     OBlinded (mkBlinded (elem_mul (CSGroup CS) (H2G L modeVOPRF input) r1))] st1 R1) as R2.
  specialize (R2 (incl_nil_l _)).
  cbn [perform] in R2. unfold with_rng in R2. rewrite (voprf_blind_ok L), H1 in R2.
  specialize (R2 eq_refl).
  pose proof (fun rs st' => reach_one CS R st0 _ _ (CVoprfBlindEvaluate CS
      (mkVoprfServer sk (elem_mul (CSGroup CS) (base_elem (CSGroup CS)) sk))
      (mkBlinded (elem_mul (CSGroup CS) (H2G L modeVOPRF input) r1))) rs st' R2) as R3.
  cbn [perform] in R3. unfold with_rng in R3.
  specialize (R3 [OEvaluation (mkEvaluation (elem_mul (CSGroup CS) (elem_mul (CSGroup CS) (H2G L modeVOPRF input) r1) sk));
     OProof (voprf_batch_proof (voprf_batch_result L (mkVoprfServer sk (elem_mul (CSGroup CS) (base_elem (CSGroup CS)) sk))
       [mkBlinded (elem_mul (CSGroup CS) (H2G L modeVOPRF input) r1)] r2))] st2).
  specialize (R3 ltac:(intros ? [<-|[<-|[]]]; cbn; tauto)).
  rewrite (voprf_single_ok L), H2 in R3. specialize (R3 eq_refl).
  do 7 eexists. split; [exact R3|]. cbn [In app].
  split; [right; right; left; reflexivity|].
  split; [do 3 right; left; reflexivity|].
  split; [do 4 right; left; reflexivity|].
  split; [left; reflexivity|right; left; reflexivity].
Qed.

Example C26_case :
  exists store st b s e p c,
    reachable TS CtrRng 17 store st /\
    In (OVoprfClient c) store /\ In (OBlinded b) store /\ In (OVoprfServer s) store /\
    In (OEvaluation e) store /\ In (OProof p) store.
Proof.
  destruct (sampling_cases TL CtrRng 17) as (r1 & st1 & H1 & _).
  { unfold sampling_ends. vm_compute. discriminate. }
  assert (Hst : st1 = 18%N).
  { change st1 with (snd (Ok (E := Error) r1, st1)). rewrite <- H1. vm_compute. reflexivity. }
  destruct (sampling_cases TL CtrRng st1) as (r2 & st2 & H2 & _).
  { rewrite Hst. unfold sampling_ends. vm_compute. discriminate. }
  pose proof (deserialize_serialize_scalar _ (group_laws TL) (ex_scalar 5)) as H3.
  specialize (H3 ltac:(apply ex_neq; vm_compute; reflexivity)).
  exact (full_store TL CtrRng 17 st1 st2 r1 r2 _ _ ex_input H1 H2 H3).
Qed.
