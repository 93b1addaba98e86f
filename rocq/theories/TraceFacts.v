(** * TraceFacts: the traced functions compute what the others compute *)
From Verif Require Import Laws Spec BytesFacts GroupFacts CommonFacts Trace.
Open Scope N_scope.

Lemma fst_tbind {A B} (m : tr A) (f : A -> tr B) : fst (tbind m f) = bind (fst m) (fun a => fst (f a)).
Proof. unfold tbind. now destruct (fst m). Qed.
Lemma bind_ext {E A B} (m : outcome E A) (f g : A -> outcome E B) : (forall a, f a = g a) -> bind m f = bind m g.
Proof. intros H. destruct m; cbn [bind]; auto. Qed.
Lemma fst_rtbind {S A B} (m : rtr S A) (f : A -> rtr S B) s :
  fst (rtbind m f s) = rbind (fun s => fst (m s)) (fun a s => fst (f a s)) s.
Proof. unfold rtbind, rbind. destruct (m s) as [[[a|e| |] s'] t]; reflexivity. Qed.
Lemma rbind_ext {S A B} (m m' : rcomp S A) (f g : A -> rcomp S B) s :
  (forall s, m s = m' s) -> (forall a s, f a s = g a s) -> rbind m f s = rbind m' g s.
Proof. intros H H'. unfold rbind. rewrite H. destruct (m' s) as [[a|e| |] s']; auto. Qed.
Lemma bind_ok {E A} (m : outcome E A) : bind m Ok = m.
Proof. now destruct m. Qed.
Lemma bind_bind {E A B C} (m : outcome E A) (f : A -> outcome E B) (g : B -> outcome E C) :
  bind (bind m f) g = bind m (fun a => bind (f a) g).
Proof. now destruct m. Qed.

Lemma fst_i2osp_2 n e : fst (t_i2osp_2 n e) = map_err (i2osp_2 n) e.
Proof. unfold t_i2osp_2, i2osp_2. rewrite fst_tbind. cbn [fst task bind]. now destruct (n <=? u16_max). Qed.
Lemma fst_update_multi datas : forall h, fst (t_update_multi h datas) = Ok (chain_update_multi h datas).
Proof. induction datas as [|d ds IH]; intros h; auto. cbn [t_update_multi]. rewrite fst_tbind. cbn [t_update tval fst bind]. apply IH. Qed.
Lemma fst_collect {A} (items : list (tr A)) : fst (t_collect items) = collect (map fst items).
Proof.
  induction items as [|x xs IH]; auto. cbn [t_collect map collect]. rewrite fst_tbind. apply bind_ext. intros a.
  rewrite fst_tbind, IH. reflexivity.
Qed.
Lemma fst_next {A} (items : list (tr A)) : fst (t_next_unwrap items) = next_unwrap (map fst items).
Proof. now destruct items. Qed.

(** Step through a traced function. *)
Ltac erase1 :=
  first [ rewrite fst_tbind
        | rewrite fst_i2osp_2
        | progress cbn [fst snd tval top task tret tfail tpure t_update bind] ].
Ltac erase := repeat erase1.

Section Erase.
Context (CS : CipherSuite).
Local Notation G := (CSGroup CS).
Local Notation H := (CSHash CS).

Lemma e_hash_to_group input mode : fst (t_hash_to_group CS input mode) = hash_to_group CS input mode.
Proof. unfold t_hash_to_group. erase; reflexivity. Qed.
Lemma e_blind input blind mode :
  fst (t_deterministic_blind_unchecked CS input blind mode) = deterministic_blind_unchecked CS input blind mode.
Proof. unfold t_deterministic_blind_unchecked, t_mul. rewrite fst_tbind, e_hash_to_group. reflexivity. Qed.
Lemma e_step k seed mode acc item : fst (t_composite_step CS k seed mode acc item) = composite_step CS k seed mode acc item.
Proof.
  destruct acc as [m z], item as [i [c d]]. unfold t_composite_step, t_ser, t_to_scalar, t_mul, t_add, composite_step.
  erase. apply bind_ext. intros dst. erase. apply bind_ext. intros w. erase. destruct k; erase; reflexivity.
Qed.
Lemma e_loop k seed mode items : forall acc, fst (t_composite_loop CS k seed mode acc items) = composite_loop CS k seed mode acc items.
Proof.
  induction items as [|item items IH]; intros acc; auto. cbn [t_composite_loop composite_loop]. rewrite fst_tbind, e_step.
  apply bind_ext. auto.
Qed.
Lemma e_seed b dst : fst (t_composite_seed CS b dst) = composite_seed CS b dst.
Proof.
  unfold t_composite_seed, t_ser, composite_seed. erase. apply bind_ext. intros l. erase. rewrite fst_update_multi. reflexivity.
Qed.
Lemma e_composites k b cs ds mode : fst (t_compute_composites CS k b cs ds mode) = compute_composites CS k b cs ds mode.
Proof.
  unfold t_compute_composites, compute_composites. erase. destruct (len cs =? len ds); erase; [|reflexivity].
  cbn [negb]. erase. destruct (len cs <=? u16_max); cbn [negb]; erase; [|reflexivity].
  apply bind_ext. intros dst. rewrite fst_tbind, e_seed. apply bind_ext. intros seed.
  rewrite fst_tbind, e_loop. apply bind_ext. intros [m z]. erase. destruct k; reflexivity.
Qed.
Lemma e_challenge b m z t2 t3 mode : fst (t_challenge CS b m z t2 t3 mode)
  = bind (dst_new CS STR_HASH_TO_SCALAR mode) (fun dst => unwrap (hash_to_scalar G H (challenge_input CS b m z t2 t3) (as_dst dst))).
Proof. unfold t_challenge, t_ser, t_to_scalar. erase; reflexivity. Qed.
Lemma e_prove R k a b cs ds mode st : fst (t_generate_proof CS R k a b cs ds mode st) = generate_proof CS R k a b cs ds mode st.
Proof.
  unfold t_generate_proof, generate_proof. rewrite fst_rtbind. apply rbind_ext.
  - intros s. unfold tlift, rret. cbn [fst]. now rewrite e_composites.
  - intros [m z] s. rewrite fst_rtbind. apply rbind_ext; [reflexivity|]. intros r s'.
    unfold tlift, t_mul. cbn [fst]. erase. rewrite e_challenge. unfold rbind, rret.
    destruct (dst_new CS STR_HASH_TO_SCALAR mode) as [dst|e| |]; try reflexivity. cbn [bind].
    destruct (unwrap _) as [c|e| |]; reflexivity.
Qed.
Lemma e_verify a b cs ds p mode : fst (t_verify_proof CS a b cs ds p mode) = verify_proof CS a b cs ds p mode.
Proof.
  unfold t_verify_proof, verify_proof. rewrite fst_tbind, e_composites. apply bind_ext. intros [m z]. unfold t_mul, t_add.
  erase. rewrite e_challenge, bind_bind. apply bind_ext. intros dst. apply bind_ext. intros c. erase.
  now destruct (scalar_ct_eq G c _).
Qed.
Lemma e_derive_loop seed il info dst cs : fst (t_derive_key_loop CS seed il info dst cs) = derive_key_loop CS seed il info dst cs.
Proof.
  induction cs as [|c cs IH]; auto. cbn [t_derive_key_loop derive_key_loop]. rewrite fst_tbind. apply bind_ext. intros sk.
  unfold t_is_zero. erase. destruct (is_zero_scalar G sk); auto.
Qed.
Lemma e_derive seed info mode : fst (t_derive_key_internal CS seed info mode) = derive_key_internal CS seed info mode.
Proof.
  unfold t_derive_key_internal, derive_key_internal. rewrite fst_tbind. apply bind_ext. intros dst. rewrite fst_tbind, fst_i2osp_2.
  apply bind_ext. intros il. apply e_derive_loop.
Qed.
Lemma e_keypair seed info mode : fst (t_derive_keypair CS seed info mode) = derive_keypair CS seed info mode.
Proof. unfold t_derive_keypair, derive_keypair, t_mul. rewrite fst_tbind, e_derive. apply bind_ext. intros sk. erase; reflexivity. Qed.
Lemma e_hash_input input info e : fst (t_server_evaluate_hash_input CS input info e) = server_evaluate_hash_input CS input info e.
Proof.
  unfold t_server_evaluate_hash_input, server_evaluate_hash_input, t_finish. erase. apply bind_ext. intros il. erase.
  destruct info as [i|]; erase; [destruct (map_err (i2osp_2 (len i)) EInput); erase; reflexivity|reflexivity].
Qed.
Lemma e_finalize_one input e : fst (t_finalize_one CS input e) = voprf_finalize_one CS input e.
Proof. unfold t_finalize_one, voprf_finalize_one, t_ser, t_finish. erase. apply bind_ext. intros il. erase; reflexivity. Qed.
Lemma e_evaluate sk input mode : fst (t_evaluate CS sk input mode) =
  bind (hash_to_group CS input mode) (fun e => if is_identity_elem G e then Err EInput
    else server_evaluate_hash_input CS input None (serialize_elem G (elem_mul G e sk))).
Proof.
  unfold t_evaluate, t_is_identity, t_mul, t_ser. rewrite fst_tbind, e_hash_to_group. apply bind_ext. intros e. erase.
  destruct (is_identity_elem G e); erase; [reflexivity|]. apply e_hash_input.
Qed.
Lemma e_tweaked_key pk info : fst (t_compute_tweaked_key CS pk info) = compute_tweaked_key CS pk info.
Proof.
  unfold t_compute_tweaked_key, compute_tweaked_key, t_to_scalar, t_mul, t_add, t_is_identity. cbv zeta. erase.
  apply bind_ext. intros il. erase. apply bind_ext. intros dst. erase. apply bind_ext. intros m. erase.
  now destruct (is_identity_elem G _).
Qed.
Lemma e_tweak sk info : fst (t_compute_tweak CS sk info) = compute_tweak CS sk info.
Proof.
  unfold t_compute_tweak, compute_tweak, t_to_scalar, t_is_zero. cbv zeta. erase.
  apply bind_ext. intros il. erase. apply bind_ext. intros dst. erase. apply bind_ext. intros m. erase.
  now destruct (is_zero_scalar G _).
Qed.
Lemma e_poprf_finalize_one e input info : fst (t_poprf_finalize_one CS e input info) = poprf_finalize_one CS e input info.
Proof.
  unfold t_poprf_finalize_one, poprf_finalize_one, t_ser, t_finish. erase. apply bind_ext. intros il. erase.
  apply bind_ext. intros nl. erase; reflexivity.
Qed.
Lemma e_unblind_one blind x : fst (t_unblind_one CS blind x) = voprf_unblind_one CS blind x.
Proof. unfold t_unblind_one, t_invert, t_mul, voprf_unblind_one. erase; reflexivity. Qed.
Lemma e_deserialize key : fst (t_deserialize_scalar CS key) = deserialize_scalar G key.
Proof. unfold t_deserialize_scalar. destruct (deserialize_scalar G key); reflexivity. Qed.
Lemma e_fill R st : fst (t_fill CS R st) = (let '(seed, st') := fill_bytes R st (N.to_nat (scalar_len G)) in (Ok seed, st')).
Proof. unfold t_fill. now destruct (fill_bytes _ _ _). Qed.

Lemma combine_repeat {A B} (l : list A) (b : B) : combine l (repeat b (length l)) = map (fun a => (a, b)) l.
Proof. induction l; cbn [length repeat combine map]; congruence. Qed.
End Erase.
