(** * C60: what a call does depends on lengths and numbers only.

    [Trace] has the API functions with a record of what they do: operations
    on elements, scalars, hashes and the RNG, lengths of the strings passed, and
    outcomes of tests.  Here: two calls whose arguments agree in lengths and
    numbers do the same, whatever the keys, blinding factors, inputs, elements,
    proofs and random numbers are, up to a test that ends one of the calls
    with an error. *)
From Verif Require Import Laws Spec BytesFacts GroupFacts CommonFacts Trace TraceFacts PropCorrectness Zq.
From Coq Require Import Lia.
Open Scope N_scope.

(** ** Specification *)

Definition succeeds {A} (m : tr A) : Prop := exists a, fst m = Ok a.

(** The same events up to a test, which then has different outcomes. *)
Definition part_at (w : test) (t1 t2 : list event) : Prop :=
  exists common b rest1 rest2,
    t1 = common ++ Test w b :: rest1 /\ t2 = common ++ Test w (negb b) :: rest2.

(** Two calls do the same, or part at one of the tests [ws].  Calls that part
    at a test other than the one for a zero key candidate do not both
    succeed. *)
Definition alike {A B} (ws : list test) (m1 : tr A) (m2 : tr B) : Prop :=
  (snd m1 = snd m2 /\ (succeeds m1 <-> succeeds m2)) \/
  (exists w, In w ws /\ part_at w (snd m1) (snd m2) /\ (w <> ZeroKey -> ~ (succeeds m1 /\ succeeds m2))).

(** What is seen of a call with an RNG. *)
Definition seen {S A} (x : (res A * S) * list event) : tr A := (fst (fst x), snd x).

(** A batch: the call, and then the items, computed one by one. *)
Definition alike_batch {A} (ws : list test) (m1 m2 : tr (list (tr A))) : Prop :=
  alike ws m1 m2 /\
  (forall items1 items2, fst m1 = Ok items1 -> fst m2 = Ok items2 -> Forall2 (alike []) items1 items2).

(** ** Proofs *)

Section Alike.
Context (ws : list test).

Definition al {A B} (P : A -> B -> Prop) (m1 : tr A) (m2 : tr B) : Prop :=
  (exists a b, fst m1 = Ok a /\ fst m2 = Ok b /\ snd m1 = snd m2 /\ P a b) \/
  (~ succeeds m1 /\ ~ succeeds m2 /\ snd m1 = snd m2) \/
  (exists w, In w ws /\ part_at w (snd m1) (snd m2) /\ (w <> ZeroKey -> ~ (succeeds m1 /\ succeeds m2))).

Lemma al_alike {A B} (P : A -> B -> Prop) m1 m2 : al P m1 m2 -> alike ws m1 m2.
Proof.
  intros [(a & b & E1 & E2 & E & _)|[(H1 & H2 & E)|H]].
  - left. split; auto. split; intros _; eexists; eauto.
  - left. split; auto. tauto.
  - right. auto.
Qed.

Lemma al_impl {A B} (P Q : A -> B -> Prop) m1 m2 : (forall a b, P a b -> Q a b) -> al P m1 m2 -> al Q m1 m2.
Proof. intros HPQ [(a & b & E1 & E2 & E & H)|H]; [left|right; auto]. exists a, b. auto. Qed.

Lemma succ_bind {A B} (m : tr A) (f : A -> tr B) : succeeds (tbind m f) -> succeeds m.
Proof. intros [b Hb]. unfold tbind in Hb. destruct (fst m) as [a|e| |] eqn:E; try discriminate. now exists a. Qed.
Lemma snd_tbind_ok {A B} (m : tr A) (f : A -> tr B) a : fst m = Ok a -> tbind m f = (fst (f a), snd m ++ snd (f a)).
Proof. intros E. unfold tbind. now rewrite E. Qed.
Lemma snd_tbind {A B} (m : tr A) (f : A -> tr B) : exists t, snd (tbind m f) = snd m ++ t.
Proof. unfold tbind. destruct (fst m); [eexists; reflexivity| | |]; exists []; now rewrite app_nil_r. Qed.
Lemma snd_tbind_fail {A B} (m : tr A) (f : A -> tr B) : ~ succeeds m -> snd (tbind m f) = snd m.
Proof. intros H. unfold tbind. destruct (fst m) eqn:E; auto. exfalso. apply H. eexists; eauto. Qed.

Lemma al_bind {A B A' B'} (P : A -> A' -> Prop) (Q : B -> B' -> Prop) m m' f f' :
  al P m m' -> (forall a b, fst m = Ok a -> fst m' = Ok b -> P a b -> al Q (f a) (f' b)) -> al Q (tbind m f) (tbind m' f').
Proof.
  intros [(a & b & E1 & E2 & E & H)|[(H1 & H2 & E)|(w & Hw & (c & o & r1 & r2 & E1 & E2) & Hs)]] Hf.
  - rewrite (snd_tbind_ok _ _ _ E1), (snd_tbind_ok _ _ _ E2), E.
    destruct (Hf a b E1 E2 H) as [(x & y & F1 & F2 & F & HQ)|[(H1 & H2 & F)|(w & Hw & (c & o & r1 & r2 & F1 & F2) & Hs)]].
    + left. exists x, y. cbn [fst snd]. rewrite F. auto.
    + right; left. cbn [snd]. rewrite F. split; [intros [x Hx]; apply H1; now exists x|]. split; [intros [x Hx]; apply H2; now exists x|auto].
    + right; right. exists w. split; auto. split.
      * exists (snd m' ++ c), o, r1, r2. cbn [snd]. rewrite F1, F2, !app_assoc. auto.
      * intros Hz [[x Hx] [y Hy]]. apply Hs; auto. split; [now exists x|now exists y].
  - right; left. rewrite !snd_tbind_fail by auto. split; [intros H; apply succ_bind in H; auto|]. split; [intros H; apply succ_bind in H; auto|auto].
  - right; right. exists w. split; auto. split.
    + destruct (snd_tbind m f) as [t Ht], (snd_tbind m' f') as [t' Ht']. rewrite Ht, Ht', E1, E2.
      exists c, o, (r1 ++ t), (r2 ++ t'). rewrite <- !app_assoc. auto.
    + intros Hz [Hx Hy]. apply succ_bind in Hx, Hy. now apply Hs.
Qed.

Context {B B' : Type} (Q : B -> B' -> Prop).
Lemma b_val {A A'} e e' (a : A) (a' : A') f f' : e = e' -> al Q (f a) (f' a') -> al Q (tbind (tval e a) f) (tbind (tval e' a') f').
Proof. intros <- H. eapply al_bind with (P := fun x y => x = a /\ y = a'); [left; exists a, a'; auto|]. intros x y _ _ [-> ->]. auto. Qed.
Lemma b_top {A A'} e e' (r : res A) (r' : res A') a a' f f' : r = Ok a -> r' = Ok a' -> e = e' ->
  al Q (f a) (f' a') -> al Q (tbind (top e r) f) (tbind (top e' r') f').
Proof. intros -> -> <- H. now apply b_val. Qed.
Lemma b_ret {A A'} (a : A) (a' : A') f f' : al Q (f a) (f' a') -> al Q (tbind (tret a) f) (tbind (tret a') f').
Proof. intros H. eapply al_bind with (P := fun x y => x = a /\ y = a'); [left; exists a, a'; auto|]. intros x y _ _ [-> ->]. auto. Qed.
Lemma b_pure {A} (r : res A) f f' : (forall a, r = Ok a -> al Q (f a) (f' a)) -> al Q (tbind (tpure r) f) (tbind (tpure r) f').
Proof.
  intros H. destruct r as [a|e| |]; [apply b_ret; auto| | |]; right; left; (split; [|split]);
    try reflexivity; now intros [? ?].
Qed.
Lemma b_ask w b f f' : al Q (f b) (f' b) -> al Q (tbind (task w b) f) (tbind (task w b) f').
Proof. intros H. apply (b_val (Test w b) (Test w b) b b); auto. Qed.
Lemma b_test w b b' f f' : In w ws -> (forall b, al Q (f b) (f' b)) ->
  (w <> ZeroKey -> exists o, ~ succeeds (f o) /\ ~ succeeds (f' o)) ->
  al Q (tbind (task w b) f) (tbind (task w b') f').
Proof.
  intros Hw H Hf. destruct (Bool.bool_dec b b') as [<-|Hb]; [now apply b_ask|].
  right; right. exists w. split; auto. unfold tbind, task. cbn [fst snd]. split.
  - exists [], b. exists (snd (f b)), (snd (f' b')). split; auto. cbn [app]. replace (negb b) with b'; [auto|]. clear - Hb. destruct b, b'; cbn [negb]; congruence.
  - intros Hz [[x Hx] [y Hy]]. destruct (Hf Hz) as (o & H1 & H2). cbn [fst] in *.
    destruct (Bool.bool_dec o b) as [->|]; [apply H1; now exists x|].
    assert (o = b') as -> by (clear - Hb n; destruct o, b, b'; congruence). apply H2. now exists y.
Qed.
Lemma b_assoc {A C A' C'} (m : tr A) (g : A -> tr C) (f : C -> tr B) (m' : tr A') (g' : A' -> tr C') (f' : C' -> tr B') :
  al Q (tbind m (fun a => tbind (g a) f)) (tbind m' (fun a => tbind (g' a) f')) -> al Q (tbind (tbind m g) f) (tbind (tbind m' g') f').
Proof.
  assert (E : forall X Y Z (m : tr X) (g : X -> tr Y) (f : Y -> tr Z), tbind (tbind m g) f = tbind m (fun a => tbind (g a) f)).
  { clear. intros X Y Z m g f. unfold tbind. destruct (fst m) as [a|e| |] eqn:E; cbn [fst snd]; auto.
    destruct (fst (g a)) eqn:E'; cbn [fst snd]; auto. now rewrite app_assoc. }
  now rewrite !E.
Qed.
Lemma b_i2osp n n' e f f' : n = n' -> (n <= 65535 -> al Q (f (u16_to_be_bytes n)) (f' (u16_to_be_bytes n))) ->
  al Q (tbind (t_i2osp_2 n e) f) (tbind (t_i2osp_2 n' e) f').
Proof.
  intros <- H. unfold t_i2osp_2. apply b_assoc. apply b_ask. destruct (N.leb_spec n u16_max) as [Hn|Hn]; cbn [negb].
  - apply b_ret. auto.
  - right; left. split; [|split]; try reflexivity; now intros [? ?].
Qed.
Lemma a_fail e e' : al Q (tfail e) (tfail e').
Proof. right; left. split; [|split]; try reflexivity; now intros [? ?]. Qed.
Lemma a_ret a b : Q a b -> al Q (tret a) (tret b).
Proof. left. exists a, b. auto. Qed.
Lemma a_val e e' a b : e = e' -> Q a b -> al Q (tval e a) (tval e' b).
Proof. intros <-. left. exists a, b. auto. Qed.
End Alike.
Lemma fail_fails {A} e : ~ @succeeds A (tfail e). Proof. intros [? ?]. discriminate. Qed.

Section Functions.
Context {CS : CipherSuite} (L : SuiteLaws CS) (ws : list test).
Local Notation G := (CSGroup CS).
Local Notation H := (CSHash CS).
Local Notation GL := (group_laws L).
Local Notation al := (al ws).
Definition any {A B} : A -> B -> Prop := fun _ _ => True.

Lemma dst_ok label mode : len label <= 13 -> exists dst, dst_new CS label mode = Ok dst /\ concat (as_dst dst) <> [].
Proof. intros Hl. exists (the_dst (CS := CS) label mode). split; [now apply (dst_new_ok L)|]. apply dst_nonempty. Qed.

(* one primitive step on both sides *)
Ltac lens := rewrite ?(serialize_elem_len _ GL); first [reflexivity | congruence | f_equal; solve [auto]].
Ltac step :=
  lazymatch goal with
  | |- al _ (tbind (tval _ _) _) (tbind (tval _ _) _) => apply b_val; [first [reflexivity | solve [lens]]|]
  | |- al _ (tbind (tret _) _) (tbind (tret _) _) => apply b_ret
  | |- al _ (tbind (tbind _ _) _) (tbind (tbind _ _) _) => apply b_assoc
  | |- al _ (tbind (task ?w ?b) _) (tbind (task ?w ?b) _) => apply b_ask
  | |- al _ (tbind (t_i2osp_2 _ _) _) (tbind (t_i2osp_2 _ _) _) => apply b_i2osp; [solve [auto]|intro]
  end.
Ltac steps := repeat step.

Lemma p_to_scalar {B B'} (Q : B -> B' -> Prop) parts parts' mode f f' :
  map len parts = map len parts' ->
  (forall c c', al Q (f c) (f' c')) ->
  al Q (tbind (tpure (dst_new CS STR_HASH_TO_SCALAR mode)) (fun dst => tbind (t_to_scalar CS parts dst) f))
       (tbind (tpure (dst_new CS STR_HASH_TO_SCALAR mode)) (fun dst => tbind (t_to_scalar CS parts' dst) f')).
Proof.
  intros Hl Hf. destruct (dst_ok STR_HASH_TO_SCALAR mode) as (dst & -> & Hd); [vm_compute; discriminate|].
  apply b_pure. intros a [= <-]. unfold t_to_scalar. eapply b_top.
  - rewrite (hash_to_scalar_spec _ L) by auto. reflexivity.
  - rewrite (hash_to_scalar_spec _ L) by auto. reflexivity.
  - now rewrite Hl.
  - apply Hf.
Qed.

Lemma p_hash_to_group x y mode : len x = len y -> al any (t_hash_to_group CS x mode) (t_hash_to_group CS y mode).
Proof.
  intros Hl. unfold t_hash_to_group. destruct (dst_ok STR_HASH_TO_GROUP mode) as (dst & -> & Hd); [vm_compute; discriminate|].
  apply b_pure. intros a [= <-]. rewrite !(hash_to_curve_spec _ L) by auto. cbn [map_err]. left. unfold top. cbn [fst snd].
  eexists _, _. rewrite Hl. repeat split.
Qed.
Lemma p_blind x y b b' mode : len x = len y ->
  al any (t_deterministic_blind_unchecked CS x b mode) (t_deterministic_blind_unchecked CS y b' mode).
Proof.
  intros Hl. unfold t_deterministic_blind_unchecked. eapply al_bind; [now apply p_hash_to_group|]. intros. now apply a_val.
Qed.

Definition same_kind {A B} (k : option A) (k' : option B) : Prop :=
  match k, k' with Some _, Some _ | None, None => True | _, _ => False end.

Lemma p_step k k' seed seed' mode acc acc' i i' cd cd' : same_kind k k' -> len seed = len seed' ->
  al any (t_composite_step CS k seed mode acc (i, cd)) (t_composite_step CS k' seed' mode acc' (i', cd')).
Proof.
  intros Hk Hs. destruct acc as [m z], acc' as [m' z'], cd as [c d], cd' as [c' d']. unfold t_composite_step, t_ser, t_mul, t_add.
  steps. apply p_to_scalar.
  - cbn [map]. rewrite Hs, !(serialize_elem_len _ GL). reflexivity.
  - intros w w'. steps. destruct k, k'; try contradiction; steps; now apply a_ret.
Qed.
Lemma p_loop k k' seed seed' mode items : forall items' acc acc', same_kind k k' -> len seed = len seed' ->
  length items = length items' ->
  al any (t_composite_loop CS k seed mode acc items) (t_composite_loop CS k' seed' mode acc' items').
Proof.
  induction items as [|[i cd] items IH]; intros [|[i' cd'] items'] acc acc' Hk Hs Hl; try discriminate; [now apply a_ret|].
  cbn [t_composite_loop]. eapply al_bind; [now apply p_step|]. intros. apply IH; auto.
Qed.
Lemma p_update_multi datas : forall h h', al any (t_update_multi h datas) (t_update_multi h' datas).
Proof. induction datas as [|d ds IH]; intros h h'; [now apply a_ret|]. cbn [t_update_multi]. unfold t_update. step. apply IH. Qed.
Lemma p_seed b b' dst : al (fun s s' => len s = len s') (t_composite_seed CS b dst) (t_composite_seed CS b' dst).
Proof.
  unfold t_composite_seed, t_update, t_ser, t_finish. steps. apply b_pure; intros ? ?. steps. eapply al_bind; [apply p_update_multi|]. intros.
  apply a_val; auto. unfold finalize_hash. now rewrite !(digest_len _ L).
Qed.
Lemma p_composites k k' b b' cs cs' ds ds' mode : same_kind k k' -> length cs = length cs' -> length ds = length ds' ->
  al any (t_compute_composites CS k b cs ds mode) (t_compute_composites CS k' b' cs' ds' mode).
Proof.
  intros Hk Hc Hd. unfold t_compute_composites. replace (len cs') with (len cs) by (unfold len; congruence).
  replace (len ds') with (len ds) by (unfold len; congruence). step. destruct (negb _); [apply a_fail|].
  step. destruct (negb _); [apply a_fail|]. apply b_pure; intros ? ?. eapply al_bind; [apply p_seed|]. intros s s' _ _ Hs.
  eapply al_bind.
  - apply p_loop; auto. rewrite !combine_length. lia.
  - intros [m z] [m' z'] _ _ _. destruct k, k'; try contradiction; unfold t_mul; steps; now apply a_ret.
Qed.
Lemma p_challenge b m z t2 t3 b' m' z' t2' t3' mode :
  al any (t_challenge CS b m z t2 t3 mode) (t_challenge CS b' m' z' t2' t3' mode).
Proof.
  unfold t_challenge, t_ser. steps.
  destruct (dst_ok STR_HASH_TO_SCALAR mode) as (dst & E & Hd); [vm_compute; discriminate|].
  rewrite E. apply b_pure. intros a [= <-]. unfold t_to_scalar. rewrite !(hash_to_scalar_spec _ L) by auto. cbn [unwrap].
  left. eexists _, _. unfold top. cbn [fst snd map]. rewrite !(serialize_elem_len _ GL). repeat split.
Qed.
Lemma p_verify a b cs ds p a' b' cs' ds' p' mode : In SameChallenge ws -> length cs = length cs' -> length ds = length ds' ->
  al any (t_verify_proof CS a b cs ds p mode) (t_verify_proof CS a' b' cs' ds' p' mode).
Proof.
  intros Hw Hc Hd. unfold t_verify_proof. eapply al_bind; [now apply p_composites|]. intros [m z] [m' z'] _ _ _.
  unfold t_mul, t_add. steps. eapply al_bind; [apply p_challenge|]. intros c c' _ _ _. steps.
  apply b_test; auto.
  - intros []; [now apply a_ret|apply a_fail].
  - intros _. exists false. split; apply fail_fails.
Qed.

(* a test that ends the call *)
Ltac ends o := apply b_test; [solve [auto]| |intros _; exists o; split; apply fail_fails]; intros []; try apply a_fail.

Lemma p_derive_loop seed il info seed' il' info' mode cs : In ZeroKey ws -> len seed = len seed' -> len il = len il' -> len info = len info' ->
  al any (t_derive_key_loop CS seed il info (the_dst (CS := CS) STR_DERIVE_KEYPAIR mode) cs)
         (t_derive_key_loop CS seed' il' info' (the_dst (CS := CS) STR_DERIVE_KEYPAIR mode) cs).
Proof.
  intros Hw Hs Hi Hn. induction cs as [|c cs IH]; [apply a_fail|]. cbn [t_derive_key_loop]. eapply b_top.
  - rewrite (hash_to_scalar_spec _ L) by apply dst_nonempty. reflexivity.
  - rewrite (hash_to_scalar_spec _ L) by apply dst_nonempty. reflexivity.
  - unfold derive_key_input. cbn [map]. now rewrite Hs, Hi, Hn.
  - unfold t_is_zero. steps. apply b_test; auto; [|congruence]. intros []; cbn [negb]; auto. now apply a_ret.
Qed.
Lemma p_derive seed info seed' info' mode : In ZeroKey ws -> len seed = len seed' -> len info = len info' ->
  al any (t_derive_key_internal CS seed info mode) (t_derive_key_internal CS seed' info' mode).
Proof.
  intros Hw Hs Hn. unfold t_derive_key_internal. rewrite (dst_new_ok L) by (vm_compute; discriminate).
  apply b_pure. intros a [= <-]. step. now apply p_derive_loop.
Qed.
Lemma p_keypair seed info seed' info' mode : In ZeroKey ws -> len seed = len seed' -> len info = len info' ->
  al any (t_derive_keypair CS seed info mode) (t_derive_keypair CS seed' info' mode).
Proof.
  intros Hw Hs Hn. unfold t_derive_keypair. eapply al_bind; [now apply p_derive|]. intros. unfold t_mul. steps. now apply a_ret.
Qed.
Definition same_info (i i' : option bytes) : Prop :=
  match i, i' with Some a, Some b => len a = len b | None, None => True | _, _ => False end.
Lemma p_hash_input x y i i' e e' : len x = len y -> same_info i i' -> len e = len e' ->
  al any (t_server_evaluate_hash_input CS x i e) (t_server_evaluate_hash_input CS y i' e').
Proof.
  intros Hx Hi He. unfold t_server_evaluate_hash_input, t_update, t_finish. steps. destruct i as [a|], i' as [b|]; try contradiction;
    cbn [same_info] in Hi; steps; now apply a_val.
Qed.
Lemma p_finalize_one x y e e' : len x = len y -> al any (t_finalize_one CS x e) (t_finalize_one CS y e').
Proof. intros Hx. unfold t_finalize_one, t_update, t_ser, t_finish. steps. now apply a_val. Qed.
Lemma p_poprf_finalize_one x y e e' i i' : len x = len y -> len i = len i' ->
  al any (t_poprf_finalize_one CS e x i) (t_poprf_finalize_one CS e' y i').
Proof. intros Hx Hi. unfold t_poprf_finalize_one, t_update, t_ser, t_finish. steps. now apply a_val. Qed.
Lemma p_invert {B B'} (Q : B -> B' -> Prop) k k' f f' : k <> zero_scalar G -> k' <> zero_scalar G ->
  (forall a b, al Q (f a) (f' b)) -> al Q (tbind (t_invert CS k) f) (tbind (t_invert CS k') f').
Proof. intros Hk Hk' Hf. unfold t_invert. eapply b_top; [now apply (invert_nonzero _ GL)|now apply (invert_nonzero _ GL)|reflexivity|auto]. Qed.
Lemma p_evaluate sk sk' x y mode : In IdentityInput ws -> len x = len y -> al any (t_evaluate CS sk x mode) (t_evaluate CS sk' y mode).
Proof.
  intros Hw Hx. unfold t_evaluate. eapply al_bind; [now apply p_hash_to_group|]. intros e e' _ _ _. unfold t_is_identity. steps.
  ends true. unfold t_mul, t_ser. steps. apply p_hash_input; auto; [exact I|]. now rewrite !(serialize_elem_len _ GL).
Qed.
Lemma p_tweak sk sk' i i' : In ZeroTweak ws -> len (info_or_default i) = len (info_or_default i') ->
  al (fun t t' => t <> zero_scalar G /\ t' <> zero_scalar G) (t_compute_tweak CS sk i) (t_compute_tweak CS sk' i').
Proof.
  intros Hw Hi. unfold t_compute_tweak. cbv zeta. step. apply p_to_scalar.
  - cbn [framed_info_of map]. now rewrite Hi.
  - intros m m'. unfold t_is_zero. apply b_val; [reflexivity|]. apply b_assoc. apply b_val; [reflexivity|].
    destruct (is_zero_scalar G (scalar_add G sk m)) eqn:E, (is_zero_scalar G (scalar_add G sk' m')) eqn:E'.
    + apply b_ask. apply a_fail.
    + right; right. exists ZeroTweak. split; auto. split; [|intros _ [[? ?] _]; discriminate].
      exists [], true. eexists _, _. split; reflexivity.
    + right; right. exists ZeroTweak. split; auto. split; [|intros _ [_ [? ?]]; discriminate].
      exists [], false. eexists _, _. split; reflexivity.
    + apply b_ask. apply a_ret. split; now apply (is_zero_false GL).
Qed.
Lemma p_tweaked_key pk pk' i i' : In IdentityKey ws -> len (info_or_default i) = len (info_or_default i') ->
  al any (t_compute_tweaked_key CS pk i) (t_compute_tweaked_key CS pk' i').
Proof.
  intros Hw Hi. unfold t_compute_tweaked_key. cbv zeta. step. apply p_to_scalar.
  - cbn [framed_info_of map]. now rewrite Hi.
  - intros m m'. unfold t_mul, t_add, t_is_identity. steps. ends true. now apply a_ret.
Qed.
Lemma p_unblind_one b b' x x' : b <> zero_scalar G -> b' <> zero_scalar G -> al any (t_unblind_one CS b x) (t_unblind_one CS b' x').
Proof. intros Hb Hb'. unfold t_unblind_one. apply p_invert; auto. intros. now apply a_val. Qed.
Lemma p_deserialize k k' : In ValidKey ws -> len k = len k' -> al any (t_deserialize_scalar CS k) (t_deserialize_scalar CS k').
Proof.
  intros Hw Hl. unfold t_deserialize_scalar. rewrite Hl.
  pose proof (deserialize_scalar_safe _ GL k) as S1. pose proof (deserialize_scalar_safe _ GL k') as S2.
  destruct (deserialize_scalar G k), (deserialize_scalar G k'); try contradiction.
  - left. eexists _, _. repeat split.
  - right; right. exists ValidKey. split; auto. split; [|intros _ [_ [? ?]]; discriminate].
    exists [Deserialize (len k')], true. eexists _, _. split; reflexivity.
  - right; right. exists ValidKey. split; auto. split; [|intros _ [[? ?] _]; discriminate].
    exists [Deserialize (len k')], false. eexists _, _. split; reflexivity.
  - right; left. split; [|split]; try reflexivity; now intros [? ?].
Qed.

(* with an RNG *)
Lemma seen_lift {A T} (m : tr A) (s : T) : seen (tlift m s) = m.
Proof. now destruct m. Qed.
Lemma r_draw {A A'} (R : Rng) st st' (f : scalar CS -> rtr (rng_state R) A) (f' : scalar CS -> rtr (rng_state R) A') (Q : A -> A' -> Prop) :
  sampling_ends G R st -> sampling_ends G R st' ->
  (forall r r' s s', al Q (seen (f r s)) (seen (f' r' s'))) ->
  al Q (seen (rtbind (t_random_scalar CS R) f st)) (seen (rtbind (t_random_scalar CS R) f' st')).
Proof.
  intros Hs Hs' Hf. unfold rtbind, t_random_scalar, sampling_ends in *. cbn [fst snd].
  pose proof (random_nonzero _ GL R st) as N1. pose proof (random_nonzero _ GL R st') as N2.
  destruct (random_scalar G R st) as [[r|e| |] s]; cbn [fst snd] in *; try contradiction; try congruence.
  destruct (random_scalar G R st') as [[r'|e| |] s']; cbn [fst snd] in *; try contradiction; try congruence.
  specialize (Hf r r' s s').
  assert (E : forall X (x : (res X * rng_state R) * list event), seen (fst x, Draw :: snd x) = tbind (tval Draw tt) (fun _ => seen x)).
  { intros X x. reflexivity. }
  cbn [app]. rewrite !E. now apply b_val.
Qed.
Lemma r_lift {A A' B B' T T'} (P : A -> A' -> Prop) (Q : B -> B' -> Prop) (m : tr A) (m' : tr A') (f : A -> rtr T B) (f' : A' -> rtr T' B') s s' :
  al P m m' -> (forall a b, P a b -> al Q (seen (f a s)) (seen (f' b s'))) ->
  al Q (seen (rtbind (tlift m) f s)) (seen (rtbind (tlift m') f' s')).
Proof.
  intros Hm Hf.
  assert (E : forall X Y Z (m : tr X) (f : X -> rtr Z Y) s, seen (rtbind (tlift m) f s) = tbind m (fun a => seen (f a s))).
  { intros X Y Z n g z. unfold rtbind, tlift, tbind, seen. cbn [fst snd]. destruct (fst n); reflexivity. }
  rewrite !E. eapply al_bind; [exact Hm|]. auto.
Qed.
Lemma r_bind {A A' B B' T T'} (P : A -> A' -> Prop) (Q : B -> B' -> Prop) (m : rtr T A) (m' : rtr T' A') (f : A -> rtr T B) (f' : A' -> rtr T' B') s s' :
  al P (seen (m s)) (seen (m' s')) -> (forall a b t t', P a b -> al Q (seen (f a t)) (seen (f' b t'))) ->
  al Q (seen (rtbind m f s)) (seen (rtbind m' f' s')).
Proof.
  intros Hm Hf.
  assert (E : forall X Y Z (m : rtr Z X) (f : X -> rtr Z Y) s, seen (rtbind m f s) = tbind (seen (m s)) (fun a => seen (f a (snd (fst (m s)))))).
  { intros X Y Z n g z. unfold rtbind, tbind, seen. cbn [fst snd]. destruct (fst (fst (n z))); reflexivity. }
  rewrite !E. eapply al_bind; [exact Hm|]. auto.
Qed.
Lemma r_unwrap {A A' T T'} (P : A -> A' -> Prop) (m : rtr T A) (m' : rtr T' A') s s' :
  al P (seen (m s)) (seen (m' s')) -> al P (seen (rtunwrap m s)) (seen (rtunwrap m' s')).
Proof.
  assert (S : forall X Y (n : rtr Y X) z, succeeds (seen (rtunwrap n z)) <-> succeeds (seen (n z))).
  { intros X Y n z. unfold succeeds, seen, rtunwrap. cbn [fst]. destruct (fst (fst (n z))); cbn [unwrap]; split; intros [x Hx]; first [discriminate | exists x; congruence]. }
  intros [(a & b & E1 & E2 & E & Hp)|[(H1 & H2 & E)|(w & Hw & Hp & Hs)]].
  - left. exists a, b. unfold seen, rtunwrap in *. cbn [fst snd] in *. rewrite E1, E2. auto.
  - right; left. rewrite !S. auto.
  - right; right. exists w. rewrite !S. auto.
Qed.

Lemma p_prove R k k' a b cs ds a' b' cs' ds' mode st st' : length cs = length cs' -> length ds = length ds' ->
  sampling_ends G R st -> sampling_ends G R st' ->
  al any (seen (t_generate_proof CS R k a b cs ds mode st)) (seen (t_generate_proof CS R k' a' b' cs' ds' mode st')).
Proof.
  intros Hc Hd Hs Hs'. unfold t_generate_proof. eapply r_lift with (P := any); [apply p_composites; auto; exact I|]. intros [m z] [m' z'] _.
  apply r_draw; auto. intros r r' s s'. rewrite !seen_lift.
  unfold t_mul. steps. eapply al_bind with (P := any); [apply p_challenge|]. intros c c' _ _ _. steps. now apply a_ret.
Qed.
Lemma r_fill {A A'} (R : Rng) st st' (f : bytes -> tr A) (f' : bytes -> tr A') (Q : A -> A' -> Prop) :
  (forall s n, length (fst (fill_bytes R s n)) = n) ->
  (forall a b, len a = len b -> al Q (f a) (f' b)) ->
  al Q (seen (rtbind (t_fill CS R) (fun seed => tlift (f seed)) st)) (seen (rtbind (t_fill CS R) (fun seed => tlift (f' seed)) st')).
Proof.
  intros Hl Hf. eapply r_bind with (P := fun a b => len a = len b).
  - pose proof (Hl st (N.to_nat (scalar_len G))) as H1. pose proof (Hl st' (N.to_nat (scalar_len G))) as H2. unfold t_fill.
    destruct (fill_bytes R st _) as [a s], (fill_bytes R st' _) as [b s']. cbn [fst] in *. left. exists a, b.
    unfold seen. cbn [fst snd]. split; [auto|]. split; [auto|]. split; [auto|]. unfold len. now rewrite H1, H2.
  - intros a b t t' H. rewrite !seen_lift. auto.
Qed.
End Functions.

Section Batches.
Context {CS : CipherSuite} (L : SuiteLaws CS).
Local Notation G := (CSGroup CS).
Local Notation GL := (group_laws L).

Lemma map_len_length (a b : list bytes) : map len a = map len b -> length a = length b.
Proof. intros H. apply (f_equal (@length N)) in H. now rewrite !map_length in H. Qed.
Lemma al_next ws {A A'} (items : list (tr A)) (items' : list (tr A')) : Forall2 (al ws any) items items' ->
  al ws any (t_next_unwrap items) (t_next_unwrap items').
Proof. intros [|x y l l' H _]; cbn [t_next_unwrap]; auto. right; left. split; [|split]; try reflexivity; now intros [? ?]. Qed.
Lemma al_collect ws {A A'} (P : A -> A' -> Prop) items items' : Forall2 (al ws P) items items' ->
  al ws (Forall2 P) (t_collect items) (t_collect items').
Proof.
  induction 1 as [|x y l l' H _ IH]; [now apply a_ret|]. cbn [t_collect].
  eapply al_bind; [exact H|]. intros a b _ _ Hab. eapply al_bind; [exact IH|]. intros r r' _ _ Hr. apply a_ret. now constructor.
Qed.
Lemma Forall2_alike {A A'} items items' : Forall2 (al [] (@any A A')) items items' -> Forall2 (alike []) items items'.
Proof. induction 1; constructor; auto. eapply al_alike; eauto. Qed.
Lemma al_weaken ws {A A'} (P : A -> A' -> Prop) m m' : al [] P m m' -> al ws P m m'.
Proof. intros [H|[H|(w & [] & _)]]; [now left|right; now left]. Qed.
Lemma Forall2_weaken ws {A A'} (P : A -> A' -> Prop) l l' : Forall2 (al [] P) l l' -> Forall2 (al ws P) l l'.
Proof. induction 1; constructor; auto. now apply al_weaken. Qed.

Lemma voprf_items : forall (inputs inputs' : list bytes) (blinds blinds' : list (scalar CS)) (messages messages' : list (EvaluationElement CS)),
  map len inputs = map len inputs' -> length blinds = length blinds' -> length messages = length messages' ->
  Forall (fun b => b <> zero_scalar G) blinds -> Forall (fun b => b <> zero_scalar G) blinds' ->
  let items i b m := map (fun '(input, (blind, x)) => tbind (t_unblind_one CS blind x) (t_finalize_one CS input))
                       (combine i (combine b m)) in
  Forall2 (al [] any) (items inputs blinds messages) (items inputs' blinds' messages').
Proof.
  intros inputs. induction inputs as [|i inputs IH]; intros [|i' inputs'] [|b blinds] [|b' blinds'] [|m messages] [|m' messages'] Hi Hb Hm F F';
    try discriminate; cbn [combine map]; try constructor.
  - injection Hi as Hi Hr. inversion F; inversion F'; subst. eapply al_bind; [now apply (p_unblind_one L)|].
    intros. now apply (p_finalize_one L).
  - injection Hi as Hi Hr. inversion F; inversion F'; subst. apply IH; auto.
Qed.
Lemma poprf_items (info info' : bytes) : len info = len info' ->
  forall (inputs inputs' : list bytes) (blinds blinds' : list (scalar CS)) (messages messages' : list (EvaluationElement CS)),
  map len inputs = map len inputs' -> length blinds = length blinds' -> length messages = length messages' ->
  Forall (fun b => b <> zero_scalar G) blinds -> Forall (fun b => b <> zero_scalar G) blinds' ->
  let items n i b m := map (fun '(unblinded_element, input) => tbind unblinded_element (fun e => t_poprf_finalize_one CS e input n))
                       (combine (map (fun '(blind, x) => t_unblind_one CS blind x) (combine b m)) i) in
  Forall2 (al [] any) (items info inputs blinds messages) (items info' inputs' blinds' messages').
Proof.
  intros Hn inputs. induction inputs as [|i inputs IH]; intros [|i' inputs'] [|b blinds] [|b' blinds'] [|m messages] [|m' messages'] Hi Hb Hm F F';
    try discriminate; cbn [combine map]; try constructor.
  - injection Hi as Hi Hr. inversion F; inversion F'; subst. eapply al_bind; [now apply (p_unblind_one L)|].
    intros. now apply (p_poprf_finalize_one L).
  - injection Hi as Hi Hr. inversion F; inversion F'; subst. apply IH; auto.
Qed.

Lemma Forall_map_iff {A B} (f : A -> B) (P : B -> Prop) l : Forall (fun a => P (f a)) l -> Forall P (map f l).
Proof. induction 1; constructor; auto. Qed.
Lemma al_batch ws {A} (m m' : tr (list (tr A))) :
  ~ In ZeroKey ws -> al ws (Forall2 (al [] any)) m m' -> alike_batch ws m m'.
Proof.
  intros Hz H. split; [eapply al_alike; eauto|]. intros items items' E E'. destruct H as [(a & b & E1 & E2 & _ & H)|[(H & _)|(w & Hw & _ & Hs)]].
  - assert (a = items) as -> by congruence. assert (b = items') as -> by congruence. now apply Forall2_alike.
  - exfalso. apply H. now exists items.
  - exfalso. apply Hs; [congruence|]. split; [now exists items|now exists items'].
Qed.
End Batches.

(** ** C60 *)

(** The results are those of the other definitions, for every ciphersuite. *)
Theorem C60_client_results : forall CS : CipherSuite,
  (forall R x st, fst (t_oprf_client_blind CS R x st) = oprf_client_blind CS R x st) /\
  (forall R x st, fst (t_voprf_client_blind CS R x st) = voprf_client_blind CS R x st) /\
  (forall R x st, fst (t_poprf_client_blind CS R x st) = poprf_client_blind CS R x st) /\
  (forall c x ev, fst (t_oprf_client_finalize CS c x ev) = oprf_client_finalize CS c x ev) /\
  (forall c x ev p pk, fst (t_voprf_client_finalize CS c x ev p pk) = voprf_client_finalize CS c x ev p pk) /\
  (forall c x ev p pk i, fst (t_poprf_client_finalize CS c x ev p pk i) = poprf_client_finalize CS c x ev p pk i) /\
  (forall xs cs evs p pk, bind (fst (t_voprf_client_batch_finalize CS xs cs evs p pk)) (fun items => Ok (map fst items))
     = voprf_client_batch_finalize CS xs cs evs p pk) /\
  (forall xs cs evs p pk i, bind (fst (t_poprf_client_batch_finalize CS xs cs evs p pk i)) (fun items => Ok (map fst items))
     = poprf_client_batch_finalize CS xs cs evs p pk i).
Proof.
  intros CS.
  assert (Hv : forall xs cs evs p pk, bind (fst (t_voprf_client_batch_finalize CS xs cs evs p pk)) (fun items => Ok (map fst items))
     = voprf_client_batch_finalize CS xs cs evs p pk).
  { intros. unfold t_voprf_client_batch_finalize, voprf_client_batch_finalize, verifiable_unblind.
    rewrite fst_tbind, e_verify. destruct (verify_proof _ _ _ _ _ _ _) as [[]|e| |]; try reflexivity.
    cbn [fst tret bind]. f_equal. unfold voprf_finalize_after_unblind. rewrite map_map.
    generalize (combine (map voprf_blind cs) evs). intros l. revert l. induction xs as [|x xs IH]; intros [|[b e] l]; cbn [combine map]; auto.
    rewrite IH, fst_tbind, e_unblind_one. f_equal. apply bind_ext. intros. apply e_finalize_one. }
  assert (Hp : forall xs cs evs p pk i, bind (fst (t_poprf_client_batch_finalize CS xs cs evs p pk i)) (fun items => Ok (map fst items))
     = poprf_client_batch_finalize CS xs cs evs p pk i).
  { intros. unfold t_poprf_client_batch_finalize, poprf_client_batch_finalize, poprf_unblind.
    rewrite fst_tbind, e_tweaked_key. cbv zeta. destruct (compute_tweaked_key _ _ _) as [tk|e| |]; try reflexivity. cbn [bind].
    rewrite fst_tbind, e_verify. destruct (verify_proof _ _ _ _ _ _ _) as [[]|e| |]; try reflexivity. cbn [bind].
    rewrite fst_tbind. cbn [task fst bind]. unfold poprf_finalize_after_unblind.
    replace (len (map (fun '(blind, x) => t_unblind_one CS blind x) (combine (map poprf_blind cs) evs)))
      with (len (map (fun '(blind, x) => poprf_unblind_one CS blind x) (combine (map poprf_blind cs) evs))) by (unfold len; now rewrite !map_length).
    destruct (negb _); [reflexivity|]. cbn [fst tret bind]. f_equal. cbv zeta. rewrite combine_repeat, !map_map.
    generalize (combine (map poprf_blind cs) evs). intros l. revert l. induction xs as [|x xs IH]; intros [|[b e] l]; cbn [combine map]; auto.
    rewrite IH, fst_tbind, e_unblind_one. f_equal. apply bind_ext. intros. apply e_poprf_finalize_one. }
  assert (Hn : forall A (m : tr (list (tr A))), fst (tbind m t_next_unwrap) = bind (bind (fst m) (fun items => Ok (map fst items))) next_unwrap).
  { intros A m. rewrite fst_tbind. destruct (fst m) as [items|e| |]; auto. cbn [bind]. apply fst_next. }
  split; [|split; [|split; [|split; [|split; [|split; [|split]]]]]]; auto.
  - intros. unfold t_oprf_client_blind, oprf_client_blind. rewrite fst_rtbind. apply rbind_ext; [reflexivity|]. intros b s.
    unfold tlift. cbn [fst]. rewrite fst_tbind, e_blind. reflexivity.
  - intros. unfold t_voprf_client_blind, voprf_client_blind. rewrite fst_rtbind. apply rbind_ext; [reflexivity|]. intros b s.
    unfold tlift. cbn [fst]. rewrite fst_tbind, e_blind. reflexivity.
  - intros. unfold t_poprf_client_blind, poprf_client_blind. rewrite fst_rtbind. apply rbind_ext; [reflexivity|]. intros b s.
    unfold tlift. cbn [fst]. rewrite fst_tbind, e_blind. reflexivity.
  - intros. unfold t_oprf_client_finalize, oprf_client_finalize, t_invert, t_mul. erase. apply bind_ext. intros inv. erase.
    exact (e_finalize_one CS x _).
  - intros. unfold t_voprf_client_finalize, voprf_client_finalize. now rewrite Hn, Hv.
  - intros. unfold t_poprf_client_finalize, poprf_client_finalize. now rewrite Hn, Hp.
Qed.

Theorem C60_server_results : forall CS : CipherSuite,
  (forall R st, fst (t_oprf_server_new CS R st) = oprf_server_new CS R st) /\
  (forall R st, fst (t_voprf_server_new CS R st) = voprf_server_new CS R st) /\
  (forall R st, fst (t_poprf_server_new CS R st) = poprf_server_new CS R st) /\
  (forall seed i, fst (t_oprf_server_new_from_seed CS seed i) = oprf_server_new_from_seed CS seed i) /\
  (forall seed i, fst (t_voprf_server_new_from_seed CS seed i) = voprf_server_new_from_seed CS seed i) /\
  (forall seed i, fst (t_poprf_server_new_from_seed CS seed i) = poprf_server_new_from_seed CS seed i) /\
  (forall k, fst (t_oprf_server_new_with_key CS k) = oprf_server_new_with_key CS k) /\
  (forall k, fst (t_voprf_server_new_with_key CS k) = voprf_server_new_with_key CS k) /\
  (forall k, fst (t_poprf_server_new_with_key CS k) = poprf_server_new_with_key CS k) /\
  (forall s b, fst (t_oprf_server_blind_evaluate CS s b) = Ok (oprf_server_blind_evaluate CS s b)) /\
  (forall s R b st, fst (t_voprf_server_blind_evaluate CS s R b st) = voprf_server_blind_evaluate CS s R b st) /\
  (forall s R b i st, fst (t_poprf_server_blind_evaluate CS s R b i st) = poprf_server_blind_evaluate CS s R b i st) /\
  (forall s R bs st, fst (t_voprf_server_batch_blind_evaluate CS s R bs st) = voprf_server_batch_blind_evaluate CS s R bs st) /\
  (forall s R bs i st, fst (t_poprf_server_batch_blind_evaluate CS s R bs i st) = poprf_server_batch_blind_evaluate CS s R bs i st) /\
  (forall s x, fst (t_oprf_server_evaluate CS s x) = oprf_server_evaluate CS s x) /\
  (forall s x, fst (t_voprf_server_evaluate CS s x) = voprf_server_evaluate CS s x) /\
  (forall s x i, fst (t_poprf_server_evaluate CS s x i) = poprf_server_evaluate CS s x i).
Proof.
  intros CS.
  assert (H1 : forall seed i, fst (t_oprf_server_new_from_seed CS seed i) = oprf_server_new_from_seed CS seed i).
  { intros. unfold t_oprf_server_new_from_seed. rewrite fst_tbind, e_derive. reflexivity. }
  assert (H2 : forall seed i, fst (t_voprf_server_new_from_seed CS seed i) = voprf_server_new_from_seed CS seed i).
  { intros. unfold t_voprf_server_new_from_seed. rewrite fst_tbind, e_keypair. apply bind_ext. now intros [sk pk]. }
  assert (H3 : forall seed i, fst (t_poprf_server_new_from_seed CS seed i) = poprf_server_new_from_seed CS seed i).
  { intros. unfold t_poprf_server_new_from_seed. rewrite fst_tbind, e_keypair. apply bind_ext. now intros [sk pk]. }
  assert (Hf : forall A R (f : bytes -> tr A) st, fst (rtbind (t_fill CS R) (fun seed => tlift (f seed)) st)
     = (let '(seed, st') := fill_bytes R st (N.to_nat (scalar_len (CSGroup CS))) in (fst (f seed), st'))).
  { intros. rewrite fst_rtbind. unfold rbind, t_fill. destruct (fill_bytes _ _ _). reflexivity. }
  assert (Hc : forall A B C (h : B -> C) (g : A -> tr B) (g' : A -> B), (forall a, fst (g a) = Ok (g' a)) ->
     forall l, fst (t_collect (map (fun a => tbind (g a) (fun b => tret (h b))) l)) = Ok (map (fun a => h (g' a)) l)).
  { intros A B C h g g' Hg l. induction l as [|a l IH]; auto. cbn [map t_collect]. rewrite fst_tbind, fst_tbind, Hg.
    cbn [bind tret fst]. rewrite fst_tbind, IH. reflexivity. }
  assert (Hfin : forall R s bs es st, fst (t_voprf_server_batch_blind_evaluate_finish CS s R bs es st) = voprf_server_batch_blind_evaluate_finish CS s R bs es st).
  { intros. unfold t_voprf_server_batch_blind_evaluate_finish, voprf_server_batch_blind_evaluate_finish. rewrite fst_rtbind.
    apply rbind_ext; [intros; apply e_prove|]. reflexivity. }
  assert (Hfinp : forall R bs es tw st, fst (t_poprf_server_batch_blind_evaluate_finish CS R bs es tw st) = poprf_server_batch_blind_evaluate_finish CS R bs es tw st).
  { intros. unfold t_poprf_server_batch_blind_evaluate_finish, poprf_server_batch_blind_evaluate_finish. cbv zeta. rewrite fst_rtbind.
    unfold rbind at 1. unfold tlift at 1, t_mul at 1, tval at 1. cbn [fst]. rewrite fst_rtbind.
    apply rbind_ext; [intros; apply e_prove|]. reflexivity. }
  assert (Hu : forall A S (m : rtr S A) m', (forall s, fst (m s) = m' s) -> forall s, fst (rtunwrap m s) = runwrap m' s).
  { intros A S m m' Hm s. unfold rtunwrap, runwrap. rewrite <- Hm. now destruct (m s) as [[r s'] t]. }
  split; [|split; [|split; [|split; [|split; [|split; [|split; [|split; [|split; [|split; [|split; [|split; [|split; [|split; [|split; [|split]]]]]]]]]]]]]]]; auto.
  - intros. unfold t_oprf_server_new, oprf_server_new. rewrite Hf. destruct (fill_bytes _ _ _). now rewrite H1.
  - intros. unfold t_voprf_server_new, voprf_server_new. rewrite Hf. destruct (fill_bytes _ _ _). now rewrite H2.
  - intros. unfold t_poprf_server_new, poprf_server_new. rewrite Hf. destruct (fill_bytes _ _ _). now rewrite H3.
  - intros. unfold t_oprf_server_new_with_key. rewrite fst_tbind, e_deserialize. reflexivity.
  - intros. unfold t_voprf_server_new_with_key. rewrite fst_tbind, e_deserialize. reflexivity.
  - intros. unfold t_poprf_server_new_with_key. rewrite fst_tbind, e_deserialize. reflexivity.
  - intros. unfold t_voprf_server_blind_evaluate, voprf_server_blind_evaluate. cbv zeta. rewrite fst_rtbind. apply rbind_ext; [reflexivity|].
    intros e s'. rewrite fst_rtbind. apply rbind_ext; [apply Hu; intros; apply Hfin|]. intros r s2. rewrite fst_rtbind. reflexivity.
  - intros. unfold t_poprf_server_blind_evaluate, poprf_server_blind_evaluate. rewrite fst_rtbind. unfold rbind at 1, tlift at 1.
    unfold t_poprf_server_batch_blind_evaluate_prepare, poprf_server_batch_blind_evaluate_prepare. cbn [fst].
    rewrite fst_tbind, e_tweak. unfold rbind at 1, rret at 1. destruct (compute_tweak CS _ _) as [tw|e| |]; try reflexivity. cbn [bind tret fst].
    rewrite fst_rtbind. apply rbind_ext; [intros; unfold tlift, rret; cbn [fst map t_next_unwrap next_unwrap combine length repeat poprf_prepared_elements]|].
    + unfold t_invert, t_mul. erase. reflexivity.
    + intros e s'. rewrite fst_rtbind. apply rbind_ext; [apply Hu; intros; apply Hfinp|]. intros r s2. first [reflexivity | rewrite fst_rtbind; reflexivity].
  - intros. unfold t_voprf_server_batch_blind_evaluate, voprf_server_batch_blind_evaluate. cbv zeta. rewrite fst_rtbind. unfold rbind at 1, tlift at 1.
    unfold t_voprf_server_batch_blind_evaluate_prepare, voprf_server_batch_blind_evaluate_prepare. cbn [fst].
    erewrite Hc by reflexivity. rewrite fst_rtbind, combine_repeat, map_map. apply rbind_ext; [|reflexivity]. intros. apply Hfin.
  - intros. unfold t_poprf_server_batch_blind_evaluate, poprf_server_batch_blind_evaluate. rewrite fst_rtbind. unfold rbind at 1, tlift at 1.
    unfold t_poprf_server_batch_blind_evaluate_prepare, poprf_server_batch_blind_evaluate_prepare. cbn [fst].
    rewrite fst_tbind, e_tweak. unfold rbind at 1, rret at 1. destruct (compute_tweak CS _ _) as [tw|e| |]; try reflexivity. cbn [bind tret fst].
    rewrite fst_rtbind. apply rbind_ext; [intros; unfold tlift, rret; cbn [fst poprf_prepared_elements]|].
    + rewrite fst_collect, combine_repeat, !map_map. f_equal. f_equal. apply map_ext. intros b. unfold t_invert, t_mul. erase. reflexivity.
    + intros e s'. rewrite fst_rtbind. apply rbind_ext; [apply Hu; intros; apply Hfinp|]. intros r s2. first [reflexivity | rewrite fst_rtbind; reflexivity].
  - intros. unfold t_oprf_server_evaluate. rewrite e_evaluate. reflexivity.
  - intros. unfold t_voprf_server_evaluate. rewrite e_evaluate. reflexivity.
  - intros. unfold t_poprf_server_evaluate, poprf_server_evaluate, t_is_identity, t_invert, t_mul, t_ser. rewrite fst_tbind, e_hash_to_group.
    apply bind_ext. intros e. erase. destruct (is_identity_elem _ e); [reflexivity|]. rewrite fst_tbind, e_tweak. apply bind_ext. intros tw.
    erase. apply bind_ext. intros inv. erase. apply e_hash_input.
Qed.

(** *** Clients *)

(** Opening a session: inputs of the same length. *)
Theorem C60_blind_work : forall (CS : CipherSuite), SuiteLaws CS ->
  forall (R : Rng) (x y : bytes) (st st' : rng_state R),
  len x = len y -> sampling_ends (CSGroup CS) R st -> sampling_ends (CSGroup CS) R st' ->
  alike [] (seen (t_oprf_client_blind CS R x st)) (seen (t_oprf_client_blind CS R y st')) /\
  alike [] (seen (t_voprf_client_blind CS R x st)) (seen (t_voprf_client_blind CS R y st')) /\
  alike [] (seen (t_poprf_client_blind CS R x st)) (seen (t_poprf_client_blind CS R y st')).
Proof.
  intros CS L R x y st st' Hl Hs Hs'.
  split; [|split]; apply (al_alike [] any); apply (r_draw L []); auto; intros r r' s s'; rewrite !seen_lift;
    (eapply al_bind; [now apply (p_blind L [])|]; intros; now apply a_ret).
Qed.

(** Closing one: inputs of the same length, any two clients with nonzero
    blinding factors, any messages, proofs and keys; info strings of the same length. *)
Theorem C60_finalize_work : forall (CS : CipherSuite), SuiteLaws CS ->
  forall (x y : bytes) (ev ev' : EvaluationElement CS) (p p' : Proof CS) (pk pk' : elem CS) (i i' : option bytes),
  len x = len y -> len (info_or_default i) = len (info_or_default i') ->
  (forall c c' : OprfClient CS, oprf_blind c <> zero_scalar (CSGroup CS) -> oprf_blind c' <> zero_scalar (CSGroup CS) ->
     alike [] (t_oprf_client_finalize CS c x ev) (t_oprf_client_finalize CS c' y ev')) /\
  (forall c c' : VoprfClient CS, voprf_blind c <> zero_scalar (CSGroup CS) -> voprf_blind c' <> zero_scalar (CSGroup CS) ->
     alike [SameChallenge] (t_voprf_client_finalize CS c x ev p pk) (t_voprf_client_finalize CS c' y ev' p' pk')) /\
  (forall c c' : PoprfClient CS, poprf_blind c <> zero_scalar (CSGroup CS) -> poprf_blind c' <> zero_scalar (CSGroup CS) ->
     alike [IdentityKey; SameChallenge] (t_poprf_client_finalize CS c x ev p pk i) (t_poprf_client_finalize CS c' y ev' p' pk' i')).
Proof.
  intros CS L x y ev ev' p p' pk pk' i i' Hl Hi. split; [|split]; intros c c' Hc Hc'.
  - apply (al_alike [] any). unfold t_oprf_client_finalize. apply (p_invert L []); auto. intros a b. unfold t_mul. apply b_val; [reflexivity|].
    cbn [t_next_unwrap]. now apply (p_finalize_one L []).
  - apply (al_alike _ any). unfold t_voprf_client_finalize. eapply al_bind with (P := Forall2 (al [SameChallenge] any)).
    + unfold t_voprf_client_batch_finalize. eapply al_bind; [apply (p_verify L); [now left|reflexivity|reflexivity]|]. intros. apply a_ret.
      apply Forall2_weaken. apply (voprf_items L [x] [y] [voprf_blind c] [voprf_blind c'] [ev] [ev']); auto. cbn [map]. congruence.
    + intros u v _ _ Huv. exact (al_next _ u v Huv).
  - apply (al_alike _ any). unfold t_poprf_client_finalize. eapply al_bind with (P := Forall2 (al [IdentityKey; SameChallenge] any)).
    + unfold t_poprf_client_batch_finalize. eapply al_bind; [apply (p_tweaked_key L); [now left|exact Hi]|]. intros. cbv zeta.
      eapply al_bind; [apply (p_verify L); [now right; left|reflexivity|reflexivity]|]. intros. cbn [map combine len length]. apply b_ask.
      cbn. apply a_ret. apply Forall2_weaken.
      apply (poprf_items L (info_or_default i) (info_or_default i') Hi [x] [y] [poprf_blind c] [poprf_blind c'] [ev] [ev']); auto. cbn [map]. congruence.
    + intros u v _ _ Huv. exact (al_next _ u v Huv).
Qed.

(** Closing many. *)
Theorem C60_batch_finalize_work : forall (CS : CipherSuite), SuiteLaws CS ->
  forall (xs ys : list bytes) (evs evs' : list (EvaluationElement CS)) (p p' : Proof CS) (pk pk' : elem CS) (i i' : option bytes),
  map len xs = map len ys -> length evs = length evs' -> len (info_or_default i) = len (info_or_default i') ->
  (forall cs cs' : list (VoprfClient CS), length cs = length cs' ->
     Forall (fun c => voprf_blind c <> zero_scalar (CSGroup CS)) cs -> Forall (fun c => voprf_blind c <> zero_scalar (CSGroup CS)) cs' ->
     alike_batch [SameChallenge] (t_voprf_client_batch_finalize CS xs cs evs p pk) (t_voprf_client_batch_finalize CS ys cs' evs' p' pk')) /\
  (forall cs cs' : list (PoprfClient CS), length cs = length cs' ->
     Forall (fun c => poprf_blind c <> zero_scalar (CSGroup CS)) cs -> Forall (fun c => poprf_blind c <> zero_scalar (CSGroup CS)) cs' ->
     alike_batch [IdentityKey; SameChallenge] (t_poprf_client_batch_finalize CS xs cs evs p pk i) (t_poprf_client_batch_finalize CS ys cs' evs' p' pk' i')).
Proof.
  intros CS L xs ys evs evs' p p' pk pk' i i' Hx He Hi. split; intros cs cs' Hc H H'.
  - apply al_batch; [intros [H0|[]]; discriminate|]. unfold t_voprf_client_batch_finalize.
    eapply al_bind; [apply (p_verify L); [now left|rewrite !map_length; auto|rewrite !map_length; auto]|]. intros. apply a_ret.
    apply (voprf_items L); auto; try (now rewrite !map_length); now apply Forall_map_iff.
  - apply al_batch; [intros [H0|[H0|[]]]; discriminate|]. unfold t_poprf_client_batch_finalize.
    eapply al_bind; [apply (p_tweaked_key L); [now left|exact Hi]|]. intros. cbv zeta.
    eapply al_bind; [apply (p_verify L); [now right; left|rewrite !map_length; auto|rewrite !map_length; auto]|]. intros.
    replace (len (map (fun '(blind, x) => t_unblind_one CS blind x) (combine (map poprf_blind cs') evs')))
      with (len (map (fun '(blind, x) => t_unblind_one CS blind x) (combine (map poprf_blind cs) evs)))
      by (unfold len; rewrite !map_length, !combine_length, !map_length, Hc, He; reflexivity).
    replace (len ys) with (len xs) by (unfold len; now rewrite (map_len_length _ _ Hx)).
    apply b_ask. destruct (negb _); [apply a_fail|]. apply a_ret.
    apply (poprf_items L); auto; try (now rewrite !map_length); now apply Forall_map_iff.
Qed.

(** *** Servers *)

(** New servers: seeds and info strings of the same length; keys of the same
    length; any two RNG states (of an RNG that fills the whole buffer).  The
    calls may part when a key candidate is zero. *)
Theorem C60_new_work : forall (CS : CipherSuite), SuiteLaws CS ->
  (forall seed seed' i i' : bytes, len seed = len seed' -> len i = len i' ->
     alike [ZeroKey] (t_oprf_server_new_from_seed CS seed i) (t_oprf_server_new_from_seed CS seed' i') /\
     alike [ZeroKey] (t_voprf_server_new_from_seed CS seed i) (t_voprf_server_new_from_seed CS seed' i') /\
     alike [ZeroKey] (t_poprf_server_new_from_seed CS seed i) (t_poprf_server_new_from_seed CS seed' i')) /\
  (forall (R : Rng) (st st' : rng_state R), (forall s n, length (fst (fill_bytes R s n)) = n) ->
     alike [ZeroKey] (seen (t_oprf_server_new CS R st)) (seen (t_oprf_server_new CS R st')) /\
     alike [ZeroKey] (seen (t_voprf_server_new CS R st)) (seen (t_voprf_server_new CS R st')) /\
     alike [ZeroKey] (seen (t_poprf_server_new CS R st)) (seen (t_poprf_server_new CS R st'))) /\
  (forall k k' : bytes, len k = len k' ->
     alike [ValidKey] (t_oprf_server_new_with_key CS k) (t_oprf_server_new_with_key CS k') /\
     alike [ValidKey] (t_voprf_server_new_with_key CS k) (t_voprf_server_new_with_key CS k') /\
     alike [ValidKey] (t_poprf_server_new_with_key CS k) (t_poprf_server_new_with_key CS k')).
Proof.
  intros CS L.
  assert (H1 : forall seed seed' i i' : bytes, len seed = len seed' -> len i = len i' ->
     al [ZeroKey] any (t_oprf_server_new_from_seed CS seed i) (t_oprf_server_new_from_seed CS seed' i')).
  { intros. eapply al_bind; [apply (p_derive L); auto; now left|]. intros. now apply a_ret. }
  assert (H2 : forall seed seed' i i' : bytes, len seed = len seed' -> len i = len i' ->
     al [ZeroKey] any (t_voprf_server_new_from_seed CS seed i) (t_voprf_server_new_from_seed CS seed' i')).
  { intros. eapply al_bind; [apply (p_keypair L); auto; now left|]. intros [a b] [a' b'] _ _ _. now apply a_ret. }
  assert (H3 : forall seed seed' i i' : bytes, len seed = len seed' -> len i = len i' ->
     al [ZeroKey] any (t_poprf_server_new_from_seed CS seed i) (t_poprf_server_new_from_seed CS seed' i')).
  { intros. eapply al_bind; [apply (p_keypair L); auto; now left|]. intros [a b] [a' b'] _ _ _. now apply a_ret. }
  split; [|split].
  - intros. split; [|split]; apply (al_alike _ any); auto.
  - intros R st st' Hf. split; [|split]; apply (al_alike _ any); apply r_fill; auto.
  - intros k k' Hl. split; [|split]; apply (al_alike _ any); (eapply al_bind; [apply (p_deserialize L); [now left|exact Hl]|]);
      intros; unfold t_mul; try (apply b_val; [reflexivity|]); now apply a_ret.
Qed.

(** Evaluating one blinded element, for any two servers. *)
Theorem C60_blind_evaluate_work : forall (CS : CipherSuite), SuiteLaws CS ->
  forall (b b' : BlindedElement CS),
  (forall s s' : OprfServer CS, alike [] (t_oprf_server_blind_evaluate CS s b) (t_oprf_server_blind_evaluate CS s' b')) /\
  (forall (R : Rng) (st st' : rng_state R), sampling_ends (CSGroup CS) R st -> sampling_ends (CSGroup CS) R st' ->
     (forall s s' : VoprfServer CS,
        alike [] (seen (t_voprf_server_blind_evaluate CS s R b st)) (seen (t_voprf_server_blind_evaluate CS s' R b' st'))) /\
     (forall (s s' : PoprfServer CS) (i i' : option bytes), len (info_or_default i) = len (info_or_default i') ->
        alike [ZeroTweak] (seen (t_poprf_server_blind_evaluate CS s R b i st)) (seen (t_poprf_server_blind_evaluate CS s' R b' i' st')))).
Proof.
  intros CS L b b'. split; [|intros R st st' Hs Hs'; split].
  - intros s s'. apply (al_alike [] any). now apply b_val; [reflexivity|]; apply a_ret.
  - intros s s'. apply (al_alike [] any). unfold t_voprf_server_blind_evaluate.
    apply r_lift with (P := any).
    { cbn [t_voprf_server_batch_blind_evaluate_prepare map t_next_unwrap]. unfold t_mul. apply b_val; [reflexivity|]. now apply a_ret. }
    intros e e' _. apply r_bind with (P := fun r r' => length (voprf_batch_messages r) = length (voprf_batch_messages r')).
    { apply r_unwrap. unfold t_voprf_server_batch_blind_evaluate_finish. apply r_bind with (P := any).
      - now apply (p_prove L).
      - intros pr pr' t t' _. rewrite !seen_lift. apply a_ret. reflexivity. }
    intros r r' t t' Hr. apply r_lift with (P := any).
    { destruct (voprf_batch_messages r), (voprf_batch_messages r'); try discriminate; cbn [hd_error unwrap_opt].
      - right; left. split; [|split]; try reflexivity; now intros [? ?].
      - left. eexists _, _. repeat split. }
    intros. rewrite !seen_lift. now apply a_ret.
  - intros s s' i i' Hi. apply (al_alike _ any). unfold t_poprf_server_blind_evaluate.
    apply r_lift with (P := fun x x' => al [ZeroTweak] any (t_next_unwrap (fst x)) (t_next_unwrap (fst x'))).
    { unfold t_poprf_server_batch_blind_evaluate_prepare. eapply al_bind; [apply (p_tweak L); [now left|exact Hi]|].
      intros tw tw' _ _ [Hz Hz']. apply a_ret. cbn [fst map t_next_unwrap]. apply (p_invert L); auto. intros. unfold t_mul.
      apply b_val; [reflexivity|]. now apply a_ret. }
    intros [items tw] [items' tw'] Hit. cbn [fst] in Hit. apply r_lift with (P := any); [exact Hit|].
    intros e e' _. apply r_bind with (P := fun r r' => length (poprf_batch_messages r) = length (poprf_batch_messages r')).
    { apply r_unwrap. unfold t_poprf_server_batch_blind_evaluate_finish. cbv zeta. apply r_lift with (P := any); [now apply a_val|].
      intros k k' _. apply r_bind with (P := any).
      - now apply (p_prove L).
      - intros pr pr' t t' _. rewrite !seen_lift. apply a_ret. reflexivity. }
    intros r r' t t' Hr. apply r_lift with (P := any).
    { destruct (poprf_batch_messages r), (poprf_batch_messages r'); try discriminate; cbn [hd_error unwrap_opt].
      - right; left. split; [|split]; try reflexivity; now intros [? ?].
      - left. eexists _, _. repeat split. }
    intros. rewrite !seen_lift. now apply a_ret.
Qed.

(** Evaluating many. *)
Theorem C60_batch_blind_evaluate_work : forall (CS : CipherSuite), SuiteLaws CS ->
  forall (bs bs' : list (BlindedElement CS)), length bs = length bs' ->
  forall (R : Rng) (st st' : rng_state R), sampling_ends (CSGroup CS) R st -> sampling_ends (CSGroup CS) R st' ->
  (forall s s' : VoprfServer CS,
     alike [] (seen (t_voprf_server_batch_blind_evaluate CS s R bs st)) (seen (t_voprf_server_batch_blind_evaluate CS s' R bs' st'))) /\
  (forall (s s' : PoprfServer CS) (i i' : option bytes), len (info_or_default i) = len (info_or_default i') ->
     alike [ZeroTweak] (seen (t_poprf_server_batch_blind_evaluate CS s R bs i st)) (seen (t_poprf_server_batch_blind_evaluate CS s' R bs' i' st'))).
Proof.
  intros CS L bs bs' Hl R st st' Hs Hs'.
  assert (Hall : forall ws A A' (f : BlindedElement CS -> tr A) (f' : BlindedElement CS -> tr A'), (forall x y, al ws any (f x) (f' y)) ->
     Forall2 (al ws any) (map f bs) (map f' bs')).
  { intros ws A A' f f' H. clear Hs Hs'. revert bs' Hl. induction bs as [|b bs0 IH]; intros [|b' bs'] Hl; try discriminate; constructor; auto. }
  assert (Hlen : forall A A' (l : list A) (l' : list A'), Forall2 any l l' -> length l = length l').
  { intros A A' l l' H. induction H; cbn [length]; congruence. }
  split.
  - intros s s'. apply (al_alike [] any). unfold t_voprf_server_batch_blind_evaluate.
    apply r_lift with (P := Forall2 any).
    { apply al_collect, Hall. intros x y. unfold t_mul. apply b_val; [reflexivity|]. now apply a_ret. }
    intros es es' He. apply Hlen in He. apply r_bind with (P := any).
    { unfold t_voprf_server_batch_blind_evaluate_finish. apply r_bind with (P := any).
      - apply (p_prove L); auto; rewrite !map_length; auto.
      - intros pr pr' t t' _. rewrite !seen_lift. now apply a_ret. }
    intros. rewrite !seen_lift. now apply a_ret.
  - intros s s' i i' Hi. apply (al_alike _ any). unfold t_poprf_server_batch_blind_evaluate.
    apply r_lift with (P := fun x x' => Forall2 (al [ZeroTweak] any) (fst x) (fst x')).
    { unfold t_poprf_server_batch_blind_evaluate_prepare. eapply al_bind; [apply (p_tweak L); [now left|exact Hi]|].
      intros tw tw' _ _ [Hz Hz']. apply a_ret. cbn [fst]. apply Hall. intros x y. apply (p_invert L); auto. intros. unfold t_mul.
      apply b_val; [reflexivity|]. now apply a_ret. }
    intros [items tw] [items' tw'] Hit. cbn [fst] in Hit. apply r_lift with (P := Forall2 any); [now apply al_collect|].
    intros es es' He. apply Hlen in He. apply r_bind with (P := any).
    { apply r_unwrap. unfold t_poprf_server_batch_blind_evaluate_finish. cbv zeta. apply r_lift with (P := any); [now apply a_val|].
      intros k k' _. apply r_bind with (P := any).
      - apply (p_prove L); auto; rewrite !map_length; auto.
      - intros pr pr' t t' _. rewrite !seen_lift. now apply a_ret. }
    intros. rewrite !seen_lift. now apply a_ret.
Qed.

(** Evaluating an input: inputs of the same length, and info strings both
    absent, or both present and of the same length. *)
Theorem C60_evaluate_work : forall (CS : CipherSuite), SuiteLaws CS ->
  forall (x y : bytes) (i i' : option bytes), len x = len y ->
  match i, i' with Some a, Some b => len a = len b | None, None => True | _, _ => False end ->
  (forall s s' : OprfServer CS, alike [IdentityInput] (t_oprf_server_evaluate CS s x) (t_oprf_server_evaluate CS s' y)) /\
  (forall s s' : VoprfServer CS, alike [IdentityInput] (t_voprf_server_evaluate CS s x) (t_voprf_server_evaluate CS s' y)) /\
  (forall s s' : PoprfServer CS, alike [IdentityInput; ZeroTweak] (t_poprf_server_evaluate CS s x i) (t_poprf_server_evaluate CS s' y i')).
Proof.
  intros CS L x y i i' Hx Hi. split; [|split]; intros s s'; apply (al_alike _ any).
  - apply (p_evaluate L); auto. now left.
  - apply (p_evaluate L); auto. now left.
  - unfold t_poprf_server_evaluate. eapply al_bind; [now apply (p_hash_to_group L)|]. intros e e' _ _ _. unfold t_is_identity.
    apply b_assoc. apply b_val; [reflexivity|]. apply b_test; [now left| |intros _; exists true; split; apply fail_fails].
    intros []; [apply a_fail|]. eapply al_bind; [apply (p_tweak L); [now right; left|]|].
    + destruct i, i'; try contradiction; auto.
    + intros tw tw' _ _ [Hz Hz']. apply (p_invert L); auto. intros k k'. unfold t_mul, t_ser. apply b_val; [reflexivity|].
      apply b_val; [reflexivity|]. apply p_hash_input; auto. now rewrite !(serialize_elem_len _ (group_laws L)).
Qed.

(** *** Cases *)

(** Blinding "hello" and "world" with different RNG states does the same. *)
Example C60_case_blind :
  let what := [Draw; ToCurve [5] [21; 6]; MulElem] in
  snd (t_oprf_client_blind TS CtrRng ex_input 17%N) = what /\
  snd (t_oprf_client_blind TS CtrRng (bstr "world") 99%N) = what /\
  sampling_ends (CSGroup TS) CtrRng 17%N /\ sampling_ends (CSGroup TS) CtrRng 99%N.
Proof.
  split; [|split; [|split]]; try (vm_compute; reflexivity); unfold sampling_ends; vm_compute; discriminate.
Qed.

(** So does evaluating them with different keys, and finalizing with different
    blinding factors and messages. *)
Example C60_case_evaluate :
  let what := [ToCurve [5] [21; 6]; CompareElem; Test IdentityInput false; MulElem; Serialize; Test TooLong false;
               Update 2; Update 5; Test TooLong false; Update 2; Update 1; Update 8; Finish] in
  snd (t_oprf_server_evaluate TS (mkOprfServer (ex_scalar 5)) ex_input) = what /\
  snd (t_oprf_server_evaluate TS (mkOprfServer (ex_scalar 77)) (bstr "world")) = what /\
  let what := [Invert; MulElem; Test TooLong false; Update 2; Update 5; Update 2; Serialize; Update 1; Update 8; Finish] in
  snd (t_oprf_client_finalize TS (mkOprfClient (ex_scalar 5)) ex_input (mkEvaluation (ex_elem 3))) = what /\
  snd (t_oprf_client_finalize TS (mkOprfClient (ex_scalar 6)) (bstr "world") (mkEvaluation (ex_elem 4))) = what.
Proof. cbv zeta. split; [|split; [|split]]; vm_compute; reflexivity. Qed.

(** With the key 22 and no info the tweaked key is zero, with 23 it is not: the
    calls part there. *)
Example C60_case_part :
  let call k := t_poprf_server_blind_evaluate TS (mkPoprfServer (ex_scalar k) (ex_elem k)) CtrRng (mkBlinded (ex_elem 3)) None 17%N in
  part_at ZeroTweak (snd (call 22%Z)) (snd (call 23%Z)) /\ ~ succeeds (seen (call 22%Z)) /\ succeeds (seen (call 23%Z)).
Proof.
  cbv zeta. split; [|split].
  - exists [Test TooLong false; ToScalar [4; 2; 0] [22; 6]; AddScalar; CheckZero], true. eexists _, _.
    split; vm_compute; reflexivity.
  - intros [a Ha]. apply (f_equal (fun r => match r with Ok _ => true | _ => false end)) in Ha. vm_compute in Ha. discriminate.
  - match goal with |- succeeds ?m => destruct (fst m) as [a|e| |] eqn:E; [now exists a| | |] end; exfalso;
      apply (f_equal (fun r : outcome Error _ => match r with Ok _ => true | _ => false end)) in E; vm_compute in E; discriminate.
Qed.

(** Batches of two, with different keys and elements. *)
Example C60_case_batch :
  let call s := t_voprf_server_batch_blind_evaluate TS (mkVoprfServer (ex_scalar s) (ex_elem s)) CtrRng in
  snd (call 5%Z [mkBlinded (ex_elem 3); mkBlinded (ex_elem 4)] 17%N) = snd (call 9%Z [mkBlinded (ex_elem 8); mkBlinded (ex_elem 8)] 60%N) /\
  length (filter (fun e => match e with MulElem => true | _ => false end)
            (snd (call 5%Z [mkBlinded (ex_elem 3); mkBlinded (ex_elem 4)] 17%N))) = 7%nat.
Proof. cbv zeta. split; vm_compute; reflexivity. Qed.
