(** * C61: what a batch costs.

    How many operations of each kind the calls of [Trace] make, for every
    number of elements. *)
From Verif Require Import Laws Spec Trace TraceFacts PropCorrectness PropTrace Zq.
From Coq Require Import Lia.

(** ** Specification *)

(** The operations that dominate the running time. *)
Inductive kind : Set := Mul | Add | Inv | HashToScalar | HashToCurve | Random | Ser.
Definition is (k : kind) (e : event) : bool :=
  match k, e with
  | Mul, MulElem | Add, AddElem | Inv, Invert | HashToScalar, ToScalar _ _ | HashToCurve, ToCurve _ _
  | Random, Draw | Ser, Serialize => true
  | _, _ => false
  end.
Definition times (k : kind) (t : list event) : nat := length (filter (is k) t).

(** [mul] multiplications and [add] additions of elements, [inv] inversions,
    [hs] scalars and [hc] elements hashed, [rnd] scalars drawn, [ser] elements
    serialized. *)
Definition budget (mul add inv hs hc rnd ser : nat) (k : kind) : nat :=
  match k with
  | Mul => mul | Add => add | Inv => inv | HashToScalar => hs | HashToCurve => hc | Random => rnd | Ser => ser
  end.

(** A call never does more; if it succeeds it does exactly this. *)
Definition costs {A} (m : tr A) (b : kind -> nat) : Prop :=
  forall k, (times k (snd m) <= b k)%nat /\ (succeeds m -> times k (snd m) = b k).
(** Only the bound. *)
Definition costs_at_most {A} (m : tr A) (b : kind -> nat) : Prop :=
  forall k, (times k (snd m) <= b k)%nat.

(** ** Proofs *)
Lemma times_app k a b : times k (a ++ b) = (times k a + times k b)%nat.
Proof. unfold times. now rewrite filter_app, app_length. Qed.

Definition sum (a b : kind -> nat) (k : kind) : nat := (a k + b k)%nat.
Definition none : kind -> nat := budget 0 0 0 0 0 0 0.
Definition one (k : kind) : kind -> nat :=
  fun k' => match k, k' with
            | Mul, Mul | Add, Add | Inv, Inv | HashToScalar, HashToScalar | HashToCurve, HashToCurve
            | Random, Random | Ser, Ser => 1%nat
            | _, _ => 0%nat
            end.

Lemma costs_eq {A} (m : tr A) a b : (forall k, a k = b k) -> costs m a -> costs m b.
Proof. intros E H k. rewrite <- E. apply H. Qed.
Lemma c_bind {A B} (m : tr A) (f : A -> tr B) a b : costs m a ->
  (forall x, fst m = Ok x -> costs (f x) b) -> costs (tbind m f) (sum a b).
Proof.
  intros Hm Hf k. unfold sum. destruct (Hm k) as [L E]. unfold tbind. destruct (fst m) as [x|e| |] eqn:F.
  - cbn [snd]. rewrite times_app. destruct (Hf x eq_refl k) as [L' E']. split; [lia|]. intros [y Hy]. cbn [fst] in Hy.
    rewrite E, E'; auto; [now exists y|]. exists x. exact F.
  - cbn [snd]. split; [lia|]. intros [? ?]. discriminate.
  - cbn [snd]. split; [lia|]. intros [? ?]. discriminate.
  - cbn [snd]. split; [lia|]. intros [? ?]. discriminate.
Qed.
Lemma c_none {A} (r : res A) : costs (tpure r) none.
Proof. intros []; split; auto. Qed.
Lemma c_ret {A} (a : A) : costs (tret a) none.
Proof. apply c_none. Qed.
(* a call that fails at once costs nothing, so fits in any budget *)
Lemma c_fail {A} e b : costs (@tfail A e) b.
Proof. intros k. split; [cbn; lia|]. intros [? ?]. discriminate. Qed.
Lemma c_event {A} k e (r : res A) : is k e = true -> costs (top e r) (one k).
Proof. intros H k'. unfold top, times. cbn [snd filter]. destruct k, e, k'; try discriminate; cbn; auto. Qed.
Lemma c_silent {A} e (r : res A) : (forall k, is k e = false) -> costs (top e r) none.
Proof. intros H k. unfold top, times. cbn [snd filter]. rewrite H. cbn. unfold none. destruct k; auto. Qed.

(* the rest of the budget is left for the continuation *)
Lemma c_sub {A B} (m : tr A) (f : A -> tr B) a c : costs m a -> (forall k, (a k <= c k)%nat) ->
  (forall x, fst m = Ok x -> costs (f x) (fun k => (c k - a k)%nat)) -> costs (tbind m f) c.
Proof. intros Hm Hl Hf. apply (costs_eq _ (sum a (fun k => (c k - a k)%nat))); [intros k; unfold sum; specialize (Hl k); lia|]. now apply c_bind. Qed.
Lemma c_end {A} (m : tr A) a c : costs m a -> (forall k, a k = c k) -> costs m c.
Proof. intros Hm E. now apply (costs_eq _ a). Qed.

Ltac budgets := let k := fresh in intros k; destruct k; cbn -[Nat.mul Nat.sub Nat.add]; lia.

Section Cost.
Context (CS : CipherSuite).
Local Notation G := (CSGroup CS).

Lemma c_mul e k : costs (t_mul CS e k) (one Mul). Proof. now apply c_event. Qed.
Lemma c_add a b : costs (t_add CS a b) (one Add). Proof. now apply c_event. Qed.
Lemma c_ser e : costs (t_ser CS e) (one Ser). Proof. now apply c_event. Qed.
Lemma c_invert k : costs (t_invert CS k) (one Inv). Proof. now apply c_event. Qed.
Lemma c_finish h : costs (t_finish CS h) none. Proof. apply c_silent; intros k; destruct k; reflexivity. Qed.
Lemma c_update h d : costs (t_update h d) none. Proof. apply (c_silent (Update (len d)) (Ok _)); intros k; destruct k; reflexivity. Qed.
Lemma c_to_scalar p d : costs (t_to_scalar CS p d) (one HashToScalar). Proof. now apply c_event. Qed.
Lemma c_test w b : costs (task w b) none. Proof. apply (c_silent (Test w b) (Ok b)). intros k; destruct k; reflexivity. Qed.
Lemma c_i2osp n e : costs (t_i2osp_2 n e) none.
Proof. unfold t_i2osp_2. apply (c_sub _ _ none); [apply c_test|budgets|]. intros [] _; [apply c_fail|]. eapply c_end; [apply c_ret|budgets]. Qed.
Lemma c_update_multi ds : forall h, costs (t_update_multi h ds) none.
Proof.
  induction ds as [|d ds IH]; intros h; [apply c_ret|]. cbn [t_update_multi].
  apply (c_sub _ _ none); [apply c_update|budgets|]. intros x _. eapply c_end; [apply IH|budgets].
Qed.
Lemma c_is_identity e w : costs (t_is_identity CS e w) none.
Proof.
  unfold t_is_identity. apply (c_sub _ _ none); [apply (c_silent CompareElem (Ok _)); intros k; destruct k; reflexivity|budgets|].
  intros x _. eapply c_end; [apply c_test|budgets].
Qed.
Lemma c_is_zero e w : costs (t_is_zero CS e w) none.
Proof.
  unfold t_is_zero. apply (c_sub _ _ none); [apply (c_silent CheckZero (Ok _)); intros k; destruct k; reflexivity|budgets|].
  intros x _. eapply c_end; [apply c_test|budgets].
Qed.

Ltac part := first
  [ apply c_mul | apply c_add | apply c_ser | apply c_invert | apply c_finish | apply c_update | apply c_to_scalar
  | apply c_test | apply c_i2osp | apply c_update_multi | apply c_is_identity | apply c_is_zero | apply c_ret | apply c_none
  | (eapply (c_silent _ (Ok _)); let k := fresh in intros k; destruct k; reflexivity) ].
Ltac spend := eapply c_sub; [solve [part]|solve [budgets]|intros ? _; cbv zeta].
Ltac ending := eapply c_end; [solve [part]|solve [budgets]].

Lemma c_hash_to_group x mode : costs (t_hash_to_group CS x mode) (one HashToCurve).
Proof. unfold t_hash_to_group. spend. eapply c_end; [now apply (c_event HashToCurve)|budgets]. Qed.
Lemma c_blind x b mode : costs (t_deterministic_blind_unchecked CS x b mode) (budget 1 0 0 0 1 0 0).
Proof. unfold t_deterministic_blind_unchecked. eapply c_sub; [apply c_hash_to_group|budgets|intros ? _]. ending. Qed.

Definition per_item (k : option (scalar CS)) : kind -> nat :=
  match k with Some _ => budget 1 1 0 1 0 0 2 | None => budget 2 2 0 1 0 0 2 end.
Lemma c_step k seed mode acc item : costs (t_composite_step CS k seed mode acc item) (per_item k).
Proof.
  destruct acc as [m z], item as [i [c d]]. unfold t_composite_step. destruct k; cbn [per_item].
  - do 7 spend. ending.
  - do 6 spend. eapply c_sub with (a := budget 1 1 0 0 0 0 0); [|budgets|intros ? _; ending]. spend. ending.
Qed.
Lemma c_loop k seed mode items : forall acc,
  costs (t_composite_loop CS k seed mode acc items) (fun j => (length items * per_item k j)%nat).
Proof.
  induction items as [|item items IH]; intros acc; [eapply c_end; [apply c_ret|intros []; reflexivity]|]. cbn [t_composite_loop].
  eapply c_sub; [apply c_step|intros j; cbn [length]; lia|]. intros acc' _. eapply c_end; [apply IH|]. intros j. cbn [length]. lia.
Qed.
Lemma c_seed b dst : costs (t_composite_seed CS b dst) (one Ser).
Proof. unfold t_composite_seed. do 6 spend. ending. Qed.
Lemma u16_range_len n : length (u16_range n) = N.to_nat n.
Proof. unfold u16_range. now rewrite map_length, seq_length. Qed.
Lemma c_composites_some s b cs ds mode : let n := length cs in
  costs (t_compute_composites CS (Some s) b cs ds mode) (budget (n + 1) n 0 n 0 0 (2 * n + 1)).
Proof.
  intros n. unfold t_compute_composites. eapply c_sub; [apply c_test|budgets|]. intros [] E; [apply c_fail|].
  assert (Hl : length ds = n). { cbn [task fst] in E. injection E as E. apply Bool.negb_false_iff, N.eqb_eq in E. unfold len in E. lia. }
  eapply c_sub; [apply c_test|budgets|]. intros [] _; [apply c_fail|]. spend. eapply c_sub; [apply c_seed|budgets|intros ? _].
  eapply c_sub; [apply c_loop| |].
  - rewrite !combine_length, u16_range_len. unfold len. intros k. destruct k; cbn; lia.
  - intros [m z] _. rewrite !combine_length, u16_range_len. unfold len. spend. eapply c_end; [apply c_ret|]. intros k. destruct k; cbn; lia.
Qed.
Lemma c_composites_none b cs ds mode : let n := length cs in
  costs (t_compute_composites CS None b cs ds mode) (budget (2 * n) (2 * n) 0 n 0 0 (2 * n + 1)).
Proof.
  intros n. unfold t_compute_composites. eapply c_sub; [apply c_test|budgets|]. intros [] E; [apply c_fail|].
  assert (Hl : length ds = n). { cbn [task fst] in E. injection E as E. apply Bool.negb_false_iff, N.eqb_eq in E. unfold len in E. lia. }
  eapply c_sub; [apply c_test|budgets|]. intros [] _; [apply c_fail|]. spend. eapply c_sub; [apply c_seed|budgets|intros ? _].
  eapply c_sub; [apply c_loop| |].
  - rewrite !combine_length, u16_range_len. unfold len. intros k. destruct k; cbn; lia.
  - intros [m z] _. rewrite !combine_length, u16_range_len. unfold len. spend. eapply c_end; [apply c_ret|]. intros k. destruct k; cbn; lia.
Qed.
Lemma c_challenge b m z t2 t3 mode : costs (t_challenge CS b m z t2 t3 mode) (budget 0 0 0 1 0 0 5).
Proof. unfold t_challenge. do 6 spend. ending. Qed.
Lemma c_verify a b cs ds p mode : let n := length cs in
  costs (t_verify_proof CS a b cs ds p mode) (budget (2 * n + 4) (2 * n + 2) 0 (n + 1) 0 0 (2 * n + 6)).
Proof.
  intros n. unfold t_verify_proof. eapply c_sub; [apply c_composites_none|budgets|]. intros [m z] _. do 6 spend.
  eapply c_sub; [apply c_challenge|budgets|intros ? _]. spend. eapply c_sub; [apply c_test|budgets|]. intros [] _; [ending|apply c_fail].
Qed.
Lemma c_evaluate sk x mode : costs (t_evaluate CS sk x mode) (budget 1 0 0 0 1 0 1).
Proof.
  unfold t_evaluate. eapply c_sub; [apply c_hash_to_group|budgets|intros ? _]. eapply c_sub; [apply c_is_identity|budgets|]. intros [] _; [apply c_fail|].
  do 2 spend. unfold t_server_evaluate_hash_input. do 3 spend. eapply c_sub with (a := none); [apply c_ret|budgets|intros ? _]. do 4 spend. ending.
Qed.
Lemma c_tweak sk i : costs (t_compute_tweak CS sk i) (one HashToScalar).
Proof.
  unfold t_compute_tweak. cbv zeta. do 4 spend. eapply c_sub; [apply c_is_zero|budgets|]. intros [] _; [apply c_fail|ending].
Qed.
Lemma c_tweaked_key pk i : costs (t_compute_tweaked_key CS pk i) (budget 1 1 0 1 0 0 0).
Proof.
  unfold t_compute_tweaked_key. cbv zeta. do 5 spend. eapply c_sub; [apply c_is_identity|budgets|]. intros [] _; [apply c_fail|ending].
Qed.
Lemma c_finalize_one x e : costs (t_finalize_one CS x e) (one Ser).
Proof. unfold t_finalize_one. do 7 spend. ending. Qed.
Lemma c_poprf_finalize_one e x i : costs (t_poprf_finalize_one CS e x i) (one Ser).
Proof. unfold t_poprf_finalize_one. do 10 spend. ending. Qed.
Lemma c_unblind_one b x : costs (t_unblind_one CS b x) (budget 1 0 1 0 0 0 0).
Proof. unfold t_unblind_one. spend. ending. Qed.
Lemma c_collect {A} (items : list (tr A)) b : Forall (fun m => costs m b) items ->
  costs (t_collect items) (fun k => (length items * b k)%nat).
Proof.
  induction 1 as [|m items H _ IH]; [eapply c_end; [apply c_ret|intros []; reflexivity]|]. cbn [t_collect]. eapply c_sub; [exact H|intros k; cbn [length]; lia|intros a _].
  eapply c_sub; [exact IH|intros k; cbn [length]; lia|intros l _]. eapply c_end; [apply c_ret|]. intros k. cbn [length]. unfold none. destruct k; cbn; lia.
Qed.

Lemma collected {A} (items : list (tr A)) : forall l, fst (t_collect items) = Ok l -> length l = length items.
Proof.
  induction items as [|m items IH]; intros l E; cbn [t_collect] in E; [now injection E as <-|]. rewrite fst_tbind in E.
  destruct (fst m); try discriminate. cbn [bind] in E. rewrite fst_tbind in E. destruct (fst (t_collect items)) as [r|e| |]; try discriminate.
  cbn [bind fst tret] in E. injection E as <-. cbn [length]. f_equal. now apply IH.
Qed.

(* with an RNG *)
Lemma cr_sub {A B T} (m : rtr T A) (f : A -> rtr T B) s a c : costs (seen (m s)) a -> (forall k, (a k <= c k)%nat) ->
  (forall x t, fst (seen (m s)) = Ok x -> costs (seen (f x t)) (fun k => (c k - a k)%nat)) -> costs (seen (rtbind m f s)) c.
Proof.
  intros Hm Hl Hf.
  assert (E : seen (rtbind m f s) = tbind (seen (m s)) (fun a => seen (f a (snd (fst (m s)))))).
  { unfold rtbind, tbind, seen. cbn [fst snd]. destruct (fst (fst (m s))); reflexivity. }
  rewrite E. eapply c_sub; [exact Hm|exact Hl|]. intros x Hx. now apply Hf.
Qed.
Lemma cr_unwrap {A T} (m : rtr T A) s b : costs (seen (m s)) b -> costs (seen (rtunwrap m s)) b.
Proof.
  intros H k. destruct (H k) as [L E]. split; [exact L|]. intros [a Ha]. apply E. unfold seen, rtunwrap in *. cbn [fst snd] in *.
  destruct (fst (fst (m s))) as [x|e| |]; cbn [unwrap] in Ha; try discriminate. now exists x.
Qed.
Lemma c_draw R st : costs (seen (t_random_scalar CS R st)) (one Random).
Proof. unfold t_random_scalar, seen. cbn [fst snd]. now apply (c_event Random Draw). Qed.
Lemma c_prove R k a b cs ds mode st : let n := length cs in
  costs (seen (t_generate_proof CS R k a b cs ds mode st)) (budget (n + 3) n 0 (n + 1) 0 1 (2 * n + 6)).
Proof.
  intros n. unfold t_generate_proof. eapply cr_sub; [rewrite seen_lift; apply c_composites_some|budgets|]. intros [m z] t _.
  eapply cr_sub; [apply c_draw|budgets|]. intros r t' _. rewrite seen_lift. do 2 spend.
  eapply c_sub; [apply c_challenge|budgets|intros ? _]. do 2 spend. ending.
Qed.

Lemma c_derive_loop seed il info dst cs : costs_at_most (t_derive_key_loop CS seed il info dst cs) (budget 0 0 0 (length cs) 0 0 0).
Proof.
  induction cs as [|c cs IH]; [intros k; cbn; lia|]. intros k. cbn [t_derive_key_loop length].
  unfold tbind at 1. cbn [top fst snd]. destruct (map_err _ _) as [sk|e| |]; cbn [snd]; try (destruct k; cbn; lia).
  rewrite times_app. cbn [fst snd]. specialize (IH k). unfold tbind. cbn [fst snd task t_is_zero tval tbind].
  destruct (is_zero_scalar G sk); cbn [negb fst snd]; rewrite ?times_app; destruct k; cbn in *; lia.
Qed.
Lemma at_most_bind {A B} (m : tr A) (f : A -> tr B) a b c : costs_at_most m a -> (forall x, costs_at_most (f x) b) ->
  (forall k, (a k + b k <= c k)%nat) -> costs_at_most (tbind m f) c.
Proof.
  intros Hm Hf Hl k. specialize (Hm k). specialize (Hl k). unfold tbind. destruct (fst m) as [x|e| |]; cbn [snd]; try lia.
  rewrite times_app. specialize (Hf x k). lia.
Qed.
Lemma at_most {A} (m : tr A) b : costs m b -> costs_at_most m b.
Proof. intros H k. apply H. Qed.
Lemma c_derive seed i mode : costs_at_most (t_derive_key_internal CS seed i mode) (budget 0 0 0 256 0 0 0).
Proof.
  unfold t_derive_key_internal. apply (at_most_bind _ _ none (budget 0 0 0 256 0 0 0)); [apply at_most, c_none| |intros k; destruct k; cbv; lia].
  intros dst. apply (at_most_bind _ _ none (budget 0 0 0 256 0 0 0)); [apply at_most, c_i2osp| |intros k; destruct k; cbv; lia].
  intros il. assert (E : length u8_range_inclusive = 256%nat) by (vm_compute; reflexivity). rewrite <- E. apply c_derive_loop.
Qed.
Lemma c_derive_seen {A} R (f : bytes -> tr A) (st : rng_state R) b : (forall seed, costs_at_most (f seed) b) ->
  costs_at_most (seen (rtbind (t_fill CS R) (fun seed => tlift (f seed)) st)) b.
Proof.
  intros Hf k. unfold rtbind, t_fill, seen. destruct (fill_bytes R st _) as [seed s]. cbn [fst snd tlift].
  rewrite times_app. specialize (Hf seed k). destruct k; cbn -[times] in *; exact Hf.
Qed.
End Cost.

(** ** C61 *)

(** A session: blinding, and finalizing in the base mode. *)
Theorem C61_client_cost : forall CS : CipherSuite,
  (forall (R : Rng) (x : bytes) (st : rng_state R),
     costs (seen (t_oprf_client_blind CS R x st)) (budget 1 0 0 0 1 1 0) /\
     costs (seen (t_voprf_client_blind CS R x st)) (budget 1 0 0 0 1 1 0) /\
     costs (seen (t_poprf_client_blind CS R x st)) (budget 1 0 0 0 1 1 0)) /\
  (forall (c : OprfClient CS) (x : bytes) (ev : EvaluationElement CS),
     costs (t_oprf_client_finalize CS c x ev) (budget 1 0 1 0 0 0 1)).
Proof.
  intros CS. split.
  - intros R x st.
    assert (H : forall A (f : scalar CS -> elem CS -> A) mode,
      costs (seen (rtbind (t_random_scalar CS R) (fun b => tlift (tbind (t_deterministic_blind_unchecked CS x b mode) (fun e => tret (f b e)))) st))
        (budget 1 0 0 0 1 1 0)).
    { intros A f mode. eapply cr_sub; [apply c_draw|budgets|]. intros b t _. rewrite seen_lift. eapply c_sub; [apply c_blind|budgets|intros ? _].
      eapply c_end; [apply c_ret|budgets]. }
    split; [|split]; apply H.
  - intros c x ev. unfold t_oprf_client_finalize. eapply c_sub; [apply c_invert|budgets|intros ? _]. eapply c_sub; [apply c_mul|budgets|intros ? _].
    cbn [t_next_unwrap]. eapply c_end; [apply c_finalize_one|budgets].
Qed.

(** Finalizing [n] sessions at once, with all outputs computed: one proof is
    checked, at a cost of [n] weights, [2 n + 4] multiplications and
    [2 n + 2] additions, and each output costs one inversion and one
    multiplication. *)
Theorem C61_batch_finalize_cost : forall (CS : CipherSuite) (xs : list bytes) (evs : list (EvaluationElement CS)) (p : Proof CS) (pk : elem CS)
    (i : option bytes) (n : nat),
  length xs = n -> length evs = n ->
  (forall cs : list (VoprfClient CS), length cs = n ->
     costs (tbind (t_voprf_client_batch_finalize CS xs cs evs p pk) t_collect) (budget (3 * n + 4) (2 * n + 2) n (n + 1) 0 0 (3 * n + 6))) /\
  (forall cs : list (PoprfClient CS), length cs = n ->
     costs (tbind (t_poprf_client_batch_finalize CS xs cs evs p pk i) t_collect) (budget (3 * n + 5) (2 * n + 3) n (n + 2) 0 0 (3 * n + 6))).
Proof.
  intros CS xs evs p pk i n Hx He.
  assert (Hs : forall A B C (m : tr A) (g : A -> tr B) (f : B -> tr C), tbind (tbind m g) f = tbind m (fun a => tbind (g a) f)).
  { clear. intros X Y Z m g f. unfold tbind. destruct (fst m) as [a|e| |] eqn:E; cbn [fst snd]; auto.
    destruct (fst (g a)) eqn:E'; cbn [fst snd]; auto. now rewrite app_assoc. }
  split; intros cs Hc.
  - unfold t_voprf_client_batch_finalize. rewrite Hs. eapply c_sub; [apply c_verify| |].
    { rewrite map_length, Hc. budgets. }
    rewrite map_length, Hc. intros u _. eapply c_sub; [apply c_ret|budgets|]. intros items E. cbn [tret fst] in E. injection E as <-.
    eapply c_end; [apply c_collect with (b := budget 1 0 1 0 0 0 1)|].
    + apply Forall_map, Forall_forall. intros [x [b e]] _. eapply c_sub; [apply c_unblind_one|budgets|intros ? _]. eapply c_end; [apply c_finalize_one|budgets].
    + rewrite map_length, !combine_length, map_length. rewrite Hx, He, Hc, !Nat.min_id. budgets.
  - unfold t_poprf_client_batch_finalize. rewrite Hs. eapply c_sub; [apply c_tweaked_key|budgets|]. intros tk _. cbv zeta. rewrite Hs.
    eapply c_sub; [apply c_verify| |].
    { rewrite map_length, He. budgets. }
    rewrite map_length, He. intros u _. rewrite Hs. eapply c_sub; [apply c_test|budgets|]. intros [] _; [apply c_fail|].
    eapply c_sub; [apply c_ret|budgets|]. intros items E. cbn [tret fst] in E. injection E as <-.
    eapply c_end; [apply c_collect with (b := budget 1 0 1 0 0 0 1)|].
    + rewrite Forall_map, Forall_forall. intros [m x] Hin. apply in_combine_l, in_map_iff in Hin. destruct Hin as ([b e] & <- & _).
      eapply c_sub; [apply c_unblind_one|budgets|intros ? _]. eapply c_end; [apply c_poprf_finalize_one|budgets].
    + rewrite map_length, !combine_length, map_length, combine_length, map_length. rewrite Hx, He, Hc, !Nat.min_id. budgets.
Qed.

(** The server: one multiplication for a base-mode element; [n] elements with
    one proof; direct evaluation of an input; and new servers. *)
Theorem C61_server_cost : forall CS : CipherSuite,
  (forall (s : OprfServer CS) (b : BlindedElement CS),
     costs (t_oprf_server_blind_evaluate CS s b) (budget 1 0 0 0 0 0 0)) /\
  (forall (R : Rng) (st : rng_state R) (bs : list (BlindedElement CS)), let n := length bs in
     (forall s : VoprfServer CS,
        costs (seen (t_voprf_server_batch_blind_evaluate CS s R bs st)) (budget (2 * n + 3) n 0 (n + 1) 0 1 (2 * n + 6))) /\
     (forall (s : PoprfServer CS) (i : option bytes),
        costs (seen (t_poprf_server_batch_blind_evaluate CS s R bs i st)) (budget (2 * n + 4) n n (n + 2) 0 1 (2 * n + 6)))) /\
  (forall (x : bytes) (i : option bytes),
     (forall s : OprfServer CS, costs (t_oprf_server_evaluate CS s x) (budget 1 0 0 0 1 0 1)) /\
     (forall s : VoprfServer CS, costs (t_voprf_server_evaluate CS s x) (budget 1 0 0 0 1 0 1)) /\
     (forall s : PoprfServer CS, costs (t_poprf_server_evaluate CS s x i) (budget 1 0 1 1 1 0 1))).
Proof.
  intros CS. split; [|split].
  - intros s b. unfold t_oprf_server_blind_evaluate. eapply c_sub; [apply c_mul|budgets|intros ? _]. eapply c_end; [apply c_ret|budgets].
  - intros R st bs n. split.
    + intros s. unfold t_voprf_server_batch_blind_evaluate. eapply cr_sub; [rewrite seen_lift; apply c_collect with (b := budget 1 0 0 0 0 0 0)| |].
      { apply Forall_map, Forall_forall. intros b _. eapply c_sub; [apply c_mul|budgets|intros ? _]. eapply c_end; [apply c_ret|budgets]. }
      { unfold t_voprf_server_batch_blind_evaluate_prepare. rewrite map_length. fold n. budgets. }
      unfold t_voprf_server_batch_blind_evaluate_prepare. rewrite map_length. fold n. intros es t _.
      eapply cr_sub with (a := budget (n + 3) n 0 (n + 1) 0 1 (2 * n + 6)).
      { unfold t_voprf_server_batch_blind_evaluate_finish. eapply cr_sub; [apply c_prove| |]; rewrite map_length; fold n; [budgets|].
        intros pr t' _. rewrite seen_lift. eapply c_end; [apply c_ret|budgets]. }
      { budgets. }
      intros r t' _. rewrite seen_lift. eapply c_end; [apply c_ret|budgets].
    + intros s i. unfold t_poprf_server_batch_blind_evaluate. eapply cr_sub with (a := one HashToScalar).
      { rewrite seen_lift. unfold t_poprf_server_batch_blind_evaluate_prepare. eapply c_sub; [apply c_tweak|budgets|intros ? _].
        eapply c_end; [apply c_ret|budgets]. }
      { budgets. }
      intros [items tw] t E.
      assert (Hit : Forall (fun m => costs m (budget 1 0 1 0 0 0 0)) items /\ length items = n).
      { rewrite seen_lift in E. unfold t_poprf_server_batch_blind_evaluate_prepare in E. rewrite fst_tbind in E.
        destruct (fst (t_compute_tweak CS (poprf_sk s) i)); try discriminate. cbn [bind fst tret] in E. injection E as <- <-. split; [|apply map_length].
        apply Forall_map, Forall_forall. intros b _. eapply c_sub; [apply c_invert|budgets|intros ? _]. eapply c_sub; [apply c_mul|budgets|intros ? _].
        eapply c_end; [apply c_ret|budgets]. }
      destruct Hit as [Hc Hl]. eapply cr_sub; [rewrite seen_lift; apply c_collect; exact Hc|rewrite Hl; budgets|]. rewrite Hl. clear E. intros es t' E.
      rewrite seen_lift in E. apply collected in E. rewrite Hl in E.
      eapply cr_sub with (a := budget (n + 4) n 0 (n + 1) 0 1 (2 * n + 6)).
      { apply cr_unwrap. unfold t_poprf_server_batch_blind_evaluate_finish. cbv zeta. eapply cr_sub; [rewrite seen_lift; apply c_mul|budgets|].
        intros k t'' _. eapply cr_sub; [apply c_prove| |]; rewrite map_length, E; [budgets|].
        intros pr t3 _. rewrite seen_lift. eapply c_end; [apply c_ret|budgets]. }
      { budgets. }
      intros r t3 _. rewrite seen_lift. eapply c_end; [apply c_ret|budgets].
  - intros x i. split; [intros; apply c_evaluate|]. split; [intros; apply c_evaluate|]. intros s. unfold t_poprf_server_evaluate.
    eapply c_sub; [apply c_hash_to_group|budgets|intros ? _]. eapply c_sub; [apply c_is_identity|budgets|]. intros [] _; [apply c_fail|].
    eapply c_sub; [apply c_tweak|budgets|intros ? _]. eapply c_sub; [apply c_invert|budgets|intros ? _]. eapply c_sub; [apply c_mul|budgets|intros ? _].
    eapply c_sub; [apply c_ser|budgets|intros ? _]. unfold t_server_evaluate_hash_input.
    do 3 (eapply c_sub; [first [apply c_i2osp|apply c_update]|budgets|intros ? _]).
    eapply c_sub with (a := none); [|budgets|intros ? _].
    { destruct i; [|apply c_ret]. do 2 (eapply c_sub; [first [apply c_i2osp|apply c_update]|budgets|intros ? _]). eapply c_end; [apply c_update|budgets]. }
    do 4 (eapply c_sub; [first [apply c_i2osp|apply c_update]|budgets|intros ? _]). eapply c_end; [apply c_finish|budgets].
Qed.

(** Making a server: at most 256 candidates for the key and one multiplication. *)
Theorem C61_new_cost : forall CS : CipherSuite,
  let b := budget 1 0 0 256 0 0 0 in
  (forall seed i : bytes,
     costs_at_most (t_oprf_server_new_from_seed CS seed i) b /\
     costs_at_most (t_voprf_server_new_from_seed CS seed i) b /\
     costs_at_most (t_poprf_server_new_from_seed CS seed i) b) /\
  (forall (R : Rng) (st : rng_state R),
     costs_at_most (seen (t_oprf_server_new CS R st)) b /\
     costs_at_most (seen (t_voprf_server_new CS R st)) b /\
     costs_at_most (seen (t_poprf_server_new CS R st)) b) /\
  (forall k : bytes,
     costs_at_most (t_oprf_server_new_with_key CS k) b /\
     costs_at_most (t_voprf_server_new_with_key CS k) b /\
     costs_at_most (t_poprf_server_new_with_key CS k) b).
Proof.
  intros CS b.
  assert (Hp : forall seed i mode, costs_at_most (t_derive_keypair CS seed i mode) b).
  { intros. unfold t_derive_keypair. eapply at_most_bind; [apply c_derive| |].
    - intros sk. eapply at_most_bind with (a := one Mul) (b := none); [apply at_most, c_mul|intros; apply at_most, c_ret|].
      instantiate (1 := one Mul). intros k; destruct k; cbv; lia.
    - intros k; destruct k; cbn; lia. }
  assert (H1 : forall seed i, costs_at_most (t_oprf_server_new_from_seed CS seed i) b).
  { intros. eapply at_most_bind; [apply c_derive|intros; apply at_most, c_ret|]. intros k; destruct k; cbn; lia. }
  assert (H2 : forall seed i, costs_at_most (t_voprf_server_new_from_seed CS seed i) b).
  { intros. eapply at_most_bind with (b := none); [apply Hp|intros [? ?]; apply at_most, c_ret|]. intros k; destruct k; cbn; lia. }
  assert (H3 : forall seed i, costs_at_most (t_poprf_server_new_from_seed CS seed i) b).
  { intros. eapply at_most_bind with (b := none); [apply Hp|intros [? ?]; apply at_most, c_ret|]. intros k; destruct k; cbn; lia. }
  assert (Hd : forall key, costs_at_most (t_deserialize_scalar CS key) none).
  { intros key k. unfold t_deserialize_scalar. destruct (deserialize_scalar _ key); destruct k; cbn; lia. }
  split; [auto|]. split.
  - intros R st. assert (H : forall A (f : bytes -> tr A), (forall s, costs_at_most (f s) b) ->
      costs_at_most (seen (rtbind (t_fill CS R) (fun seed => tlift (f seed)) st)) b) by (intros; now apply c_derive_seen).
    split; [|split]; apply H; auto.
  - intros key. split; [|split].
    + eapply at_most_bind; [apply Hd|intros; apply at_most, c_ret|]. intros k; destruct k; cbn; lia.
    + eapply at_most_bind with (b := one Mul); [apply Hd| |].
      * intros sk. eapply at_most_bind with (b := none); [apply at_most, c_mul|intros; apply at_most, c_ret|]. intros k; destruct k; cbv; lia.
      * intros k; destruct k; cbn; lia.
    + eapply at_most_bind with (b := one Mul); [apply Hd| |].
      * intros sk. eapply at_most_bind with (b := none); [apply at_most, c_mul|intros; apply at_most, c_ret|]. intros k; destruct k; cbv; lia.
      * intros k; destruct k; cbn; lia.
Qed.

(** A batch of two costs less than two calls; finalizing with a proof that
    does not verify stays within the budget. *)
Example C61_case :
  let server := mkVoprfServer (ex_scalar 5) (ex_elem 5) in
  let batch bs := snd (t_voprf_server_batch_blind_evaluate TS server CtrRng bs 17%N) in
  times Mul (batch [mkBlinded (ex_elem 3); mkBlinded (ex_elem 4)]) = 7%nat /\
  times Mul (batch [mkBlinded (ex_elem 3)]) = 5%nat /\
  let forged := t_voprf_client_batch_finalize TS [ex_input] [mkVoprfClient (ex_scalar 5) (ex_elem 3)] [mkEvaluation (ex_elem 3)]
                  (mkProof (ex_scalar 5) (ex_scalar 6)) (ex_elem 9) in
  match fst forged with Err EProofVerification => true | _ => false end = true /\
  times Mul (snd forged) = 6%nat /\ times Inv (snd forged) = 0%nat.
Proof. cbv zeta. split; [|split; [|split; [|split]]]; vm_compute; reflexivity. Qed.
