(** * C57: outputs look random.

    The output hash is a random function; hash to group and hash to scalar are
    any functions.  A program calls the server as it likes and hashes as it
    likes.  It cannot tell the server from one that answers evaluate by a
    random function of the input (and info), unless it hashes the evaluated
    element of an input that it has also had evaluated. *)
From Verif Require Import Laws Spec BytesFacts GroupFacts CommonFacts OprfFacts VoprfFacts PoprfFacts PropEncoding
  PropCorrectness Oracle ZkFacts Guess PrfFacts PropUnpredict PropZk Zq.
From Verif Require PropUniform.
From Coq Require Import Lia ArithRing.
Open Scope N_scope.

(** ** The two games *)

(** The info as part of the argument of a random function. *)
Definition info_tag (info : option bytes) : bytes := match info with None => [] | Some i => x01 :: i end.

Section Ideal.
Context {CS : CipherSuite} (k : scalar CS) (R : Rng).
Local Notation pk := (elem_mul (CSGroup CS) (base_elem (CSGroup CS)) k).
Local Notation S := (output_digest CS).

(** The server, but outputs are the values of [F].  Errors stay, and blinded
    elements are evaluated with the key. *)
Definition oprf_ideal (F O : oracle S) (c : oprf_call CS) (st : rng_state R) : reply CS * rng_state R :=
  match c with
  | OEvaluate input =>
      (Output (map_ok (fun _ => value (F input []))
         (oprf_server_evaluate (with_digest CS O) (mkOprfServer (CS := with_digest CS O) k) input)), st)
  | _ => oprf_serves k R O c st
  end.
Definition voprf_ideal (F O : oracle S) (c : voprf_call CS) (st : rng_state R) : reply CS * rng_state R :=
  match c with
  | VEvaluate input =>
      (Output (map_ok (fun _ => value (F input []))
         (voprf_server_evaluate (with_digest CS O) (mkVoprfServer (CS := with_digest CS O) k pk) input)), st)
  | _ => voprf_serves k R O c st
  end.
Definition poprf_ideal (F O : oracle S) (c : poprf_call CS) (st : rng_state R) : reply CS * rng_state R :=
  match c with
  | PEvaluate input info =>
      (Output (map_ok (fun _ => value (F input (info_tag info)))
         (poprf_server_evaluate (with_digest CS O) (mkPoprfServer (CS := with_digest CS O) k pk) input info)), st)
  | _ => poprf_serves k R O c st
  end.
End Ideal.

(** The program has hashed the input and the evaluated element of an input it
    has had evaluated (calls of evaluate that return an error do not count). *)
Definition oprf_crossed {CS} (L : SuiteLaws CS) (k : scalar CS) (hashed : list bytes) (calls : list (oprf_call CS)) : bool :=
  existsb (fun c => match c with
    | OEvaluate i => (len i <=? 65535) && negb (is_identity_elem (CSGroup CS) (H2G L modeOPRF i)) &&
        existsb (same_bytes (lv i ++ lv (serialize_elem (CSGroup CS) (elem_mul (CSGroup CS) (H2G L modeOPRF i) k))
                             ++ str "Finalize")) hashed
    | _ => false end) calls.
Definition voprf_crossed {CS} (L : SuiteLaws CS) (k : scalar CS) (hashed : list bytes) (calls : list (voprf_call CS)) : bool :=
  existsb (fun c => match c with
    | VEvaluate i => (len i <=? 65535) && negb (is_identity_elem (CSGroup CS) (H2G L modeVOPRF i)) &&
        existsb (same_bytes (lv i ++ lv (serialize_elem (CSGroup CS) (elem_mul (CSGroup CS) (H2G L modeVOPRF i) k))
                             ++ str "Finalize")) hashed
    | _ => false end) calls.
Definition poprf_crossed {CS} (L : SuiteLaws CS) (k : scalar CS) (hashed : list bytes) (calls : list (poprf_call CS)) : bool :=
  existsb (fun c => match c with
    | PEvaluate i info => (len i <=? 65535) && (len (info_or_default info) <=? 65535) &&
        negb (is_identity_elem (CSGroup CS) (H2G L modePOPRF i)) && negb (is_zero_scalar (CSGroup CS) (tweaked_scalar L k (info_or_default info))) &&
        existsb (same_bytes (lv i ++ (match info with Some n => lv n | None => [] end)
          ++ lv (serialize_elem (CSGroup CS) (elem_mul (CSGroup CS) (H2G L modePOPRF i)
                   (s_inv (group_laws L) (tweaked_scalar L k (info_or_default info)))))
          ++ str "Finalize")) hashed
    | _ => false end) calls.

(** The run of a program that ends with yes or no: [played] has its answer,
    what it hashed and what it called. *)
Definition said {Call} (v : bool) (played : bool * list bytes * list Call) : bool := Bool.eqb (fst (fst played)) v.
Definition crosses {Call} (crossed : list bytes -> list Call -> bool) (played : bool * list bytes * list Call) : bool :=
  crossed (snd (fst played)) (snd played).

(** Over all hash functions, and all functions [F]: any answer is given
    exactly as often by runs that do not cross; runs cross as often; and so
    the chances of yes differ by at most the chance to cross. *)
Definition looks_random {Call} (digests : N) (crossed : list bytes -> list Call -> bool)
    (real : oracle (digest_of digests) -> bool * list bytes * list Call)
    (ideal : oracle (digest_of digests) -> oracle (digest_of digests) -> bool * list bytes * list Call) : Prop :=
  exists needed needed_inputs : list point, forall (points inputs : list point) (O0 F0 : oracle (digest_of digests)),
  NoDup points -> NoDup inputs -> incl needed points -> incl needed_inputs inputs ->
  let Os := oracles (all_digests digests) points O0 in
  let Fs := oracles (all_digests digests) inputs F0 in
  let in_real (f : bool * list bytes * list Call -> bool) := (count (fun O => f (real O)) Os * length Fs)%nat in
  let in_ideal (f : bool * list bytes * list Call -> bool) := count (fun OF => f (ideal (snd OF) (fst OF))) (list_prod Os Fs) in
  (forall v, in_ideal (fun p => said v p && negb (crosses crossed p)) = in_real (fun p => said v p && negb (crosses crossed p))) /\
  in_ideal (crosses crossed) = in_real (crosses crossed) /\
  (in_ideal (said true) <= in_real (said true) + in_real (crosses crossed))%nat /\
  (in_real (said true) <= in_ideal (said true) + in_real (crosses crossed))%nat.

(** ** Proofs *)
Lemma count_prod {A B} (f : A * B -> bool) l l' : count f (list_prod l l') = sum (fun a => count (fun b => f (a, b)) l') l.
Proof.
  induction l as [|a l IH]; simpl; auto. rewrite count_app, IH. f_equal.
  clear. unfold count. induction l' as [|b l' IH]; simpl; auto. destruct (f (a, b)); simpl; auto.
Qed.
Lemma count_parts {A} (f g : A -> bool) l :
  (count f l = count (fun a => f a && negb (g a)) l + count (fun a => f a && g a) l)%nat.
Proof.
  unfold count. induction l as [|a l IH]; simpl; auto. destruct (f a), (g a); simpl; lia.
Qed.
Lemma count_crossing {A} (f g : A -> bool) l :
  (length l = count (fun a => Bool.eqb (f a) true && negb (g a)) l + count (fun a => Bool.eqb (f a) false && negb (g a)) l + count g l)%nat.
Proof.
  unfold count. induction l as [|a l IH]; simpl; auto. destruct (f a), (g a); simpl; lia.
Qed.

Section Generic.
Context {n : N} {Call Reply St : Type}.
Local Notation S := (digest_of n).
Context (serve : oracle S -> Call -> St -> Reply * St) (ideal : oracle S -> oracle S -> Call -> St -> Reply * St).
Context (hashes : Call -> option bytes) (O0 : oracle S).
Context (serve_dep : forall O O' c st, (forall m, hashes c = Some m -> O m [] = O' m []) -> serve O c st = serve O' c st).
Context (pt : point -> point) (fits : point -> Prop) (evals : Call -> option point).
Context (evals_hashes : forall c x, evals c = Some x -> fits x /\ exists m, hashes c = Some m /\ pt x = (m, [])).
Context (ideal_ok : forall F O c st, ideal F O c st =
  match evals c with Some x => serve (fun _ _ => at_point F x) c st | None => serve O c st end).
Context (others : forall c m x, evals c = None -> hashes c = Some m -> fits x -> pt x <> (m, [])).
Context (pt_inj : forall x y, fits x -> fits y -> pt x = pt y -> x = y).
Context (crossed_b : list bytes -> list Call -> bool).
Context (crossed_ok : forall hashed calls, crossed_b hashed calls = true <->
  exists c x m, In c calls /\ evals c = Some x /\ In m hashed /\ pt x = (m, [])).

Fixpoint ptree_of (v : bool) (A : attack Call Reply bool) (st : St) : ptree (S := S) :=
  match A with
  | Hash m next => PAsk (m, []) (fun a => ptree_of v (next (value a)) st)
  | Query c next =>
      match evals c with
      | Some x => PEval x (fun a => ptree_of v (next (fst (serve (fun _ _ => a) c st))) (snd (serve (fun _ _ => a) c st)))
      | None =>
        match hashes c with
        | Some m => PAsk (m, []) (fun a => ptree_of v (next (fst (serve (fun _ _ => a) c st))) (snd (serve (fun _ _ => a) c st)))
        | None => ptree_of v (next (fst (serve O0 c st))) (snd (serve O0 c st))
        end
      end
  | Name out => PSay (Bool.eqb out v)
  end.

Definition own (c : Call) : list point :=
  match evals c, hashes c with None, Some m => [(m, [])] | _, _ => [] end.
Definition asks (c : Call) : list point := match evals c with Some x => [x] | None => [] end.
Definition clean (v : bool) (h e : list point) (played : bool * list bytes * list Call) : bool :=
  said v played && negb (crossed pt (map (fun m => (m, [])) (snd (fst played)) ++ flat_map own (snd played) ++ h)
                                    (flat_map asks (snd played) ++ e)).

Lemma crossed_ext h e h' e' : (forall x, In x h <-> In x h') -> (forall x, In x e <-> In x e') -> crossed pt h e = crossed pt h' e'.
Proof.
  intros H1 H2. apply Bool.eq_iff_eq_true. rewrite !crossed_spec.
  split; intros (x & Hx & Hp); exists x; split; [apply H2|apply H1|apply H2|apply H1]; auto.
Qed.
Lemma clean_hash v h e m out hashed calls : clean v h e (out, m :: hashed, calls) = clean v ((m, []) :: h) e (out, hashed, calls).
Proof.
  unfold clean. cbn [fst snd map]. f_equal. f_equal. apply crossed_ext; [|tauto].
  intros x. repeat rewrite in_app_iff || cbn [In]. tauto.
Qed.
Lemma clean_call v h e c out hashed calls : clean v h e (out, hashed, c :: calls) = clean v (own c ++ h) (asks c ++ e) (out, hashed, calls).
Proof.
  unfold clean. cbn [fst snd flat_map]. f_equal. f_equal. apply crossed_ext; intros x; repeat rewrite in_app_iff; tauto.
Qed.

Definition playing (O : oracle S) (srv : Call -> St -> Reply * St) (A : attack Call Reply bool) st := play (fun m => value (O m [])) srv A st.

Lemma preal_of v O A : forall st h e, preal pt O h e (ptree_of v A st) = clean v h e (playing O (serve O) A st).
Proof.
  unfold playing. induction A as [m next IH|c next IH|out]; intros st h e; cbn [ptree_of play].
  - cbn [preal]. rewrite IH. unfold at_point. cbn [fst snd].
    destruct (play _ _ (next (value (O m []))) st) as [[out hashed] calls]. symmetry. apply clean_hash.
  - assert (Hgo : forall O' h' e', serve O c st = serve O' c st -> h' = own c ++ h -> e' = asks c ++ e ->
      preal pt O h' e' (ptree_of v (next (fst (serve O' c st))) (snd (serve O' c st)))
      = clean v h e (let '(r, st') := serve O c st in
          let '(out, hashed, calls) := play (fun m => value (O m [])) (serve O) (next r) st' in (out, hashed, c :: calls))).
    { intros O' h' e' E -> ->. rewrite IH, <- E. destruct (serve O c st) as [r st']. cbn [fst snd].
      destruct (play _ _ (next r) st') as [[out hashed] calls]. symmetry. apply clean_call. }
    unfold own, asks in Hgo. destruct (evals c) as [x|] eqn:Ex.
    + destruct (evals_hashes c x Ex) as (_ & m & Hm & Hp). cbn [preal]. apply Hgo; auto.
      apply serve_dep. intros m' E. rewrite Hm in E. injection E as <-. unfold at_point. now rewrite Hp.
    + destruct (hashes c) as [m|] eqn:Em.
      * cbn [preal]. apply Hgo; auto. apply serve_dep. intros m' E. rewrite Em in E. injection E as <-. reflexivity.
      * apply Hgo; auto. apply serve_dep. intros m' E. congruence.
  - reflexivity.
Qed.

Lemma pideal_of v O F A : forall st h e, pideal pt O F h e (ptree_of v A st) = clean v h e (playing O (ideal F O) A st).
Proof.
  unfold playing. induction A as [m next IH|c next IH|out]; intros st h e; cbn [ptree_of play].
  - cbn [pideal]. rewrite IH. unfold at_point. cbn [fst snd].
    destruct (play _ _ (next (value (O m []))) st) as [[out hashed] calls]. symmetry. apply clean_hash.
  - assert (Hgo : forall O' h' e', ideal F O c st = serve O' c st -> h' = own c ++ h -> e' = asks c ++ e ->
      pideal pt O F h' e' (ptree_of v (next (fst (serve O' c st))) (snd (serve O' c st)))
      = clean v h e (let '(r, st') := ideal F O c st in
          let '(out, hashed, calls) := play (fun m => value (O m [])) (ideal F O) (next r) st' in (out, hashed, c :: calls))).
    { intros O' h' e' E -> ->. rewrite IH, <- E. destruct (ideal F O c st) as [r st']. cbn [fst snd].
      destruct (play _ _ (next r) st') as [[out hashed] calls]. symmetry. apply clean_call. }
    unfold own, asks in Hgo. specialize (ideal_ok F O c st). destruct (evals c) as [x|] eqn:Ex.
    + cbn [pideal]. apply Hgo; auto.
    + destruct (hashes c) as [m|] eqn:Em.
      * cbn [pideal]. apply Hgo; auto. rewrite ideal_ok. apply serve_dep. intros m' E. rewrite Em in E. injection E as <-. reflexivity.
      * apply Hgo; auto. rewrite ideal_ok. apply serve_dep. intros m' E. congruence.
  - reflexivity.
Qed.

Lemma ptree_fits v A : forall st, evaluates fits (ptree_of v A st).
Proof.
  induction A as [m next IH|c next IH|out]; intros st; cbn [ptree_of evaluates]; auto.
  destruct (evals c) as [x|] eqn:Ex; cbn [evaluates]; auto.
  - split; auto. now destruct (evals_hashes c x Ex).
  - destruct (hashes c); cbn [evaluates]; auto.
Qed.
Lemma evaluates_and (X Y : point -> Prop) (T : ptree (S := S)) : evaluates X T -> evaluates Y T -> evaluates (fun x => X x /\ Y x) T.
Proof. induction T as [p next IH|x next IH|b]; simpl; auto. intros [H1 H2] [H3 H4]. split; auto. Qed.

Lemma clean_start v (played : bool * list bytes * list Call) : clean v [] [] played = said v played && negb (crosses crossed_b played).
Proof.
  destruct played as [[out hashed] calls]. unfold clean, crosses. cbn [fst snd]. f_equal. f_equal.
  apply Bool.eq_iff_eq_true. rewrite crossed_ok, crossed_spec. rewrite !app_nil_r. split.
  - intros (x & Hx & Hp). apply in_flat_map in Hx as (c & Hc & Hx). unfold asks in Hx.
    destruct (evals c) as [x'|] eqn:Ex; [|destruct Hx]. destruct Hx as [->|[]].
    apply in_app_iff in Hp as [Hp|Hp].
    + apply in_map_iff in Hp as (m & Hm & Hin). exists c, x, m. auto.
    + exfalso. apply in_flat_map in Hp as (c' & Hc' & Hp). unfold own in Hp.
      destruct (evals c') as [|] eqn:Ex'; [destruct Hp|]. destruct (hashes c') as [m|] eqn:Em; [|destruct Hp].
      destruct Hp as [Hp|[]]. exact (others c' m x Ex' Em (proj1 (evals_hashes c x Ex)) (eq_sym Hp)).
  - intros (c & x & m & Hc & Ex & Hm & Hp). exists x. split.
    + apply in_flat_map. exists c. split; auto. unfold asks. rewrite Ex. now left.
    + apply in_app_iff. left. rewrite Hp. apply in_map_iff. eauto.
Qed.

Lemma prf_generic A st :
  looks_random n crossed_b (fun O => playing O (serve O) A st) (fun F O => playing O (ideal F O) A st).
Proof.
  set (dg := all_digests n).
  set (ins := evaluated dg (ptree_of true A st) ++ evaluated dg (ptree_of false A st)).
  exists (map pt ins), ins. intros points inputs Ob Fb Hp Hi Hip Hii Os Fs.
  assert (Hv : forall v, count (fun OF => said v (playing (fst OF) (ideal (snd OF) (fst OF)) A st) &&
            negb (crosses crossed_b (playing (fst OF) (ideal (snd OF) (fst OF)) A st))) (list_prod Os Fs)
      = (count (fun O => said v (playing O (serve O) A st) && negb (crosses crossed_b (playing O (serve O) A st))) Os * length Fs)%nat).
  { intros v. rewrite count_prod. cbn [fst snd].
    pose (X0 := fun x => In x ins /\ fits x).
    assert (He : evaluates X0 (ptree_of v A st)).
    { apply evaluates_and; [|apply ptree_fits].
      apply (evaluates_mono (fun x => In x (evaluated dg (ptree_of v A st)))).
      - intros x Hx. unfold ins. apply in_app_iff. destruct v; auto.
      - apply evaluated_spec. apply all_digests_all. }
    pose proof (prf_equal dg pt X0 (fun x y Hx Hy => pt_inj x y (proj2 Hx) (proj2 Hy)) (ptree_of v A st)
      points inputs [] [] Ob Fb He Hp Hi) as H.
    assert (H1 : forall x : point, In x [] -> X0 x /\ ~ In (pt x) points /\ ~ In x inputs /\ at_point Ob (pt x) = at_point Fb x)
      by (intros x []).
    specialize (H H1). 
    assert (H2 : forall x, X0 x -> In x [] \/ In (pt x) [] \/ In (pt x) points /\ In x inputs).
    { intros x [Hx _]. right; right. split; [apply Hip; now apply in_map|now apply Hii]. }
    specialize (H H2). fold dg in Os, Fs. unfold Fs at 2. rewrite oracles_length, count_sum.
    transitivity (sum (fun O => sum (fun F => bsum (pideal pt O F [] [] (ptree_of v A st))) (oracles dg inputs Fb)) (oracles dg points Ob)).
    - unfold Os. apply sum_ext. intros O _. rewrite count_sum. unfold Fs. apply sum_ext. intros F _.
      now rewrite pideal_of, clean_start.
    - rewrite H. f_equal. apply sum_ext. intros O _. now rewrite preal_of, clean_start. }
  split; [exact Hv|].
  assert (Hcross : count (fun OF => crosses crossed_b (playing (fst OF) (ideal (snd OF) (fst OF)) A st)) (list_prod Os Fs)
    = (count (fun O => crosses crossed_b (playing O (serve O) A st)) Os * length Fs)%nat).
  { pose proof (count_crossing (fun OF => fst (fst (playing (fst OF) (ideal (snd OF) (fst OF)) A st)))
      (fun OF => crosses crossed_b (playing (fst OF) (ideal (snd OF) (fst OF)) A st)) (list_prod Os Fs)) as H1.
    pose proof (count_crossing (fun O => fst (fst (playing O (serve O) A st)))
      (fun O => crosses crossed_b (playing O (serve O) A st)) Os) as H2.
    pose proof (Hv true) as Ht. pose proof (Hv false) as Hf. unfold said in Ht, Hf.
    rewrite prod_length in H1. nia. }
  split; [exact Hcross|].
  pose proof (count_parts (fun OF => said true (playing (fst OF) (ideal (snd OF) (fst OF)) A st))
      (fun OF => crosses crossed_b (playing (fst OF) (ideal (snd OF) (fst OF)) A st)) (list_prod Os Fs)) as H1.
  pose proof (count_parts (fun O => said true (playing O (serve O) A st))
      (fun O => crosses crossed_b (playing O (serve O) A st)) Os) as H2.
  cbv beta in H1, H2. rewrite (Hv true) in H1.
  assert (H3 : (count (fun OF => said true (playing (fst OF) (ideal (snd OF) (fst OF)) A st) &&
      crosses crossed_b (playing (fst OF) (ideal (snd OF) (fst OF)) A st)) (list_prod Os Fs)
    <= count (fun OF => crosses crossed_b (playing (fst OF) (ideal (snd OF) (fst OF)) A st)) (list_prod Os Fs))%nat).
  { apply count_mono. intros a _ E. now apply andb_prop in E as [_ E]. }
  assert (H4 : (count (fun O => said true (playing O (serve O) A st) && crosses crossed_b (playing O (serve O) A st)) Os
    <= count (fun O => crosses crossed_b (playing O (serve O) A st)) Os)%nat).
  { apply count_mono. intros a _ E. now apply andb_prop in E as [_ E]. }
  rewrite Hcross in H3. cbv beta. split; nia.
Qed.
End Generic.

(** ** The servers *)
Section Servers.
Context {CS : CipherSuite} (L : SuiteLaws CS) (k : scalar CS) (R : Rng).
Local Notation G := (CSGroup CS).
Local Notation S := (output_digest CS).
Local Notation pk := (elem_mul G (base_elem G) k).

Lemma crossed_string (m : bytes) hashed : existsb (same_bytes m) hashed = true <-> In m hashed.
Proof.
  rewrite existsb_exists. split.
  - intros (m' & Hin & E). apply same_bytes_spec in E. now subst.
  - intros H. exists m. split; auto. now apply same_bytes_spec.
Qed.

(* evaluate fails *)
Definition fails (mode : N) (i : bytes) : bool := (65535 <? len i) || is_identity_elem G (H2G L mode i).
Lemma fails_false mode i : fails mode i = false <-> (len i <=? 65535) && negb (is_identity_elem G (H2G L mode i)) = true.
Proof.
  unfold fails. rewrite Bool.andb_true_iff, Bool.negb_true_iff, Bool.orb_false_iff, N.leb_le, N.ltb_ge. tauto.
Qed.
Definition input_fits (mode : N) (x : point) : Prop := fails mode (fst x) = false /\ snd x = [].
Lemma fits_len mode x : input_fits mode x -> len (fst x) <= 65535.
Proof. intros [H _]. apply Bool.orb_false_iff in H as [H _]. now apply N.ltb_ge. Qed.
Definition plain_string (mode : N) (i : bytes) : bytes := finalize_string (CS := CS) i (elem_mul G (H2G L mode i) k).
Definition plain_pt (mode : N) (x : point) : point := (plain_string mode (fst x), []).
Lemma plain_inj mode x y : input_fits mode x -> input_fits mode y -> plain_pt mode x = plain_pt mode y -> x = y.
Proof.
  intros Hx Hy E. pose proof (fits_len _ _ Hx). pose proof (fits_len _ _ Hy). apply (f_equal fst) in E. cbn [fst plain_pt] in E.
  apply (finalize_string_inj L) in E as [E _]; auto. destruct Hx as [_ Hx], Hy as [_ Hy].
  destruct x as [i t], y as [j u]. cbn [fst snd] in *. now subst.
Qed.

Definition oprf_evals (c : oprf_call CS) : option point :=
  match c with OEvaluate i => if fails modeOPRF i then None else Some (i, []) | _ => None end.
Lemma oprf_random A st :
  looks_random _ (oprf_crossed L k) (fun O => play (fun m => value (O m [])) (oprf_serves k R O) A st)
    (fun F O => play (fun m => value (O m [])) (oprf_ideal k R F O) A st).
Proof.
  apply (prf_generic (oprf_serves k R) (oprf_ideal k R) (oprf_hashes L k) (fun _ _ => any_digest L)
    (fun O O' c st => oprf_dep L k R O O' c st) (plain_pt modeOPRF) (input_fits modeOPRF) oprf_evals).
  - intros c x E. destruct c as [e|i]; [discriminate|]. unfold oprf_evals in E. destruct (fails modeOPRF i) eqn:Ei; [discriminate|].
    injection E as <-. split; [split; [exact Ei|reflexivity]|].
    exists (plain_string modeOPRF i). unfold oprf_hashes. apply Bool.orb_false_iff in Ei as [Ei _]. rewrite Ei. split; reflexivity.
  - intros F O c st'. destruct c as [e|i]; [reflexivity|]. unfold oprf_evals, oprf_ideal, oprf_serves. rewrite !(oprf_evaluate_form L).
    fold (fails modeOPRF i). destruct (fails modeOPRF i) eqn:Ei; [reflexivity|].
    rewrite (oprf_evaluate_form L). fold (fails modeOPRF i). now rewrite Ei.
  - intros c m x E Em Hx Ep. pose proof (fits_len _ _ Hx) as Hl. apply (f_equal fst) in Ep. cbn [fst plain_pt] in Ep.
    destruct c as [e|i]; [discriminate|]. unfold oprf_evals in E. unfold oprf_hashes in Em.
    destruct (65535 <? len i) eqn:Ei; [discriminate|].
    apply (f_equal (fun o => match o with Some x => x | None => [] end)) in Em. rewrite <- Em in Ep.
    apply N.ltb_ge in Ei. apply (finalize_string_inj L) in Ep as [Ep _]; auto. destruct Hx as [Hx _]. rewrite Ep in Hx. now rewrite Hx in E.
  - exact (plain_inj modeOPRF).
  - intros hashed calls. unfold oprf_crossed. rewrite existsb_exists. split.
    + intros (c & Hc & H). destruct c as [e|i]; [discriminate|]. apply andb_prop in H as [Hl H]. apply fails_false in Hl.
      apply crossed_string in H. exists (OEvaluate i), (i, []), (plain_string modeOPRF i).
      split; auto. split; [|split; [exact H|reflexivity]]. unfold oprf_evals. now rewrite Hl.
    + intros (c & x & m & Hc & Ex & Hm & Hp). exists c. split; auto. destruct c as [e|i]; [discriminate|]. unfold oprf_evals in Ex.
      destruct (fails modeOPRF i) eqn:Ei; [discriminate|]. injection Ex as <-. apply fails_false in Ei.
      rewrite Ei. apply (f_equal fst) in Hp. cbn [fst plain_pt] in Hp. apply crossed_string.
      unfold plain_string in Hp. change (In (finalize_string (CS := CS) i (elem_mul G (H2G L modeOPRF i) k)) hashed). now rewrite Hp.
Qed.

Definition voprf_evals (c : voprf_call CS) : option point :=
  match c with VEvaluate i => if fails modeVOPRF i then None else Some (i, []) | _ => None end.
Lemma voprf_random A st :
  looks_random _ (voprf_crossed L k) (fun O => play (fun m => value (O m [])) (voprf_serves k R O) A st)
    (fun F O => play (fun m => value (O m [])) (voprf_ideal k R F O) A st).
Proof.
  apply (prf_generic (voprf_serves k R) (voprf_ideal k R) (voprf_hashes L k) (fun _ _ => any_digest L)
    (fun O O' c st => voprf_dep L k R O O' c st) (plain_pt modeVOPRF) (input_fits modeVOPRF) voprf_evals).
  - intros c x E. destruct c as [e|es|i]; [discriminate|discriminate|]. unfold voprf_evals in E. destruct (fails modeVOPRF i) eqn:Ei; [discriminate|].
    injection E as <-. split; [split; [exact Ei|reflexivity]|].
    exists (plain_string modeVOPRF i). unfold voprf_hashes. apply Bool.orb_false_iff in Ei as [Ei _]. rewrite Ei. split; reflexivity.
  - intros F O c st'. destruct c as [e|es|i]; [reflexivity|reflexivity|]. unfold voprf_evals, voprf_ideal, voprf_serves. rewrite !(voprf_evaluate_form L).
    fold (fails modeVOPRF i). destruct (fails modeVOPRF i) eqn:Ei; [reflexivity|].
    rewrite (voprf_evaluate_form L). fold (fails modeVOPRF i). now rewrite Ei.
  - intros c m x E Em Hx Ep. pose proof (fits_len _ _ Hx) as Hl. apply (f_equal fst) in Ep. cbn [fst plain_pt] in Ep. destruct c as [e|es|i].
    + apply (f_equal (fun o => match o with Some x => x | None => [] end)) in Em. exact (finalize_not_seed L _ _ _ _ Hl (eq_trans Ep (eq_sym Em))).
    + apply (f_equal (fun o => match o with Some x => x | None => [] end)) in Em. exact (finalize_not_seed L _ _ _ _ Hl (eq_trans Ep (eq_sym Em))).
    + unfold voprf_evals in E. unfold voprf_hashes in Em. destruct (65535 <? len i) eqn:Ei; [discriminate|].
      apply (f_equal (fun o => match o with Some x => x | None => [] end)) in Em. rewrite <- Em in Ep.
      apply N.ltb_ge in Ei. apply (finalize_string_inj L) in Ep as [Ep _]; auto. destruct Hx as [Hx _]. rewrite Ep in Hx. now rewrite Hx in E.
  - exact (plain_inj modeVOPRF).
  - intros hashed calls. unfold voprf_crossed. rewrite existsb_exists. split.
    + intros (c & Hc & H). destruct c as [e|es|i]; [discriminate|discriminate|]. apply andb_prop in H as [Hl H]. apply fails_false in Hl.
      apply crossed_string in H. exists (VEvaluate i), (i, []), (plain_string modeVOPRF i).
      split; auto. split; [|split; [exact H|reflexivity]]. unfold voprf_evals. now rewrite Hl.
    + intros (c & x & m & Hc & Ex & Hm & Hp). exists c. split; auto. destruct c as [e|es|i]; [discriminate|discriminate|]. unfold voprf_evals in Ex.
      destruct (fails modeVOPRF i) eqn:Ei; [discriminate|]. injection Ex as <-. apply fails_false in Ei.
      rewrite Ei. apply (f_equal fst) in Hp. cbn [fst plain_pt] in Hp. apply crossed_string.
      unfold plain_string in Hp. change (In (finalize_string (CS := CS) i (elem_mul G (H2G L modeVOPRF i) k)) hashed). now rewrite Hp.
Qed.

Definition tag_info (t : bytes) : option bytes := match t with [] => None | _ :: i => Some i end.
Lemma tag_info_tag info : tag_info (info_tag info) = info.
Proof. destruct info; reflexivity. Qed.
(* evaluate succeeds *)
Definition works (i : bytes) (info : option bytes) : bool :=
  (len i <=? 65535) && (len (info_or_default info) <=? 65535) &&
  negb (is_identity_elem G (H2G L modePOPRF i)) && negb (is_zero_scalar G (tweaked_scalar L k (info_or_default info))).
Lemma works_len i info : works i info = true -> len i <= 65535 /\ len (info_or_default info) <= 65535.
Proof. unfold works. rewrite !Bool.andb_true_iff, !N.leb_le. tauto. Qed.
Definition info_fits (x : point) : Prop := exists info, snd x = info_tag info /\ works (fst x) info = true.
Definition info_pt (x : point) : point := (poprf_string L k (fst x) (tag_info (snd x)), []).
Lemma info_inj x y : info_fits x -> info_fits y -> info_pt x = info_pt y -> x = y.
Proof.
  intros (n & Ex & Hx) (n' & Ey & Hy) E. apply works_len in Hx as [Hx Hn]. apply works_len in Hy as [Hy Hn'].
  apply (f_equal fst) in E. cbn [fst info_pt] in E.
  rewrite Ex, Ey, !tag_info_tag in E. apply (poprf_string_inj L k) in E as [E E']; auto.
  destruct x as [i t], y as [j u]. cbn [fst snd] in *. now subst.
Qed.
Definition poprf_evals (c : poprf_call CS) : option point :=
  match c with PEvaluate i info => if works i info then Some (i, info_tag info) else None | _ => None end.
Lemma poprf_works_form (O : oracle S) i info : works i info = true ->
  poprf_server_evaluate (with_digest CS O) (mkPoprfServer (CS := with_digest CS O) k pk) i info
  = Ok (value (O (poprf_string L k i info) [])).
Proof.
  intros H. rewrite (poprf_evaluate_form L). unfold works in H. rewrite !Bool.andb_true_iff, !Bool.negb_true_iff, !N.leb_le in H.
  destruct H as [[[H1 H2] H3] H4]. rewrite H3, (proj2 (N.ltb_ge _ _) H2), H4, (proj2 (N.ltb_ge _ _) H1). reflexivity.
Qed.
Lemma poprf_works_not (O : oracle S) i info : works i info = false -> exists e, forall O : oracle S,
  poprf_server_evaluate (with_digest CS O) (mkPoprfServer (CS := with_digest CS O) k pk) i info = Err e.
Proof.
  intros H.
  destruct (is_identity_elem G (H2G L modePOPRF i)) eqn:H3; [exists EInput; intros O'; now rewrite (poprf_evaluate_form L), H3|].
  destruct (65535 <? len (info_or_default info)) eqn:H2; [exists EInfo; intros O'; now rewrite (poprf_evaluate_form L), H3, H2|].
  destruct (is_zero_scalar G (tweaked_scalar L k (info_or_default info))) eqn:H4;
    [exists EProtocol; intros O'; now rewrite (poprf_evaluate_form L), H3, H2, H4|].
  destruct (65535 <? len i) eqn:H1; [exists EInput; intros O'; now rewrite (poprf_evaluate_form L), H3, H2, H4, H1|].
  exfalso. unfold works in H. rewrite H3, H4 in H. apply N.ltb_ge in H1, H2.
  rewrite (proj2 (N.leb_le _ _) H1), (proj2 (N.leb_le _ _) H2) in H. discriminate.
Qed.
Lemma poprf_random A st :
  looks_random _ (poprf_crossed L k) (fun O => play (fun m => value (O m [])) (poprf_serves k R O) A st)
    (fun F O => play (fun m => value (O m [])) (poprf_ideal k R F O) A st).
Proof.
  apply (prf_generic (poprf_serves k R) (poprf_ideal k R) (poprf_hashes L k) (fun _ _ => any_digest L)
    (fun O O' c st => poprf_dep L k R O O' c st) info_pt info_fits poprf_evals).
  - intros c x E. destruct c as [e n|es n|i n]; [discriminate|discriminate|]. unfold poprf_evals in E.
    destruct (works i n) eqn:Ei; [|discriminate]. injection E as <-. split; [exists n; auto|].
    apply works_len in Ei as [Hi Hn]. exists (poprf_string L k i n). unfold poprf_hashes.
    rewrite (proj2 (N.ltb_ge _ _) Hi), (proj2 (N.ltb_ge _ _) Hn). split; [reflexivity|].
    unfold info_pt. cbn [fst snd]. now rewrite tag_info_tag.
  - intros F O c st'. destruct c as [e n|es n|i n]; [reflexivity|reflexivity|]. unfold poprf_evals, poprf_ideal, poprf_serves.
    destruct (works i n) eqn:Ei.
    + rewrite !(poprf_works_form _ _ _ Ei). reflexivity.
    + destruct (poprf_works_not O i n Ei) as [e He]. rewrite He. reflexivity.
  - intros c m x E Em (n' & Et & Hx) Ep. pose proof (works_len _ _ Hx) as [Hl Hn]. apply (f_equal fst) in Ep. cbn [fst info_pt] in Ep. rewrite Et, tag_info_tag in Ep.
    destruct c as [e n|es n|i n].
    + apply (f_equal (fun o => match o with Some x => x | None => [] end)) in Em. exact (poprf_string_not_seed L k _ _ _ _ Hl Hn (eq_trans Ep (eq_sym Em))).
    + apply (f_equal (fun o => match o with Some x => x | None => [] end)) in Em. exact (poprf_string_not_seed L k _ _ _ _ Hl Hn (eq_trans Ep (eq_sym Em))).
    + unfold poprf_evals in E. unfold poprf_hashes in Em. destruct (65535 <? len i) eqn:Ei; [discriminate|].
      destruct (65535 <? len (info_or_default n)) eqn:En; [discriminate|]. cbn [orb] in Em. apply N.ltb_ge in Ei, En.
      apply (f_equal (fun o => match o with Some x => x | None => [] end)) in Em. rewrite <- Em in Ep.
      apply (poprf_string_inj L k) in Ep as [Ep En']; auto. rewrite Ep, En' in Hx. rewrite Hx in E. discriminate.
  - exact info_inj.
  - intros hashed calls. unfold poprf_crossed. rewrite existsb_exists. split.
    + intros (c & Hc & H). destruct c as [e n|es n|i n]; [discriminate|discriminate|]. apply andb_prop in H as [Hl H].
      apply crossed_string in H. exists (PEvaluate i n), (i, info_tag n), (poprf_string L k i n).
      split; auto. split; [|split; [exact H|]].
      * unfold poprf_evals. unfold works. now rewrite Hl.
      * unfold info_pt. cbn [fst snd]. now rewrite tag_info_tag.
    + intros (c & x & m & Hc & Ex & Hm & Hp). exists c. split; auto. destruct c as [e n|es n|i n]; [discriminate|discriminate|]. unfold poprf_evals in Ex.
      destruct (works i n) eqn:Ei; [|discriminate]. injection Ex as <-. unfold works in Ei. rewrite Ei.
      apply (f_equal fst) in Hp. unfold info_pt in Hp. cbn [fst snd] in Hp.
      rewrite tag_info_tag in Hp. cbn [andb]. apply crossed_string.
      change (In (poprf_string L k i n) hashed). now rewrite Hp.
Qed.
End Servers.

(** ** C57 *)

Theorem C57_oprf_pseudorandom :
  forall (CS : CipherSuite) (L : SuiteLaws CS) (k : scalar CS) (R : Rng) (st : rng_state R)
         (A : attack (oprf_call CS) (reply CS) bool),
  looks_random (output_size (CSHash CS)) (oprf_crossed L k)
    (fun O => play (fun m => value (O m [])) (oprf_serves k R O) A st)
    (fun F O => play (fun m => value (O m [])) (oprf_ideal k R F O) A st).
Proof. intros CS L k R st A. exact (oprf_random L k R A st). Qed.

Theorem C57_voprf_pseudorandom :
  forall (CS : CipherSuite) (L : SuiteLaws CS) (k : scalar CS) (R : Rng) (st : rng_state R)
         (A : attack (voprf_call CS) (reply CS) bool),
  looks_random (output_size (CSHash CS)) (voprf_crossed L k)
    (fun O => play (fun m => value (O m [])) (voprf_serves k R O) A st)
    (fun F O => play (fun m => value (O m [])) (voprf_ideal k R F O) A st).
Proof. intros CS L k R st A. exact (voprf_random L k R A st). Qed.

Theorem C57_poprf_pseudorandom :
  forall (CS : CipherSuite) (L : SuiteLaws CS) (k : scalar CS) (R : Rng) (st : rng_state R)
         (A : attack (poprf_call CS) (reply CS) bool),
  looks_random (output_size (CSHash CS)) (poprf_crossed L k)
    (fun O => play (fun m => value (O m [])) (poprf_serves k R O) A st)
    (fun F O => play (fun m => value (O m [])) (poprf_ideal k R F O) A st).
Proof. intros CS L k R st A. exact (poprf_random L k R A st). Qed.

(** ** A random key that is used for evaluate only *)

(** The server as a function: [OprfServer::evaluate] (src/oprf.rs). *)
Definition evaluate_server {CS} (k : scalar CS) (O : oracle (output_digest CS)) (input : bytes) (st : unit) : res bytes * unit :=
  (oprf_server_evaluate (with_digest CS O) (mkOprfServer (CS := with_digest CS O) k) input, st).
(** No key: the values of [F], and an error for the inputs that cannot be
    evaluated. *)
Definition random_server {CS} (L : SuiteLaws CS) (F : oracle (output_digest CS)) (input : bytes) (st : unit) : res bytes * unit :=
  ((if (65535 <? len input) || is_identity_elem (CSGroup CS) (H2G L modeOPRF input) then Err EInput else Ok (value (F input []))), st).

(** The program hashes at most [Q] strings, whatever the answers. *)
Fixpoint hashes_at_most {Call Reply Out} (Q : nat) (A : attack Call Reply Out) : Prop :=
  match A with
  | Hash _ next => match Q with O => False | Datatypes.S Q' => forall v, hashes_at_most Q' (next v) end
  | Query _ next => forall r, hashes_at_most Q (next r)
  | Name _ => True
  end.
Lemma hashes_bound {Call Reply Out St} (hash : bytes -> bytes) (serve : Call -> St -> Reply * St) (A : attack Call Reply Out) :
  forall Q st, hashes_at_most Q A -> (length (snd (fst (play hash serve A st))) <= Q)%nat.
Proof.
  induction A as [m next IH|c next IH|out]; intros Q st H; cbn [play].
  - destruct Q as [|Q]; [destruct H|]. specialize (IH (hash m) Q st (H _)).
    destruct (play _ _ (next (hash m)) st) as [[out hashed] calls]. cbn [fst snd length] in *. lia.
  - destruct (serve c st) as [r st']. specialize (IH r Q st' (H _)).
    destruct (play _ _ (next r) st') as [[out hashed] calls]. cbn [fst snd length] in *. lia.
  - cbn [fst snd length]. lia.
Qed.
Lemma play_ext {Call Reply Out St} (hash : bytes -> bytes) (serve serve' : Call -> St -> Reply * St) (A : attack Call Reply Out) :
  (forall c st, serve c st = serve' c st) -> forall st, play hash serve A st = play hash serve' A st.
Proof.
  intros H. induction A as [m next IH|c next IH|out]; intros st; cbn [play]; auto.
  - now rewrite IH.
  - rewrite <- H. destruct (serve c st) as [r st']. now rewrite IH.
Qed.

Section RandomKey.
Context {CS : CipherSuite} (L : SuiteLaws CS).
Local Notation G := (CSGroup CS).
Local Notation S := (output_digest CS).

Definition input_crossed (k : scalar CS) (hashed : list bytes) (calls : list bytes) : bool :=
  existsb (fun i => negb (fails L modeOPRF i) && existsb (same_bytes (plain_string L k modeOPRF i)) hashed) calls.
Definition input_evals (i : bytes) : option point := if fails L modeOPRF i then None else Some (i, []).

Lemma evaluate_random (k : scalar CS) A :
  looks_random _ (input_crossed k) (fun O => play (fun m => value (O m [])) (evaluate_server k O) A tt)
    (fun F O => play (fun m => value (O m [])) (random_server L F) A tt).
Proof.
  apply (prf_generic (evaluate_server k) (fun F O => random_server L F)
    (fun i => if 65535 <? len i then None else Some (plain_string L k modeOPRF i)) (fun _ _ => any_digest L)) with
    (pt := plain_pt L k modeOPRF) (fits := input_fits L modeOPRF) (evals := input_evals).
  - intros O O' i st H. unfold evaluate_server. rewrite !(oprf_evaluate_form L).
    destruct (65535 <? len i); [reflexivity|]. specialize (H _ eq_refl). unfold plain_string in H. now rewrite H.
  - intros i x E. unfold input_evals in E. destruct (fails L modeOPRF i) eqn:Ei; [discriminate|].
    injection E as <-. split; [split; [exact Ei|reflexivity]|].
    exists (plain_string L k modeOPRF i). apply Bool.orb_false_iff in Ei as [Ei _]. rewrite Ei. split; reflexivity.
  - intros F O i st. unfold input_evals, random_server, evaluate_server. rewrite !(oprf_evaluate_form L).
    fold (fails L modeOPRF i). destruct (fails L modeOPRF i) eqn:Ei; [reflexivity|].
    rewrite (oprf_evaluate_form L). fold (fails L modeOPRF i). now rewrite Ei.
  - intros i m x E Em Hx Ep. pose proof (fits_len _ _ _ Hx) as Hl. apply (f_equal fst) in Ep. cbn [fst plain_pt] in Ep.
    unfold input_evals in E. destruct (65535 <? len i) eqn:Ei; [discriminate|].
    apply (f_equal (fun o => match o with Some x => x | None => [] end)) in Em. rewrite <- Em in Ep.
    apply N.ltb_ge in Ei. apply (finalize_string_inj L) in Ep as [Ep _]; auto. destruct Hx as [Hx _]. rewrite Ep in Hx. now rewrite Hx in E.
  - exact (plain_inj L k modeOPRF).
  - intros hashed calls. unfold input_crossed. rewrite existsb_exists. split.
    + intros (i & Hc & H). apply andb_prop in H as [Hl H]. apply Bool.negb_true_iff in Hl.
      apply crossed_string in H. exists i, (i, []), (plain_string L k modeOPRF i).
      split; auto. split; [|split; [exact H|reflexivity]]. unfold input_evals. now rewrite Hl.
    + intros (i & x & m & Hc & Ex & Hm & Hp). exists i. split; auto. unfold input_evals in Ex.
      destruct (fails L modeOPRF i) eqn:Ei; [discriminate|]. injection Ex as <-.
      apply (f_equal fst) in Hp. cbn [fst plain_pt] in Hp. cbn [negb andb]. apply crossed_string. now rewrite Hp.
Qed.

(* the program hashed the string of one of the inputs under the key *)
Definition key_hits (k : scalar CS) (calls : list bytes) (m : bytes) : bool :=
  existsb (fun i => negb (fails L modeOPRF i) && same_bytes (plain_string L k modeOPRF i) m) calls.
Lemma one_key calls m k k' : key_hits k calls m = true -> key_hits k' calls m = true -> k = k'.
Proof.
  unfold key_hits. rewrite !existsb_exists. intros (i & _ & H) (i' & _ & H').
  apply andb_prop in H as [Hi H]. apply andb_prop in H' as [Hi' H']. apply same_bytes_spec in H, H'.
  apply Bool.negb_true_iff in Hi, Hi'. unfold fails in Hi, Hi'. apply Bool.orb_false_iff in Hi as [Hi Hn], Hi' as [Hi' Hn'].
  apply N.ltb_ge in Hi, Hi'. rewrite <- H' in H. unfold plain_string in H.
  apply (finalize_string_inj L) in H as [<- E]; auto. apply (is_identity_false (group_laws L)) in Hn.
  exact (mul_scalar_inj (group_laws L) _ _ _ Hn E).
Qed.
Lemma count_one {A} (f : A -> bool) l : NoDup l -> (forall a b, f a = true -> f b = true -> a = b) -> (count f l <= 1)%nat.
Proof.
  intros Hl Hf. unfold count. induction Hl as [|a l Ha Hl IH]; simpl; [lia|]. destruct (f a) eqn:E; [|exact IH].
  simpl. rewrite (proj2 (length_zero_iff_nil _)); [lia|]. destruct (filter f l) as [|b r] eqn:Ef; auto.
  assert (Hb : In b (filter f l)) by (rewrite Ef; now left). apply filter_In in Hb as [Hb Hfb].
  rewrite (Hf a b E Hfb) in Ha. contradiction.
Qed.
Lemma count_or {A} (f g : A -> bool) l : (count (fun a => f a || g a) l <= count f l + count g l)%nat.
Proof. unfold count. induction l as [|a l IH]; simpl; auto. destruct (f a), (g a); simpl; lia. Qed.
Lemma keys_crossing keys calls hashed : NoDup keys -> (count (fun k => input_crossed k hashed calls) keys <= length hashed)%nat.
Proof.
  intros Hk. transitivity (count (fun k => existsb (key_hits k calls) hashed) keys).
  { apply count_mono. intros k _ H. unfold input_crossed in H. apply existsb_exists in H as (i & Hi & H).
    apply andb_prop in H as [Hf H]. apply existsb_exists in H as (m & Hm & H). apply existsb_exists. exists m. split; auto.
    apply existsb_exists. exists i. split; auto. now rewrite Hf. }
  induction hashed as [|m hashed IH]; cbn [existsb length].
  { unfold count. clear. induction keys; simpl; auto. }
  etransitivity; [apply count_or|]. assert (H1 : (count (fun k => key_hits k calls m) keys <= 1)%nat).
  { apply count_one; auto. intros a b. apply one_key. }
  cbv beta in *. lia.
Qed.

(* all keys need only finitely many strings and inputs *)
Lemma all_keys keys A : exists needed needed_inputs : list point,
  forall (points inputs : list point) (O0 F0 : oracle S),
  NoDup points -> NoDup inputs -> incl needed points -> incl needed_inputs inputs ->
  let Os := oracles (all_digests (output_size (CSHash CS))) points O0 in
  let Fs := oracles (all_digests (output_size (CSHash CS))) inputs F0 in
  let yes_real k := count (fun O => fst (fst (play (fun m => value (O m [])) (evaluate_server k O) A tt))) Os in
  let yes_random := count (fun OF => fst (fst (play (fun m => value (fst OF m [])) (random_server L (snd OF)) A tt))) (list_prod Os Fs) in
  let crossing k := count (fun OF => crosses (input_crossed k) (play (fun m => value (fst OF m [])) (random_server L (snd OF)) A tt)) (list_prod Os Fs) in
  forall k, In k keys ->
  (yes_random <= yes_real k * length Fs + crossing k)%nat /\ (yes_real k * length Fs <= yes_random + crossing k)%nat.
Proof.
  induction keys as [|k keys (needed & needed_inputs & IH)].
  { exists [], []. intros points inputs O0 F0 _ _ _ _ Os Fs yr yi cr k []. }
  destruct (evaluate_random k A) as (n1 & n2 & H).
  exists (n1 ++ needed), (n2 ++ needed_inputs). intros points inputs O0 F0 Hp Hi Hip Hii Os Fs yr yi cr k' [<-|Hk].
  - specialize (H points inputs O0 F0 Hp Hi (fun x Hx => Hip x (in_or_app _ _ _ (or_introl Hx))) (fun x Hx => Hii x (in_or_app _ _ _ (or_introl Hx)))).
    destruct H as (_ & Hc & H1 & H2).
    assert (Ht : forall p : bool * list bytes * list bytes, fst (fst p) = said true p) by (intros [[[] ?] ?]; reflexivity).
    assert (E1 : yi = count (fun OF => said true (play (fun m => value (fst OF m [])) (random_server L (snd OF)) A tt)) (list_prod Os Fs))
      by (apply count_ext; intros; apply Ht).
    assert (E2 : yr k = count (fun O => said true (play (fun m => value (O m [])) (evaluate_server k O) A tt)) Os)
      by (apply count_ext; intros; apply Ht).
    assert (E3 : cr k = (count (fun O => crosses (input_crossed k) (play (fun m => value (O m [])) (evaluate_server k O) A tt)) Os * length Fs)%nat)
      by exact Hc.
    rewrite E1, E2, E3.
    split; assumption.
  - exact (IH points inputs O0 F0 Hp Hi (fun x Hx => Hip x (in_or_app _ _ _ (or_intror Hx))) (fun x Hx => Hii x (in_or_app _ _ _ (or_intror Hx))) k' Hk).
Qed.
End RandomKey.

(** A key drawn from any set of [|keys|] scalars, used for evaluate: a program
    that hashes at most [Q] strings, and evaluates as many inputs as it likes,
    tells it from a random function with advantage at most [Q / |keys|].  No
    assumption on the group. *)
Theorem C57_oprf_prf :
  forall (CS : CipherSuite) (L : SuiteLaws CS) (keys : list (scalar CS)), NoDup keys ->
  forall (Q : nat) (A : attack bytes (res bytes) bool), hashes_at_most Q A ->
  exists needed needed_inputs : list point, forall (points inputs : list point) (O0 F0 : oracle (output_digest CS)),
  NoDup points -> NoDup inputs -> incl needed points -> incl needed_inputs inputs ->
  let Os := oracles (all_digests (output_size (CSHash CS))) points O0 in
  let Fs := oracles (all_digests (output_size (CSHash CS))) inputs F0 in
  let says_yes (p : bool * list bytes * list bytes) := fst (fst p) in
  let real := count (fun kO => says_yes (play (fun m => value (snd kO m [])) (evaluate_server (fst kO) (snd kO)) A tt)) (list_prod keys Os) in
  let random := count (fun OF => says_yes (play (fun m => value (fst OF m [])) (random_server L (snd OF)) A tt)) (list_prod Os Fs) in
  differ_at_most Q (length keys) real (length keys * length Os) random (length Os * length Fs).
Proof.
  intros CS L keys Hk Q A HQ. destruct (all_keys L keys A) as (needed & needed_inputs & H).
  exists needed, needed_inputs. intros points inputs O0 F0 Hp Hi Hip Hii Os Fs says_yes real random.
  specialize (H points inputs O0 F0 Hp Hi Hip Hii). cbv zeta in H. fold Os Fs in H.
  set (yr := fun k => count (fun O => fst (fst (play (fun m => value (O m [])) (evaluate_server k O) A tt))) Os).
  set (cr := fun k => count (fun OF => crosses (input_crossed L k) (play (fun m => value (fst OF m [])) (random_server L (snd OF)) A tt)) (list_prod Os Fs)).
  assert (Hr : real = sum yr keys) by (unfold real; rewrite count_prod; reflexivity).
  assert (H1 : (length keys * random <= sum yr keys * length Fs + sum cr keys)%nat).
  { rewrite <- sum_const, <- sum_scale, <- sum_add. apply sum_le. intros k Hin. exact (proj1 (H k Hin)). }
  assert (H2 : (sum yr keys * length Fs <= length keys * random + sum cr keys)%nat).
  { rewrite <- sum_const, <- sum_scale, <- sum_add. apply sum_le. intros k Hin. exact (proj2 (H k Hin)). }
  assert (H3 : (sum cr keys <= length Os * length Fs * Q)%nat).
  { unfold cr. rewrite (sum_ext _ (fun k => sum (fun OF => if crosses (input_crossed L k)
        (play (fun m => value (fst OF m [])) (random_server L (snd OF)) A tt) then 1 else 0)%nat (list_prod Os Fs))) by (intros; apply count_sum).
    rewrite sum_swap, <- prod_length, <- sum_const. apply sum_le. intros OF _.
    rewrite <- count_sum. etransitivity; [apply (keys_crossing L keys _ _ Hk)|]. now apply hashes_bound. }
  rewrite Hr. unfold differ_at_most. set (a := sum yr keys) in *. set (c := sum cr keys) in *.
  set (kk := length keys) in *. set (o := length Os) in *. set (f := length Fs) in *. clearbody a c kk o f random.
  split.
  - replace (kk * (a * (o * f)))%nat with (kk * o * (a * f))%nat by ring.
    etransitivity; [apply Nat.mul_le_mono_l; exact H2|].
    etransitivity; [apply Nat.mul_le_mono_l, Nat.add_le_mono_l; exact H3|]. apply Nat.eq_le_incl. ring.
  - replace (kk * (random * (kk * o)))%nat with (kk * o * (kk * random))%nat by ring.
    etransitivity; [apply Nat.mul_le_mono_l; exact H1|].
    etransitivity; [apply Nat.mul_le_mono_l, Nat.add_le_mono_l; exact H3|]. apply Nat.eq_le_incl. ring.
Qed.

(** Cases.  A program that runs the protocol and compares with evaluate says
    yes to the server, crosses, and says no to the random function; a program
    that guesses the key is right for one key; one that only evaluates twice
    gets the same answer from both, and crosses nowhere. *)
Definition ex_distinguisher : attack (oprf_call TS) (reply TS) bool :=
  let G := CSGroup TS in
  Query (OEvaluate ex_input) (fun r0 =>
  Query (OBlindEvaluate (elem_mul G (H2G TL modeOPRF ex_input) (ex_scalar 9))) (fun r =>
    match r, r0 with
    | Evaluated (Ok ([e], _)), Output (Ok out) =>
        Hash (lv ex_input ++ lv (serialize_elem G (elem_mul G e (s_inv (group_laws TL) (ex_scalar 9)))) ++ str "Finalize")
          (fun d => Name (same_bytes d out))
    | _, _ => Name false
    end)).
Definition ex_key_guess : attack bytes (res bytes) bool :=
  Hash (lv ex_input ++ lv (serialize_elem (CSGroup TS) (elem_mul (CSGroup TS) (H2G TL modeOPRF ex_input) (ex_scalar 42))) ++ str "Finalize")
    (fun d => Query ex_input (fun r => Name (returns_output r d))).
Definition ex_twice : attack (voprf_call TS) (reply TS) bool :=
  Query (VEvaluate ex_input) (fun r => Query (VEvaluate ex_input) (fun r' =>
    match r, r' with Output (Ok d), Output (Ok d') => Name (same_bytes d d') | _, _ => Name false end)).
Definition ex_hash (m : bytes) : bytes := value (ex_digest m []).

Example C57_case :
  (let real := play ex_hash (oprf_serves (ex_scalar 42) CtrRng ex_digest) ex_distinguisher 17 in
   let ideal := play ex_hash (oprf_ideal (ex_scalar 42) CtrRng ex_value ex_digest) ex_distinguisher 17 in
   said true real = true /\ said true ideal = false /\ crosses (oprf_crossed TL (ex_scalar 42)) real = true) /\
  (let real := play ex_hash (voprf_serves (ex_scalar 42) CtrRng ex_digest) ex_twice 17 in
   let ideal := play ex_hash (voprf_ideal (ex_scalar 42) CtrRng ex_value ex_digest) ex_twice 17 in
   said true real = true /\ said true ideal = true /\ crosses (voprf_crossed TL (ex_scalar 42)) real = false) /\
  hashes_at_most 1 ex_key_guess /\ NoDup [ex_scalar 42; ex_scalar 43] /\
  fst (fst (play ex_hash (evaluate_server (ex_scalar 42) ex_digest) ex_key_guess tt)) = true /\
  fst (fst (play ex_hash (evaluate_server (ex_scalar 43) ex_digest) ex_key_guess tt)) = false /\
  fst (fst (play ex_hash (random_server TL ex_value) ex_key_guess tt)) = false /\
  play ex_hash (random_server TL ex_value) (Query ex_input (fun r => Name r)) tt = (Ok (repeat x00 4), [], [ex_input]).
Proof.
  split; [cbv zeta; split; [vm_compute; reflexivity|split; vm_compute; reflexivity]|].
  split; [cbv zeta; split; [vm_compute; reflexivity|split; vm_compute; reflexivity]|].
  split; [simpl; auto|].
  split; [constructor; [intros [E|[]]; vm_compute in E; discriminate|constructor; [intros []|constructor]]|].
  split; [vm_compute; reflexivity|]. split; [vm_compute; reflexivity|]. split; vm_compute; reflexivity.
Qed.
