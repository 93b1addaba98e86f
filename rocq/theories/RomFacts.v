(** * RomFacts: forged proofs and the answers of the hash.

    An accepted proof of a false statement means that some query of the hash,
    when it was first asked, got one of few answers: the bad answers, which
    the queries before it determine.  With [Oracle.hits_bound] this bounds the
    number of hash functions for which a forgery succeeds. *)
From Verif Require Import BytesFacts Spec GroupFacts PropEncoding PropSoundness PropSimulation Oracle.
From Coq Require Import Permutation Lia.
Open Scope nat_scope.

Section Rom.
Context {CS : CipherSuite} (L : SuiteLaws CS) (mode : N).
Context (scalars : list (scalar CS)) (all_scalars : forall a, In a scalars).
Local Notation G := (CSGroup CS).
Local Notation GL := (group_laws L).
Local Notation S := (scalar CS).
Local Notation A := (base_elem G).
Local Notation idn := (identity_elem G).
Local Notation "P [+] Q" := (elem_add G P Q) (at level 50, left associativity).
Local Notation "k [*] P" := (elem_mul G P k) (at level 40).
Local Notation tag := (h2s_tag CS mode).
Local Notation seed B := (proof_seed (CS := CS) mode B).

(** ** The verifier in terms of the oracle *)
Fixpoint oweights (O : oracle S) (sd : bytes) (i : nat) (CD : list (elem CS * elem CS)) : list S :=
  match CD with
  | [] => []
  | (C, D) :: rest => O (composite_string sd i C D) tag :: oweights O sd (Datatypes.S i) rest
  end.

Lemma oweights_eq (O : oracle S) (B : elem CS) (C D : list (elem CS)) :
  weights (CS := with_oracle CS O) (oracle_laws L O) mode B C D = oweights O (seed B) 0 (combine C D).
Proof.
  assert (H : forall (CD : list (elem CS * elem CS)) i,
    weights_from (CS := with_oracle CS O) (oracle_laws L O) mode (seed B) i CD = oweights O (seed B) i CD).
  { induction CD as [|[c d] CD IH]; intros i; [reflexivity|]. cbn [weights_from oweights]. f_equal. exact (IH (Datatypes.S i)). }
  exact (H (combine C D) 0).
Qed.

Lemma verify_oracle (O : oracle S) (B : elem CS) (C D : list (elem CS)) c s :
  let ws := oweights O (seed B) 0 (combine C D) in
  let M := lincomb ws C in let Z := lincomb ws D in
  VerifyProof (CS := with_oracle CS O) (oracle_laws L O) mode A B C D c s <->
  O (challenge_string B M Z (s [*] A [+] c [*] B) (s [*] M [+] c [*] Z)) tag = c.
Proof.
  intros ws M Z. unfold VerifyProof, compositeM, compositeZ. rewrite oweights_eq. reflexivity.
Qed.

(** The verifier's queries, as a program. *)
Fixpoint ask_weights {Out} (sd : bytes) (i : nat) (CD : list (elem CS * elem CS)) (cont : list S -> program S Out)
  : program S Out :=
  match CD with
  | [] => cont []
  | (C, D) :: rest => Ask (composite_string sd i C D) tag (fun w =>
      ask_weights sd (Datatypes.S i) rest (fun ws => cont (w :: ws)))
  end.
Definition verifier (B : elem CS) (C D : list (elem CS)) (c s : S) : program S unit :=
  ask_weights (seed B) 0 (combine C D) (fun ws =>
    let M := lincomb ws C in let Z := lincomb ws D in
    Ask (challenge_string B M Z (s [*] A [+] c [*] B) (s [*] M [+] c [*] Z)) tag (fun _ => Done tt)).

Lemma ask_weights_at_most {Out} sd i CD n (cont : list S -> program S Out) :
  (forall ws, at_most n (cont ws)) -> at_most (length CD + n) (ask_weights sd i CD cont).
Proof.
  revert i cont. induction CD as [|[C D] CD IH]; intros i cont H; simpl; auto.
Qed.
Lemma verifier_at_most B C D c s n : length C = n -> at_most (n + 1) (verifier B C D c s).
Proof.
  intros <-. unfold verifier. apply (at_most_mono (length (combine C D) + 1)).
  - rewrite combine_length. lia.
  - apply ask_weights_at_most. intros ws. simpl. auto.
Qed.

Lemma final_extends {Out} (O : oracle S) h (P : program S Out) : exists h', final O h P = h' ++ h.
Proof.
  revert h. induction P as [m t next IH|]; intros h; simpl; [|now exists []].
  destruct (IH (O m t) ((m, t, O m t) :: h)) as [h' ->]. exists (h' ++ [(m, t, O m t)]). now rewrite <- app_assoc.
Qed.
Lemma final_keeps {Out} (O : oracle S) h (P : program S Out) x : asked x h = true -> asked x (final O h P) = true.
Proof.
  intros H. destruct (final_extends O h P) as [h' ->]. apply asked_spec in H as [a H].
  apply asked_spec. exists a. apply in_or_app. auto.
Qed.

Lemma ask_weights_asks {Out} O sd i CD (cont : list S -> program S Out) h :
  (forall j C D, nth_error CD j = Some (C, D) ->
     asked (composite_string sd (i + j) C D, tag) (final O h (ask_weights sd i CD cont)) = true) /\
  exists h', final O h (ask_weights sd i CD cont) = final O h' (cont (oweights O sd i CD)).
Proof.
  revert i cont h. induction CD as [|[C D] CD IH]; intros i cont h; simpl.
  - split; [intros [|j] ? ? H; discriminate|]. now exists h.
  - destruct (IH (Datatypes.S i) (fun ws => cont (O (composite_string sd i C D) tag :: ws))
        ((composite_string sd i C D, tag, O (composite_string sd i C D) tag) :: h)) as [H1 H2].
    split; auto. intros [|j] C' D' E; simpl in E.
    + injection E as <- <-. rewrite Nat.add_0_r. apply final_keeps. apply asked_spec.
      eexists. left. reflexivity.
    + rewrite Nat.add_succ_r. apply H1. exact E.
Qed.

Lemma verifier_asks O B C D c s h :
  let ws := oweights O (seed B) 0 (combine C D) in
  let M := lincomb ws C in let Z := lincomb ws D in
  let H := final O h (verifier B C D c s) in
  (forall j c d, nth_error (combine C D) j = Some (c, d) -> asked (composite_string (seed B) j c d, tag) H = true) /\
  asked (challenge_string B M Z (s [*] A [+] c [*] B) (s [*] M [+] c [*] Z), tag) H = true.
Proof.
  intros ws M Z H.
  destruct (ask_weights_asks O (seed B) 0 (combine C D) (fun ws =>
    let M := lincomb ws C in let Z := lincomb ws D in
    Ask (challenge_string B M Z (s [*] A [+] c [*] B) (s [*] M [+] c [*] Z)) tag (fun _ => Done tt)) h) as [H1 [h' H2]].
  split; [exact H1|]. apply asked_spec. exists (O (challenge_string B M Z (s [*] A [+] c [*] B) (s [*] M [+] c [*] Z)) tag).
  change H with (final O h (verifier B C D c s)). unfold verifier at 1.
  refine (eq_ind_r (fun l => In _ l) _ H2). left. reflexivity.
Qed.

(** ** Histories *)
Lemma final_answers {Out} (O : oracle S) h (P : program S Out) :
  (forall x a, In (x, a) h -> a = O (fst x) (snd x)) ->
  forall x a, In (x, a) (final O h P) -> a = O (fst x) (snd x).
Proof.
  revert h. induction P as [m t next IH|]; intros h Hh; simpl; auto.
  apply IH. intros x a [E|E]; auto. injection E as <- <-. reflexivity.
Qed.

Lemma no_hits {Out} S_dec bad (O : oracle S) h (P : program S Out) :
  hits S_dec bad O h P = false ->
  forall H2 x a H1, final O h P = H2 ++ (x, a) :: H1 -> length h <= length H1 ->
  asked x H1 = false -> ~ In (O (fst x) (snd x)) (bad H1 x).
Proof.
  revert h. induction P as [m t next IH|]; intros h Hh H2 x a H1 E Hl Hx.
  2:{ change (h = H2 ++ (x, a) :: H1) in E. exfalso. subst h. rewrite app_length in Hl. cbn [length] in Hl. lia. }
  - cbn [hits] in Hh. apply Bool.orb_false_iff in Hh as [Hb Hh].
    cbn [final] in E.
    destruct (Nat.eq_dec (length h) (length H1)) as [El|El].
    + destruct (final_extends O ((m, t, O m t) :: h) (next (O m t))) as [h' E'].
      rewrite E' in E.
      assert (Ex : (m, t, O m t) :: h = (x, a) :: H1).
      { apply app_inj_len_r in E as [_ E]; [exact E|]. cbn [length]. f_equal. exact El. }
      injection Ex as <- <- <-. rewrite Hx in Hb. simpl in Hb. intros Hin.
      apply (member_spec S_dec) in Hin. simpl in Hin. congruence.
    + eapply (IH (O m t) _ Hh); eauto. simpl. lia.
Qed.

Lemma asked_cons x y a (h : history (S := S)) : asked x ((y, a) :: h) = true -> x = y \/ asked x h = true.
Proof.
  intros H. apply asked_spec in H as (b & [E|H]); [left; congruence|right]. apply asked_spec. eauto.
Qed.

(** The point of a list that was asked last for the first time. *)
Lemma last_first (X : list point) (H : history (S := S)) :
  X <> [] -> (forall x, In x X -> asked x H = true) ->
  exists x H2 a H1, In x X /\ H = H2 ++ (x, a) :: H1 /\ asked x H1 = false /\
    forall y, In y X -> y = x \/ asked y H1 = true.
Proof.
  intros HX. induction H as [|[y a] H IH]; intros Ha.
  - destruct X as [|x X]; [congruence|]. specialize (Ha x (or_introl eq_refl)). discriminate.
  - destruct (forallb (fun x => asked x H) X) eqn:E.
    + rewrite forallb_forall in E. destruct (IH E) as (x & H2 & b & H1 & K1 & -> & K3).
      exists x, ((y, a) :: H2), b, H1. auto.
    + assert (Hx : exists x, In x X /\ asked x H = false).
      { clear - E. induction X as [|x X IH]; simpl in E; [discriminate|].
        destruct (asked x H) eqn:Ex; [|exists x; simpl; auto].
        destruct (IH E) as (z & Hz & Hz'). exists z. simpl. auto. }
      destruct Hx as (x & Hx & Hn). pose proof (Ha x Hx) as H0. apply asked_cons in H0 as [->|H0]; [|congruence].
      exists y, [], a, H. repeat split; auto. intros z Hz. apply asked_cons with (a := a). auto.
Qed.

(** ** Searching *)
Definition elems : list (elem CS) := map (fun a => a [*] A) scalars.
Lemma all_elems P : In P elems.
Proof. destruct (elem_generated G GL P) as [k ->]. unfold elems. apply (in_map (fun a => a [*] A)). auto. Qed.
Definition elem_eqb (P Q : elem CS) : bool := elem_ct_eq G P Q.
Lemma elem_eqb_spec P Q : elem_eqb P Q = true <-> P = Q.
Proof. apply (elem_ct_eq_spec G GL). Qed.
Definition point_eqb (x y : point) : bool := if point_dec x y then true else false.
Lemma point_eqb_spec x y : point_eqb x y = true <-> x = y.
Proof. unfold point_eqb. destruct (point_dec x y); split; congruence. Qed.

Lemma find_some_of {T} (f : T -> bool) l x : In x l -> f x = true -> exists y, find f l = Some y /\ f y = true.
Proof.
  intros Hin Hf. destruct (find f l) as [y|] eqn:E.
  - exists y. split; auto. now apply find_some in E.
  - pose proof (find_none _ _ E x Hin). congruence.
Qed.

(** ** The bad answer of a challenge *)
Definition is_challenge (x : point) (v : elem CS * (elem CS * (elem CS * (elem CS * elem CS)))) : bool :=
  let '(B, (M, (Z, (t2, t3)))) := v in point_eqb (challenge_string B M Z t2 t3, tag) x.
Definition opens (v : elem CS * (elem CS * (elem CS * (elem CS * elem CS)))) (cs : S * S) : bool :=
  let '(B, (M, (Z, (t2, t3)))) := v in let '(c, s) := cs in
  elem_eqb t2 (s [*] A [+] c [*] B) && elem_eqb t3 (s [*] M [+] c [*] Z).
Definition bad_challenge (x : point) : list S :=
  match find (is_challenge x) (list_prod elems (list_prod elems (list_prod elems (list_prod elems elems)))) with
  | Some v => match find (opens v) (list_prod scalars scalars) with
              | Some (c, _) => [c]
              | None => []
              end
  | None => []
  end.
Lemma bad_challenge_length x : length (bad_challenge x) <= 1.
Proof.
  unfold bad_challenge. destruct (find _ _) as [v|]; simpl; [|lia].
  destruct (find _ _) as [[c s]|]; simpl; lia.
Qed.

Lemma bad_challenge_spec k M Z c s :
  let B := k [*] A in
  Z <> k [*] M ->
  In c (bad_challenge (challenge_string B M Z (s [*] A [+] c [*] B) (s [*] M [+] c [*] Z), tag)).
Proof.
  intros B HZ. unfold bad_challenge.
  set (t2 := s [*] A [+] c [*] B). set (t3 := s [*] M [+] c [*] Z).
  destruct (find_some_of (is_challenge (challenge_string B M Z t2 t3, tag))
    (list_prod elems (list_prod elems (list_prod elems (list_prod elems elems)))) (B, (M, (Z, (t2, t3))))) as (v & Hv & Ev).
  - repeat (apply in_prod; [apply all_elems|]). apply all_elems.
  - now apply point_eqb_spec.
  - rewrite Hv. destruct v as (B' & M' & Z' & t2' & t3'). simpl in Ev. apply point_eqb_spec in Ev.
    apply (f_equal fst) in Ev; cbn [fst] in Ev. apply (challenge_string_inj L) in Ev as (-> & -> & -> & -> & ->).
    destruct (find_some_of (opens (B, (M, (Z, (t2, t3))))) (list_prod scalars scalars) (c, s)) as ([c' s'] & Hc & Ec).
    + apply in_prod; auto.
    + simpl. apply Bool.andb_true_iff. split; now apply elem_eqb_spec.
    + rewrite Hc. simpl in Ec. apply Bool.andb_true_iff in Ec as [E2 E3].
      apply elem_eqb_spec in E2, E3. left. symmetry. symmetry.
      apply (pin_challenge L A M Z k c s c' s'); auto. apply (base_not_identity _ GL).
Qed.

(** ** The bad answers of a weight *)
Definition err (k : S) (P Q : elem CS) : elem CS := Q [+] s_opp GL k [*] P.
Add Field scalar_field_rom : (scalar_field G GL).
Lemma err_id k P Q : err k P Q = idn <-> Q = k [*] P.
Proof.
  unfold err. destruct (elem_generated G GL P) as [p ->], (elem_generated G GL Q) as [r ->].
  rewrite !(elem_mul_mul G GL), (add_mul GL). split; intros H.
  - rewrite <- (elem_mul_zero G GL A) in H. apply (base_mul_inj GL) in H. f_equal.
    transitivity (scalar_add G (scalar_add G r (scalar_mul G p (s_opp GL k))) (scalar_mul G p k)); [ring|].
    rewrite H. ring.
  - apply (base_mul_inj GL) in H. rewrite H. rewrite <- (elem_mul_zero G GL A). f_equal. ring.
Qed.

Fixpoint esum (l : list (elem CS)) : elem CS := match l with [] => idn | P :: l => P [+] esum l end.
Lemma esum_app l l' : esum (l ++ l') = esum l [+] esum l'.
Proof.
  induction l as [|P l IH]; simpl; [symmetry; apply (elem_add_id _ GL)|]. rewrite IH. apply (elem_add_assoc _ GL).
Qed.
Fixpoint werrs (k : S) (ws : list S) (CD : list (elem CS * elem CS)) : list (elem CS) :=
  match ws, CD with
  | w :: ws, (C, D) :: CD => w [*] err k C D :: werrs k ws CD
  | _, _ => []
  end.
Lemma add_swap (P Q R T : elem CS) : (P [+] Q) [+] (R [+] T) = (P [+] R) [+] (Q [+] T).
Proof.
  rewrite !(elem_add_assoc _ GL). f_equal. rewrite <- !(elem_add_assoc _ GL). f_equal. apply (elem_add_comm _ GL).
Qed.
Lemma lincomb_err k ws (C D : list (elem CS)) : length ws = length C -> length C = length D ->
  lincomb ws D [+] s_opp GL k [*] lincomb ws C = esum (werrs k ws (combine C D)).
Proof.
  revert C D. induction ws as [|w ws IH]; intros [|c C] [|d D] H1 H2; try discriminate; simpl.
  - rewrite (id_mul GL). apply (elem_add_id _ GL).
  - rewrite <- IH by (simpl in *; congruence). rewrite (elem_mul_eadd _ GL), add_swap. f_equal.
    unfold err. rewrite (elem_mul_eadd _ GL). f_equal. apply (mul_comm2 GL).
Qed.

Section Batch.
Context (k : S) (n : nat).
Local Notation B := (k [*] A).
Local Notation sd := (proof_seed (CS := CS) mode (k [*] A)).

Definition is_composite (x : point) (v : nat * (elem CS * elem CS)) : bool :=
  let '(i, (P, Q)) := v in point_eqb (composite_string sd i P Q, tag) x.
(** The error of the pair in the string of a weight. *)
Definition error_in (x : point) : option (elem CS) :=
  match find (is_composite x) (list_prod (seq 0 n) (list_prod elems elems)) with
  | Some (_, (P, Q)) => Some (err k P Q)
  | None => None
  end.
(** The weighted errors seen so far. *)
Definition contrib (h : history (S := S)) : list (elem CS) :=
  idn :: flat_map (fun e => match error_in (fst e) with Some E => [snd e [*] E] | None => [] end) h.
Fixpoint sums (m : nat) (h : history (S := S)) : list (elem CS) :=
  match m with
  | O => [idn]
  | Datatypes.S m => flat_map (fun P => map (elem_add G P) (sums m h)) (contrib h)
  end.
Definition bad_batch (h : history (S := S)) (x : point) : list S :=
  match error_in x with
  | Some E => flat_map (fun s => match find (fun w => elem_eqb (w [*] E [+] s) idn) scalars with
                                 | Some w => [w] | None => [] end) (sums (n - 1) h)
  | None => bad_challenge x
  end.

Lemma contrib_length h : length (contrib h) <= Datatypes.S (length h).
Proof.
  unfold contrib. simpl. apply le_n_S. induction h as [|e h IH]; simpl; auto.
  rewrite app_length. destruct (error_in (fst e)); simpl; lia.
Qed.
Lemma sums_length m h : length (sums m h) <= Datatypes.S (length h) ^ m.
Proof.
  induction m as [|m IH]; [simpl; auto|]. cbn [sums]. rewrite Nat.pow_succ_r'.
  rewrite length_flat_map. etransitivity.
  - apply sum_le with (g := fun _ => Datatypes.S (length h) ^ m). intros P _. now rewrite map_length.
  - rewrite sum_const. pose proof (contrib_length h). 
    now apply (Nat.mul_le_mono_r _ _ (Datatypes.S (length h) ^ m)) in H.
Qed.
Lemma bad_batch_length N h x : length h < N -> length (bad_batch h x) <= N ^ (n - 1).
Proof.
  intros Hh. unfold bad_batch. destruct (error_in x) as [E|].
  - etransitivity; [|apply Nat.pow_le_mono_l; exact Hh].
    etransitivity; [|apply sums_length].
    generalize (sums (n - 1) h). intros l. induction l as [|s l IH]; simpl; auto.
    rewrite app_length. destruct (find _ scalars); simpl; lia.
  - etransitivity; [apply bad_challenge_length|]. apply Nat.neq_0_lt_0, Nat.pow_nonzero. lia.
Qed.

Lemma error_in_challenge (b M Z t2 t3 : elem CS) : error_in (challenge_string b M Z t2 t3, tag) = None.
Proof.
  unfold error_in. destruct (find _ _) as [[i [P Q]]|] eqn:E; auto. exfalso.
  apply find_some in E as [_ E]. simpl in E. apply point_eqb_spec in E. apply (f_equal fst) in E; cbn [fst] in E.
  unfold challenge_string, composite_string in E. rewrite !app_assoc in E.
  apply app_inj_len_r in E as [_ E]; [|reflexivity]. discriminate E.
Qed.

Lemma sd_len : (len sd <= 65535)%N.
Proof.
  unfold proof_seed. rewrite (digest_len _ L). pose proof (output_size_bound _ L). lia.
Qed.
Context (Hn : (N.of_nat n <= 65535)%N).
Lemma error_in_composite i (P Q : elem CS) : i < n -> error_in (composite_string sd i P Q, tag) = Some (err k P Q).
Proof.
  intros Hi. unfold error_in.
  destruct (find_some_of (is_composite (composite_string sd i P Q, tag)) (list_prod (seq 0 n) (list_prod elems elems))
    (i, (P, Q))) as ([i' [P' Q']] & E & E').
  - apply in_prod; [apply in_seq; lia|apply in_prod; apply all_elems].
  - now apply point_eqb_spec.
  - rewrite E. apply find_some in E as [Hin _]. apply in_prod_iff in Hin as [Hin _]. apply in_seq in Hin.
    simpl in E'. apply point_eqb_spec in E'. apply (f_equal fst) in E'; cbn [fst] in E'.
    apply (composite_string_inj L) in E' as (_ & _ & -> & ->); auto using sd_len; lia.
Qed.

Lemma esum_in_sums h l m : length l = m -> (forall P, In P l -> In P (contrib h)) -> In (esum l) (sums m h).
Proof.
  revert m. induction l as [|P l IH]; intros m <- H; [now left|]. cbn [length sums esum].
  apply in_flat_map. exists P. split; [apply H; simpl; auto|]. apply in_map. apply IH; auto.
  intros Q HQ. apply H. now right.
Qed.

Lemma werrs_nth ws CD j w P Q : nth_error ws j = Some w -> nth_error CD j = Some (P, Q) ->
  nth_error (werrs k ws CD) j = Some (w [*] err k P Q).
Proof.
  revert ws CD. induction j as [|j IH]; intros [|w' ws] [|[P' Q'] CD] H1 H2; simpl in *; try discriminate.
  - congruence.
  - now apply IH.
Qed.
Lemma werrs_length ws CD : length ws = length CD -> length (werrs k ws CD) = length CD.
Proof.
  revert CD. induction ws as [|w ws IH]; intros [|[P Q] CD] H; try discriminate; simpl; auto.
Qed.
Lemma oweights_nth O s i CD j P Q : nth_error CD j = Some (P, Q) ->
  nth_error (oweights O s i CD) j = Some (O (composite_string s (i + j) P Q) tag).
Proof.
  revert i CD. induction j as [|j IH]; intros i [|[P' Q'] CD] H; simpl in *; try discriminate.
  - injection H as <- <-. now rewrite Nat.add_0_r.
  - rewrite (IH (Datatypes.S i) CD H). now rewrite Nat.add_succ_r.
Qed.
Lemma oweights_length O s i CD : length (oweights O s i CD) = length CD.
Proof. revert i. induction CD as [|[P Q] CD IH]; intros i; simpl; auto. Qed.

(** An accepted false statement hits a bad answer. *)
Lemma forgery_hits {Out} (O : oracle S) (P0 : program S Out) (C D : list (elem CS)) c s :
  length C = n -> length D = n ->
  VerifyProof (CS := with_oracle CS O) (oracle_laws L O) mode A B C D c s ->
  ~ Forall2 (fun C D => D = k [*] C) C D ->
  hits (scalar_eq_dec GL) bad_batch O [] (andthen P0 (fun _ => verifier B C D c s)) = true.
Proof.
  intros HC HD HV0 Hwrong. pose proof (proj1 (verify_oracle O B C D c s) HV0) as HV. clear HV0. cbv zeta in HV.
  destruct (hits _ _ _ _ _) eqn:Hh; auto. exfalso.
  set (T := andthen P0 _) in Hh.
  assert (HF : exists h0, final O [] T = final O h0 (verifier B C D c s)).
  { unfold T. generalize (@nil (point * S)). clear. induction P0 as [m t next IH|]; intros h; simpl; eauto. }
  destruct HF as [h0 HF].
  destruct (verifier_asks O B C D c s h0) as [Hcomp Hchal]. rewrite <- HF in Hcomp, Hchal.
  set (CD := combine C D) in *. set (ws := oweights O sd 0 CD) in *.
  assert (HCD : length CD = n) by (unfold CD; rewrite combine_length; lia).
  assert (Hws : length ws = n) by (unfold ws; now rewrite oweights_length).
  set (M := lincomb ws C) in *. set (Z := lincomb ws D) in *.
  pose proof (no_hits (scalar_eq_dec GL) bad_batch O [] T Hh) as Hno.
  pose proof (final_answers O [] T (fun x a (F : In (x, a) []) => match F with end)) as Hans.
  destruct (elem_eq_dec GL Z (k [*] M)) as [EZ|EZ].
  - (* the weighted errors cancel *)
    assert (Hrel : esum (werrs k ws CD) = idn).
    { unfold CD. rewrite <- lincomb_err by congruence. apply err_id. exact EZ. }
    set (wrong := fun v : nat * (elem CS * elem CS) => let '(_, (P, Q)) := v in negb (elem_eqb Q (k [*] P))).
    set (X := map (fun v : nat * (elem CS * elem CS) => let '(j, (P, Q)) := v in (composite_string sd j P Q, tag))
                (filter wrong (combine (seq 0 n) CD))).
    assert (Hnth : forall j P Q, In (j, (P, Q)) (combine (seq 0 n) CD) <-> nth_error CD j = Some (P, Q)).
    { assert (Hg : forall (l : list (elem CS * elem CS)) i j v, In (j, v) (combine (seq i (length l)) l) <->
          i <= j /\ nth_error l (j - i) = Some v).
      { induction l as [|v' l IHl]; intros i j v; simpl.
        - split; [intros []|]. intros [_ E]. destruct (j - i); discriminate.
        - split.
          + intros [E|E].
            * injection E as <- <-. rewrite Nat.sub_diag. auto.
            * apply IHl in E as [E1 E2]. split; [lia|]. replace (j - i) with (Datatypes.S (j - Datatypes.S i)) by lia. exact E2.
          + intros [E1 E2]. destruct (Nat.eq_dec i j) as [->|Hne].
            * rewrite Nat.sub_diag in E2. simpl in E2. left. congruence.
            * right. apply IHl. split; [lia|]. replace (j - i) with (Datatypes.S (j - Datatypes.S i)) in E2 by lia. exact E2. }
      intros j P Q. rewrite <- HCD, Hg, Nat.sub_0_r. split; [intros [_ E]; exact E|intros E; split; [lia|exact E]]. }
    assert (HX : X <> []).
    { intros E. apply Hwrong. apply map_eq_nil in E.
      assert (Hall : forall j P Q, nth_error CD j = Some (P, Q) -> Q = k [*] P).
      { intros j P Q E'. apply Hnth in E'. apply elem_eqb_spec.
        destruct (elem_eqb Q (k [*] P)) eqn:Eq; auto. exfalso.
        assert (Hin : In (j, (P, Q)) (filter wrong (combine (seq 0 n) CD))).
        { apply filter_In. split; auto. unfold wrong. now rewrite Eq. }
        rewrite E in Hin. exact Hin. }
      clear - Hall HC HD. unfold CD in Hall. clear CD. rewrite <- HD in HC. clear HD. revert D HC Hall.
      induction C as [|c C IH]; intros [|d D] HC Hall; try discriminate; constructor.
      - apply (Hall 0 c d). reflexivity.
      - apply IH; [simpl in HC; congruence|]. intros j P Q E. apply (Hall (Datatypes.S j) P Q). exact E. }
    destruct (last_first X (final O [] T) HX) as (x & H2 & a & H1 & Hx & EH & Hfr & Hothers).
    { intros x Hx. apply in_map_iff in Hx as ([j [P Q]] & <- & Hin). apply filter_In in Hin as [Hin _].
      apply Hcomp. now apply Hnth. }
    apply in_map_iff in Hx as ([j [P Q]] & <- & Hin). apply filter_In in Hin as [Hin Hw].
    apply Hnth in Hin. unfold wrong in Hw.
    assert (HE : err k P Q <> idn).
    { intros E. apply err_id in E. apply elem_eqb_spec in E. rewrite E in Hw. discriminate. }
    apply (Hno H2 _ a H1 EH); [simpl; lia|exact Hfr|]. cbn [fst snd].
    assert (Hj : j < n) by (rewrite <- HCD; apply nth_error_Some; congruence).
    unfold bad_batch. rewrite (error_in_composite j P Q Hj).
    pose proof (oweights_nth O sd 0 CD j P Q Hin) as Hwj. fold ws in Hwj. simpl in Hwj.
    set (w := O (composite_string sd j P Q) tag) in *.
    pose proof (werrs_nth ws CD j w P Q Hwj Hin) as Hej.
    apply nth_error_split in Hej as (l1 & l2 & El & Hl1).
    rewrite El, esum_app in Hrel. simpl in Hrel.
    assert (Hsum : w [*] err k P Q [+] esum (l1 ++ l2) = idn).
    { rewrite esum_app. rewrite <- Hrel. rewrite !(elem_add_assoc _ GL). f_equal. apply (elem_add_comm _ GL). }
    assert (Hlen : length (l1 ++ l2) = n - 1).
    { pose proof (werrs_length ws CD) as Hl. rewrite El, app_length in Hl. simpl in Hl. rewrite app_length. lia. }
    assert (Hcon : forall R, In R (l1 ++ l2) -> In R (contrib H1)).
    { intros R HR.
      assert (Hidx : exists i, i <> j /\ nth_error (werrs k ws CD) i = Some R).
      { rewrite El. apply in_app_or in HR as [HR|HR]; apply In_nth_error in HR as [i Hi].
        - assert (i < length l1) by (apply nth_error_Some; congruence).
          exists i. split; [lia|]. now rewrite nth_error_app1.
        - exists (length l1 + Datatypes.S i). split; [lia|]. rewrite nth_error_app2 by lia.
          replace (length l1 + Datatypes.S i - length l1) with (Datatypes.S i) by lia. exact Hi. }
      destruct Hidx as (i & Hij & Hi).
      assert (Hi' : i < n).
      { rewrite <- HCD, <- (werrs_length ws CD) by congruence. apply nth_error_Some. congruence. }
      destruct (nth_error CD i) as [[P' Q']|] eqn:ECD; [|apply nth_error_None in ECD; lia].
      pose proof (oweights_nth O sd 0 CD i P' Q' ECD) as Hwi. fold ws in Hwi. simpl in Hwi.
      pose proof (werrs_nth ws CD i _ P' Q' Hwi ECD) as HR'. rewrite Hi in HR'. injection HR' as ->.
      unfold contrib. destruct (elem_eqb Q' (k [*] P')) eqn:Eq.
      - left. apply elem_eqb_spec in Eq. apply err_id in Eq. rewrite Eq. symmetry. apply (id_mul GL).
      - right. apply in_flat_map.
        destruct (Hothers (composite_string sd i P' Q', tag)) as [Ex|Hask].
        + apply in_map_iff. exists (i, (P', Q')). split; auto. apply filter_In. split; [now apply Hnth|].
          unfold wrong. now rewrite Eq.
        + apply (f_equal fst) in Ex; cbn [fst] in Ex. apply (composite_string_inj L) in Ex as (_ & Ei & _); auto using sd_len; try lia.
        + apply asked_spec in Hask as [b Hb]. exists ((composite_string sd i P' Q', tag), b). split; auto.
          cbn [fst snd]. rewrite (error_in_composite i P' Q' Hi').
          assert (Eb : b = O (composite_string sd i P' Q') tag).
          { apply (Hans (composite_string sd i P' Q', tag) b). refine (eq_ind_r (fun l => In _ l) _ EH). apply in_or_app. right. now right. }
          rewrite <- Eb. now left. }
    apply in_flat_map. exists (esum (l1 ++ l2)). split; [apply esum_in_sums; auto|].
    destruct (find_some_of (fun w => elem_eqb (w [*] err k P Q [+] esum (l1 ++ l2)) idn) scalars w) as (w' & Hf & Ew').
    { apply all_scalars. } { now apply elem_eqb_spec. }
    rewrite Hf. left. apply elem_eqb_spec in Ew'. rewrite <- Hsum in Ew'. apply (add_cancel_r GL) in Ew'.
    now apply (mul_scalar_inj GL) in Ew'.
  - (* the challenge *)
    destruct (last_first [(challenge_string B M Z (s [*] A [+] c [*] B) (s [*] M [+] c [*] Z), tag)] (final O [] T))
      as (x & H2 & a & H1 & Hx & EH & Hfr & _).
    + discriminate.
    + intros x [<-|[]]. exact Hchal.
    + destruct Hx as [<-|[]]. apply (Hno H2 _ a H1 EH); [simpl; lia|exact Hfr|]. cbn [fst snd].
      unfold bad_batch. rewrite error_in_challenge. rewrite HV. apply bad_challenge_spec. exact EZ.
Qed.
End Batch.

(** ** One item: the key need not be known in advance *)
Definition bad_single (h : history (S := S)) (x : point) : list S :=
  match find (is_challenge x) (list_prod elems (list_prod elems (list_prod elems (list_prod elems elems)))) with
  | Some _ => bad_challenge x
  | None => [zero_scalar G]
  end.
Lemma bad_single_length h x : length (bad_single h x) <= 1.
Proof. unfold bad_single. destruct (find _ _); [apply bad_challenge_length|simpl; lia]. Qed.

Lemma forgery_hits_single {Out} (O : oracle S) (P0 : program S Out) k (C D : elem CS) c s :
  VerifyProof (CS := with_oracle CS O) (oracle_laws L O) mode A (k [*] A) [C] [D] c s ->
  D <> k [*] C ->
  hits (scalar_eq_dec GL) bad_single O [] (andthen P0 (fun _ => verifier (k [*] A) [C] [D] c s)) = true.
Proof.
  intros HV0 Hwrong. pose proof (proj1 (verify_oracle O (k [*] A) [C] [D] c s) HV0) as HV. clear HV0. cbv zeta in HV.
  destruct (hits _ _ _ _ _) eqn:Hh; auto. exfalso.
  set (T := andthen P0 _) in Hh.
  assert (HF : exists h0, final O [] T = final O h0 (verifier (k [*] A) [C] [D] c s)).
  { unfold T. generalize (@nil (point * S)). clear. induction P0 as [m t next IH|]; intros h; simpl; eauto. }
  destruct HF as [h0 HF].
  destruct (verifier_asks O (k [*] A) [C] [D] c s h0) as [Hcomp Hchal]. rewrite <- HF in Hcomp, Hchal.
  set (B := k [*] A) in *. set (ws := oweights O (seed B) 0 (combine [C] [D])) in *.
  set (M := lincomb ws [C]) in *. set (Z := lincomb ws [D]) in *.
  pose proof (no_hits (scalar_eq_dec GL) bad_single O [] T Hh) as Hno.
  destruct (elem_eq_dec GL Z (k [*] M)) as [EZ|EZ].
  - set (w := O (composite_string (seed B) 0 C D) tag) in *.
    assert (Hw : w = zero_scalar G).
    { unfold Z, M, ws in EZ. simpl in EZ. fold w in EZ. rewrite !(add_id_r GL) in EZ.
      rewrite (mul_comm2 GL) in EZ. destruct (scalar_eq_dec GL w (zero_scalar G)) as [|Hne]; auto.
      exfalso. apply Hwrong. now apply (mul_elem_inj GL) in EZ. }
    destruct (last_first [(composite_string (seed B) 0 C D, tag)] (final O [] T)) as (x & H2 & a & H1 & Hx & EH & Hfr & _).
    + discriminate.
    + intros x [<-|[]]. apply (Hcomp 0). reflexivity.
    + destruct Hx as [<-|[]]. apply (Hno H2 _ a H1 EH); [simpl; lia|exact Hfr|]. cbn [fst snd]. fold w.
      unfold bad_single. destruct (find _ _) as [[B' [M' [Z' [t2' t3']]]]|] eqn:E; [|left; auto]. exfalso.
      apply find_some in E as [_ E]. simpl in E. apply point_eqb_spec in E. apply (f_equal fst) in E; cbn [fst] in E.
      unfold challenge_string, composite_string in E. rewrite !app_assoc in E.
      apply app_inj_len_r in E as [_ E]; [|reflexivity]. discriminate E.
  - destruct (last_first [(challenge_string B M Z (s [*] A [+] c [*] B) (s [*] M [+] c [*] Z), tag)] (final O [] T))
      as (x & H2 & a & H1 & Hx & EH & Hfr & _).
    + discriminate.
    + intros x [<-|[]]. exact Hchal.
    + destruct Hx as [<-|[]]. apply (Hno H2 _ a H1 EH); [simpl; lia|exact Hfr|]. cbn [fst snd].
      rewrite HV. pose proof (bad_challenge_spec k M Z c s EZ) as Hbad. fold B in Hbad.
      unfold bad_single. destruct (find _ _) as [v|] eqn:E; [exact Hbad|].
      unfold bad_challenge in Hbad. rewrite E in Hbad. destruct Hbad.
Qed.
End Rom.

Lemma hits_continue {S A B} S_dec bad (O : oracle S) h (P : program S A) (f : A -> program S B) :
  hits S_dec bad O h (andthen P f) = hits S_dec bad O h (andthen P (fun _ => f (run O P))).
Proof. now rewrite !hits_andthen. Qed.

Lemma andthen_assoc_hits {S A B C} S_dec bad (O : oracle S) h (P : program S A) (f : A -> program S B) (g : B -> program S C) :
  hits S_dec bad O h (andthen (andthen P f) g) = hits S_dec bad O h (andthen P (fun a => andthen (f a) g)).
Proof. revert h. induction P as [m t next IH|]; intros h; simpl; auto. now rewrite IH. Qed.
