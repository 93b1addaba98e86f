(** * PrfFacts: a hash value and a fresh random value, and counting.

    A tree asks the hash at strings of its choice and asks for values of some
    inputs.  In one game these are the hash at a string that belongs to the
    input, in the other the values of an independent function.  Runs that do
    not ask the hash at the string of an input whose value they ask for are as
    likely in both. *)
From Verif Require Import Common Oracle ZkFacts Guess.
From Coq Require Import Permutation Lia ArithRing.
Open Scope nat_scope.

Section Prf.
Context {S : Type} (answers : list S).
Local Notation q := (length answers).
Local Notation oracles := (oracles answers).
(* the string that belongs to an input *)
Context (pt : point -> point).

Inductive ptree : Type :=
| PAsk (p : point) (next : S -> ptree)
| PEval (x : point) (next : S -> ptree)
| PSay (b : bool).

Definition at_point (O : oracle S) (p : point) : S := O (fst p) (snd p).
Definition crossed (h e : list point) : bool := existsb (fun x => if in_dec point_dec (pt x) h then true else false) e.
Lemma crossed_spec h e : crossed h e = true <-> exists x, In x e /\ In (pt x) h.
Proof.
  unfold crossed. rewrite existsb_exists. split; intros (x & Hx & H); exists x; split; auto.
  - destruct (in_dec _ _ _); [auto|discriminate].
  - now destruct (in_dec _ _ _).
Qed.

Fixpoint preal (O : oracle S) (h e : list point) (T : ptree) : bool :=
  match T with
  | PAsk p next => preal O (p :: h) e (next (at_point O p))
  | PEval x next => preal O h (x :: e) (next (at_point O (pt x)))
  | PSay b => b && negb (crossed h e)
  end.
Fixpoint pideal (O F : oracle S) (h e : list point) (T : ptree) : bool :=
  match T with
  | PAsk p next => pideal O F (p :: h) e (next (at_point O p))
  | PEval x next => pideal O F h (x :: e) (next (at_point F x))
  | PSay b => b && negb (crossed h e)
  end.

Lemma crossed_more h e h' e' : incl h h' -> incl e e' -> crossed h e = true -> crossed h' e' = true.
Proof. intros H1 H2. rewrite !crossed_spec. intros (x & Hx & Hp). exists x. auto. Qed.
Lemma preal_crossed O T : forall h e, crossed h e = true -> preal O h e T = false.
Proof.
  induction T as [p next IH|x next IH|b]; intros h e H; simpl.
  - apply IH. eapply crossed_more; [| |exact H]; [now apply incl_tl, incl_refl|apply incl_refl].
  - apply IH. eapply crossed_more; [| |exact H]; [apply incl_refl|now apply incl_tl, incl_refl].
  - rewrite H. now destruct b.
Qed.
Lemma pideal_crossed O F T : forall h e, crossed h e = true -> pideal O F h e T = false.
Proof.
  induction T as [p next IH|x next IH|b]; intros h e H; simpl.
  - apply IH. eapply crossed_more; [| |exact H]; [now apply incl_tl, incl_refl|apply incl_refl].
  - apply IH. eapply crossed_more; [| |exact H]; [apply incl_refl|now apply incl_tl, incl_refl].
  - rewrite H. now destruct b.
Qed.

Lemma preal_same O O' T : same O O' -> forall h e, preal O h e T = preal O' h e T.
Proof.
  intros H. induction T as [p next IH|x next IH|b]; intros h e; simpl; auto.
  - unfold at_point. rewrite (H _ _). apply IH.
  - unfold at_point. rewrite (H _ _). apply IH.
Qed.
Lemma pideal_same O O' F F' T : same O O' -> same F F' -> forall h e, pideal O F h e T = pideal O' F' h e T.
Proof.
  intros H H'. induction T as [p next IH|x next IH|b]; intros h e; simpl; auto.
  - unfold at_point. rewrite (H _ _). apply IH.
  - unfold at_point. rewrite (H' _ _). apply IH.
Qed.

(** The hash at the string of an input that has its value does not matter. *)
Lemma pideal_indep O F x a b T : forall h e, In x e ->
  pideal (update O (pt x) a) F h e T = pideal (update O (pt x) b) F h e T.
Proof.
  induction T as [p next IH|y next IH|v]; intros h e Hx; simpl; auto.
  - destruct (point_dec p (pt x)) as [->|Hp].
    + rewrite !pideal_crossed; auto; apply crossed_spec; exists x; split; auto; now left.
    + unfold at_point. rewrite !update_other by (rewrite <- surjective_pairing; auto). now apply IH.
  - apply IH. now right.
Qed.

(** The inputs a tree may evaluate. *)
Fixpoint evaluates (X : point -> Prop) (T : ptree) : Prop :=
  match T with
  | PAsk _ next => forall a, evaluates X (next a)
  | PEval x next => X x /\ forall a, evaluates X (next a)
  | PSay _ => True
  end.
Lemma evaluates_mono (X X' : point -> Prop) T : (forall x, X x -> X' x) -> evaluates X T -> evaluates X' T.
Proof. intros H. induction T as [p next IH|x next IH|b]; simpl; auto. intros [H1 H2]. split; auto. Qed.
Fixpoint evaluated (T : ptree) : list point :=
  match T with
  | PAsk _ next => flat_map (fun a => evaluated (next a)) answers
  | PEval x next => x :: flat_map (fun a => evaluated (next a)) answers
  | PSay _ => []
  end.
Lemma evaluated_spec T : (forall a, In a answers) -> evaluates (fun x => In x (evaluated T)) T.
Proof.
  intros Hall. induction T as [p next IH|x next IH|b]; simpl; auto.
  - intros a. apply (evaluates_mono (fun x => In x (evaluated (next a)))); auto. intros x Hx. apply in_flat_map. eauto.
  - split; auto. intros a. apply (evaluates_mono (fun x => In x (evaluated (next a)))); auto. intros y Hy. right. apply in_flat_map. eauto.
Qed.

Definition bsum (b : bool) : nat := if b then 1 else 0.

Context (X0 : point -> Prop) (pt_inj : forall x y, X0 x -> X0 y -> pt x = pt y -> x = y).

Lemma prf_equal T : forall D X h e O F,
  evaluates X0 T -> NoDup D -> NoDup X ->
  (forall x, In x e -> X0 x /\ ~ In (pt x) D /\ ~ In x X /\ at_point O (pt x) = at_point F x) ->
  (forall x, X0 x -> In x e \/ In (pt x) h \/ (In (pt x) D /\ In x X)) ->
  sum (fun O => sum (fun F => bsum (pideal O F h e T)) (oracles X F)) (oracles D O)
  = sum (fun O => bsum (preal O h e T)) (oracles D O) * q ^ length X.
Proof.
  induction T as [p next IH|x next IH|b]; intros D X h e O F HX HD HXn He Hc.
  - cbn [evaluates] in HX.
    assert (Hc' : forall x, X0 x -> In x e \/ In (pt x) (p :: h) \/ (In (pt x) D /\ In x X)).
    { intros x Hx. destruct (Hc x Hx) as [H|[H|H]]; auto. right; left. now right. }
    destruct (in_dec point_dec p D) as [Hin|Hout].
    + destruct (sum_split answers D p HD Hin) as (D' & HD' & Hp & Hiff & Hlen & Hs).
      rewrite !Hs.
      2: { intros O1 O2 H. f_equal. now apply preal_same. }
      2: { intros O1 O2 H. apply sum_ext. intros F1 _. f_equal. apply pideal_same; auto. intros m t. reflexivity. }
      rewrite <- sum_scale. apply sum_ext. intros a _.
      assert (Hv : forall O', In O' (oracles D' (update O p a)) -> at_point O' p = a).
      { intros O' HO'. unfold at_point. rewrite (oracles_fixed answers D' _ _ _ _ HO') by now rewrite <- surjective_pairing. apply update_at. }
      transitivity (sum (fun O => sum (fun F => bsum (pideal O F (p :: h) e (next a))) (oracles X F)) (oracles D' (update O p a))).
      { apply sum_ext. intros O' HO'. apply sum_ext. intros F' _. cbn [pideal]. now rewrite (Hv O' HO'). }
      transitivity (sum (fun O => bsum (preal O (p :: h) e (next a))) (oracles D' (update O p a)) * q ^ length X).
      2: { f_equal. apply sum_ext. intros O' HO'. cbn [preal]. now rewrite (Hv O' HO'). }
      apply IH; auto.
      * intros x Hx. destruct (He x Hx) as (H0 & H1 & H2 & H3). split; auto. split; [intros H; apply H1, Hiff; auto|]. split; auto.
        unfold at_point in *. rewrite update_other; auto. rewrite <- surjective_pairing. intros E. apply H1. now rewrite E.
      * intros x Hx. destruct (Hc x Hx) as [H|[H|[H H']]]; auto.
        { right; left. now right. }
        apply Hiff in H as [<-|H]; auto. right; left. now left.
    + assert (Hv : forall O', In O' (oracles D O) -> at_point O' p = at_point O p).
      { intros O' HO'. unfold at_point. apply (oracles_fixed answers D _ _ _ _ HO'). now rewrite <- surjective_pairing. }
      transitivity (sum (fun O' => sum (fun F => bsum (pideal O' F (p :: h) e (next (at_point O p)))) (oracles X F)) (oracles D O)).
      { apply sum_ext. intros O' HO'. apply sum_ext. intros F' _. cbn [pideal]. now rewrite (Hv O' HO'). }
      transitivity (sum (fun O' => bsum (preal O' (p :: h) e (next (at_point O p)))) (oracles D O) * q ^ length X).
      2: { f_equal. apply sum_ext. intros O' HO'. cbn [preal]. now rewrite (Hv O' HO'). }
      apply IH; auto.
  - cbn [evaluates] in HX. destruct HX as [Hx HX].
    destruct (crossed h (x :: e)) eqn:Ecr.
    { rewrite (sum_ext _ (fun _ => 0)).
      2: { intros O' _. rewrite (sum_ext _ (fun _ => 0)); [rewrite sum_const; lia|]. intros F' _. cbn [pideal]. now rewrite pideal_crossed. }
      rewrite (sum_ext (fun O => bsum _) (fun _ => 0)).
      2: { intros O' _. cbn [preal]. now rewrite preal_crossed. }
      rewrite !sum_const. lia. }
    assert (Hnh : ~ In (pt x) h).
    { intros H. enough (crossed h (x :: e) = true) by congruence. apply crossed_spec. exists x. split; auto. now left. }
    destruct (in_dec point_dec x e) as [Hxe|Hxe].
    + destruct (He x Hxe) as (_ & H1 & H2 & H3).
      assert (Hv : forall O', In O' (oracles D O) -> at_point O' (pt x) = at_point O (pt x)).
      { intros O' HO'. unfold at_point. apply (oracles_fixed answers D _ _ _ _ HO'). now rewrite <- surjective_pairing. }
      assert (HvF : forall F', In F' (oracles X F) -> at_point F' x = at_point O (pt x)).
      { intros F' HF'. rewrite H3. unfold at_point. apply (oracles_fixed answers X _ _ _ _ HF'). now rewrite <- surjective_pairing. }
      transitivity (sum (fun O' => sum (fun F => bsum (pideal O' F h (x :: e) (next (at_point O (pt x))))) (oracles X F)) (oracles D O)).
      { apply sum_ext. intros O' HO'. apply sum_ext. intros F' HF'. cbn [pideal]. now rewrite (HvF F' HF'). }
      transitivity (sum (fun O' => bsum (preal O' h (x :: e) (next (at_point O (pt x))))) (oracles D O) * q ^ length X).
      2: { f_equal. apply sum_ext. intros O' HO'. cbn [preal]. now rewrite (Hv O' HO'). }
      apply IH; auto.
      * intros y [<-|Hy]; auto.
      * intros y Hy. destruct (Hc y Hy) as [H|H]; auto. left. now right.
    + destruct (Hc x Hx) as [H|[H|[HpD HxX]]]; [contradiction|contradiction|].
      destruct (sum_split answers D (pt x) HD HpD) as (D' & HD' & Hp & Hiff & Hlen & Hs).
      destruct (sum_split answers X x HXn HxX) as (X' & HX' & Hxp & Hiff' & Hlen' & Hs').
      rewrite Hlen'.
      (* real: split the hash at pt x *)
      rewrite (Hs (fun O => bsum (preal O h e (PEval x next)))).
      2: { intros O1 O2 H. f_equal. now apply preal_same. }
      rewrite <- sum_scale.
      (* ideal: split the function at x *)
      rewrite (sum_ext _ (fun O => sum (fun a => sum (fun F => bsum (pideal O F h (x :: e) (next a))) (oracles X' (update F x a))) answers)).
      2: { intros O' _. rewrite Hs'.
           - apply sum_ext. intros a _. apply sum_ext. intros F' HF'. cbn [pideal].
             assert (E : at_point F' x = a).
             { unfold at_point. rewrite (oracles_fixed answers X' _ _ _ _ HF') by now rewrite <- surjective_pairing. apply update_at. }
             now rewrite E.
           - intros F1 F2 H. f_equal. apply pideal_same; auto. intros m t. reflexivity. }
      rewrite sum_swap. apply sum_ext. intros a _.
      set (f := fun O => sum (fun F => bsum (pideal O F h (x :: e) (next a))) (oracles X' (update F x a))).
      assert (Hf : respectsN f).
      { intros O1 O2 H. apply sum_ext. intros F1 _. f_equal. apply pideal_same; auto. intros m t. reflexivity. }
      change (sum f (oracles D O) = sum (fun O => bsum (preal O h e (PEval x next))) (oracles D' (update O (pt x) a)) * q ^ Datatypes.S (length X')).
      rewrite Hs by exact Hf.
      rewrite (sum_ext _ (fun _ => sum f (oracles D' (update O (pt x) a)))).
      2: { intros b _. rewrite <- (sum_update answers f D' O (pt x) b a Hf Hp).
           apply sum_ext. intros O' HO'. 
           assert (Eo : f O' = f (update O' (pt x) b)).
           { apply Hf. intros m t. unfold update. destruct (point_dec (m, t) (pt x)) as [E|]; auto.
             assert (Hv : at_point O' (pt x) = b).
             { unfold at_point. rewrite (oracles_fixed answers D' _ _ _ _ HO') by now rewrite <- surjective_pairing. apply update_at. }
             unfold at_point in Hv. rewrite <- E in Hv. exact Hv. }
           rewrite Eo. unfold f. apply sum_ext. intros F1 _. f_equal. apply pideal_indep. now left. }
      rewrite sum_const.
      transitivity (q * (sum (fun O => bsum (preal O h (x :: e) (next a))) (oracles D' (update O (pt x) a)) * q ^ length X')).
      * f_equal. apply IH; auto.
        -- intros y [<-|Hy].
           ++ split; auto. split; auto. split; auto. unfold at_point. now rewrite !update_at.
           ++ destruct (He y Hy) as (H0 & H1 & H2 & H3). split; auto.
              split; [intros H; apply H1, Hiff; auto|]. split; [intros H; apply H2, Hiff'; auto|].
              unfold at_point in *. rewrite !update_other; auto; rewrite <- surjective_pairing.
              ** intros E. subst y. contradiction.
              ** intros E. apply pt_inj in E; auto. subst y. contradiction.
        -- intros y Hy. destruct (Hc y Hy) as [H|[H|[H H']]]; auto.
           { left. now right. }
           destruct (point_dec y x) as [->|Hne]; [left; now left|].
           right; right. split.
           ++ apply Hiff in H as [E|H]; auto. apply pt_inj in E; auto. contradiction.
           ++ apply Hiff' in H' as [E|H']; auto. contradiction.
      * simpl. rewrite (sum_ext (fun O => bsum (preal O h e (PEval x next))) (fun O => bsum (preal O h (x :: e) (next a)))).
        { ring. }
        intros O' HO'. cbn [preal].
        assert (Hv : at_point O' (pt x) = a).
        { unfold at_point. rewrite (oracles_fixed answers D' _ _ _ _ HO') by now rewrite <- surjective_pairing. apply update_at. }
        now rewrite Hv.
  - cbn [preal pideal]. rewrite !sum_const, !oracles_length. lia.
Qed.
End Prf.
