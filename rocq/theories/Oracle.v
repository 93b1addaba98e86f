(** * Oracle: programs that call a hash function, and counting over all hash
    functions (the random oracle model).

    [with_oracle CS O] is the ciphersuite [CS] whose hash to scalar is the
    function [O] of the hashed string and of the tag; the code of the crate is
    run unchanged on it.  A program that calls the hash is a tree of queries;
    it is given any answers and may choose the next query by them.  Counting
    is over all functions that agree with a given one outside a finite set of
    strings. *)
From Verif Require Import Common Laws Reprogram.
From Coq Require Import Permutation Lia ArithRing.

(** ** Suites with a given hash to scalar *)

Definition oracle (S : Type) : Type := bytes -> bytes -> S.   (* message, tag *)

Definition oracle_group (G : Group) (O : oracle (Scalar G)) : Group := {|
  Elem := Elem G;
  Scalar := Scalar G;
  elem_len := elem_len G;
  scalar_len := scalar_len G;
  elem_ct_eq := elem_ct_eq G;
  elem_add := elem_add G;
  elem_mul := elem_mul G;
  zeroize_elem := zeroize_elem G;
  scalar_ct_eq := scalar_ct_eq G;
  scalar_add := scalar_add G;
  scalar_mul := scalar_mul G;
  scalar_sub := scalar_sub G;
  zeroize_scalar := zeroize_scalar G;
  hash_to_curve := hash_to_curve G;
  hash_to_scalar := fun H msgs tags => Ok (O (concat msgs) (concat tags));
  base_elem := base_elem G;
  identity_elem := identity_elem G;
  serialize_elem := serialize_elem G;
  deserialize_elem := deserialize_elem G;
  random_scalar := random_scalar G;
  invert_scalar := invert_scalar G;
  is_zero_scalar := is_zero_scalar G;
  zero_scalar := zero_scalar G;
  serialize_scalar := serialize_scalar G;
  deserialize_scalar := deserialize_scalar G
|}.

Definition with_oracle (CS : CipherSuite) (O : oracle (scalar CS)) : CipherSuite := {|
  ID := ID CS;
  CSGroup := oracle_group (CSGroup CS) O;
  CSHash := CSHash CS
|}.

Definition oracle_group_laws {G : Group} (GL : GroupLaws G) (O : oracle (Scalar G))
  : GroupLaws (oracle_group G O).
Proof. destruct GL. econstructor; eassumption. Defined.

Definition oracle_laws {CS : CipherSuite} (L : SuiteLaws CS) (O : oracle (scalar CS))
  : SuiteLaws (with_oracle CS O).
Proof.
  refine {| group_laws := oracle_group_laws (group_laws L) O : GroupLaws (CSGroup (with_oracle CS O));
            HashToGroup := (HashToGroup L : bytes -> bytes -> elem (with_oracle CS O));
            HashToScalar := (O : bytes -> bytes -> scalar (with_oracle CS O)) |}.
  - exact (hash_to_curve_spec _ L).
  - intros msgs tags Ht. reflexivity.
  - exact (digest_len _ L).
  - exact (output_size_bound _ L).
  - exact (id_bound _ L).
Defined.

(** ** Programs that query the hash *)

Inductive program (S Out : Type) : Type :=
| Ask (message tag : bytes) (next : S -> program S Out)
| Done (out : Out).
Arguments Ask {S Out} _ _ _.
Arguments Done {S Out} _.

(** What the program computes with the hash function [O]. *)
Fixpoint run {S Out} (O : oracle S) (A : program S Out) : Out :=
  match A with
  | Ask m t next => run O (next (O m t))
  | Done out => out
  end.

(** The program makes at most [n] queries, whatever the answers. *)
Fixpoint at_most {S Out} (n : nat) (A : program S Out) : Prop :=
  match A, n with
  | Done _, _ => True
  | Ask _ _ _, O => False
  | Ask _ _ next, Datatypes.S n => forall a, at_most n (next a)
  end.

(** ** All hash functions *)

Definition point : Type := bytes * bytes.     (* message, tag *)
Definition point_dec (x y : point) : {x = y} + {x <> y}.
Proof. decide equality; apply list_eq_dec, Byte.byte_eq_dec. Defined.

Definition update {S} (O : oracle S) (x : point) (a : S) : oracle S :=
  fun m t => if point_dec (m, t) x then a else O m t.

(** The functions that agree with [O] outside [points], when [scalars] lists
    the possible answers. *)
Fixpoint oracles {S} (scalars : list S) (points : list point) (O : oracle S) : list (oracle S) :=
  match points with
  | [] => [O]
  | x :: rest => flat_map (fun a => oracles scalars rest (update O x a)) scalars
  end.

Definition count {A} (f : A -> bool) (l : list A) : nat := length (filter f l).

(** Of the functions that agree with a given one outside a finite set of
    strings that includes certain ones, at most [num] in [length scalars] are
    in [wins]. *)
Definition chance_at_most {S} (scalars : list S) (num : nat) (wins : oracle S -> bool) : Prop :=
  exists needed : list point, forall (points : list point) (O : oracle S),
  NoDup points -> incl needed points ->
  let all := oracles scalars points O in
  (count wins all * length scalars <= num * length all)%nat.

(** ** Sums *)
Definition sum {A} (f : A -> nat) (l : list A) : nat := fold_right (fun a n => (f a + n)%nat) 0%nat l.

Section Sums.
Open Scope nat_scope.
Lemma sum_le {A} (f g : A -> nat) l : (forall a, In a l -> f a <= g a) -> sum f l <= sum g l.
Proof.
  induction l as [|a l IH]; intros H; simpl; auto.
  specialize (IH (fun b Hb => H b (or_intror Hb))). pose proof (H a (or_introl eq_refl)). lia.
Qed.
Lemma sum_ext {A} (f g : A -> nat) l : (forall a, In a l -> f a = g a) -> sum f l = sum g l.
Proof.
  induction l as [|a l IH]; intros H; simpl; auto.
  rewrite (IH (fun b Hb => H b (or_intror Hb))), (H a (or_introl eq_refl)). auto.
Qed.
Lemma sum_const {A} c (l : list A) : sum (fun _ => c) l = length l * c.
Proof. induction l as [|a l IH]; simpl; auto. Qed.
Lemma sum_add {A} (f g : A -> nat) l : sum (fun a => f a + g a) l = sum f l + sum g l.
Proof. induction l as [|a l IH]; simpl; lia. Qed.
Lemma sum_scale {A} c (f : A -> nat) l : sum (fun a => f a * c) l = sum f l * c.
Proof. induction l as [|a l IH]; simpl; lia. Qed.
Lemma sum_swap {A B} (f : A -> B -> nat) l l' :
  sum (fun a => sum (f a) l') l = sum (fun b => sum (fun a => f a b) l) l'.
Proof.
  induction l as [|a l IH]; simpl.
  - induction l'; simpl; auto.
  - rewrite IH, <- sum_add. reflexivity.
Qed.
Lemma count_le_length {A} (f : A -> bool) l : count f l <= length l.
Proof. unfold count. induction l as [|a l IH]; simpl; auto. destruct (f a); simpl; lia. Qed.
Lemma count_app {A} (f : A -> bool) l l' : count f (l ++ l') = count f l + count f l'.
Proof. unfold count. now rewrite filter_app, app_length. Qed.
Lemma count_flat_map {A B} (f : B -> bool) (g : A -> list B) l :
  count f (flat_map g l) = sum (fun a => count f (g a)) l.
Proof. induction l as [|a l IH]; simpl; auto. now rewrite count_app, IH. Qed.
Lemma length_flat_map {A B} (g : A -> list B) l : length (flat_map g l) = sum (fun a => length (g a)) l.
Proof. induction l as [|a l IH]; simpl; auto. now rewrite app_length, IH. Qed.
Lemma count_mono {A} (f g : A -> bool) l : (forall a, In a l -> f a = true -> g a = true) -> count f l <= count g l.
Proof.
  unfold count. induction l as [|a l IH]; intros H; simpl; auto.
  specialize (IH (fun b Hb => H b (or_intror Hb))). pose proof (H a (or_introl eq_refl)).
  destruct (f a) eqn:E; [rewrite H0 by auto; simpl; lia|]. destruct (g a); simpl; lia.
Qed.
Lemma count_ext {A} (f g : A -> bool) l : (forall a, In a l -> f a = g a) -> count f l = count g l.
Proof.
  intros H. apply Nat.le_antisymm; apply count_mono; intros a Ha E; [rewrite <- H|rewrite H]; auto.
Qed.
Lemma count_sum {A} (f : A -> bool) l : count f l = sum (fun a => if f a then 1 else 0) l.
Proof. unfold count. induction l as [|a l IH]; simpl; auto. destruct (f a); simpl; lia. Qed.
End Sums.

Section Counting.
Open Scope nat_scope.
Context {S : Type} (scalars : list S).
Local Notation q := (length scalars).
Local Notation oracles := (oracles scalars).

Definition same (O O' : oracle S) : Prop := forall (m t : bytes), O m t = O' m t.
Definition respects (f : oracle S -> bool) : Prop := forall O O', same O O' -> f O = f O'.

Lemma update_same (O O' : oracle S) x (a : S) : same O O' -> same (update O x a) (update O' x a).
Proof. intros H m t. unfold update. destruct (point_dec _ _); auto. Qed.
Lemma update_comm (O : oracle S) x y (a b : S) : x <> y -> same (update (update O x a) y b) (update (update O y b) x a).
Proof.
  intros H m t. unfold update. destruct (point_dec (m, t) y), (point_dec (m, t) x); auto. congruence.
Qed.
Lemma update_at (O : oracle S) x (a : S) : update O x a (fst x) (snd x) = a.
Proof. unfold update. rewrite <- surjective_pairing. now destruct (point_dec x x). Qed.
Lemma update_other (O : oracle S) x (a : S) m t : (m, t) <> x -> update O x a m t = O m t.
Proof. intros H. unfold update. now destruct (point_dec (m, t) x). Qed.

Lemma oracles_length D O : length (oracles D O) = q ^ length D.
Proof.
  revert O. induction D as [|x D IH]; intros O; simpl; auto.
  rewrite length_flat_map. erewrite sum_ext by (intros; apply IH). apply sum_const.
Qed.

Lemma oracles_fixed D O O' m t : In O' (oracles D O) -> ~ In (m, t) D -> O' m t = O m t.
Proof.
  revert O. induction D as [|x D IH]; intros O H Hn; simpl in *.
  - destruct H as [<-|[]]; auto.
  - apply in_flat_map in H as (a & _ & H). rewrite (IH _ H) by tauto. apply update_other. intros E. auto.
Qed.

Lemma count_same f D O O' : respects f -> same O O' -> count f (oracles D O) = count f (oracles D O').
Proof.
  intros Hf. revert O O'. induction D as [|x D IH]; intros O O' H; simpl.
  - unfold count. cbn [filter]. rewrite (Hf _ _ H). now destruct (f O').
  - rewrite !count_flat_map. apply sum_ext. intros a _. apply IH. now apply update_same.
Qed.

Lemma count_perm f D D' : Permutation D D' -> NoDup D -> respects f ->
  forall O, count f (oracles D O) = count f (oracles D' O).
Proof.
  intros H Hd Hf. induction H as [|x D D' H IH|x y D|D D' D'' H IH H' IH']; intros O; simpl; auto.
  - rewrite !count_flat_map. apply sum_ext. intros a _. apply IH. now inversion Hd.
  - rewrite !count_flat_map.
    rewrite (sum_ext _ (fun a => sum (fun b => count f (oracles D (update (update O y a) x b))) scalars))
      by (intros; apply count_flat_map).
    rewrite sum_swap. apply sum_ext. intros b _. rewrite count_flat_map. apply sum_ext. intros a _.
    apply count_same; auto. apply update_comm. intros ->. inversion Hd as [|? ? Hn ?]. apply Hn. now left.
  - rewrite IH by auto. apply IH'. eapply Permutation_NoDup; eauto.
Qed.

(** Split at one point of the domain. *)
Lemma count_split f D x : NoDup D -> In x D -> respects f ->
  exists D', NoDup D' /\ ~ In x D' /\ (forall y, In y D <-> y = x \/ In y D') /\ length D = Datatypes.S (length D') /\
  forall O, count f (oracles D O) = sum (fun a => count f (oracles D' (update O x a))) scalars.
Proof.
  intros Hd Hx Hf. apply in_split in Hx as (D1 & D2 & ->).
  exists (D1 ++ D2). pose proof (NoDup_remove_1 _ _ _ Hd). pose proof (NoDup_remove_2 _ _ _ Hd).
  split; auto. split; auto.
  split. { intros y. rewrite !in_app_iff. simpl. split; intuition auto. }
  split. { rewrite !app_length. simpl. lia. }
  intros O'. rewrite (count_perm f _ (x :: D1 ++ D2)); auto.
  - simpl. apply count_flat_map.
  - symmetry. apply Permutation_middle.
Qed.

(** ** The general bound *)

(** The answers that have been seen, the last one first. *)
Definition history : Type := list (point * S).
Definition asked (x : point) (h : history) : bool :=
  existsb (fun e => if point_dec (fst e) x then true else false) h.
Lemma asked_spec x h : asked x h = true <-> exists a, In (x, a) h.
Proof.
  unfold asked. rewrite existsb_exists. split.
  - intros ([y a] & Hin & H). simpl in H. destruct (point_dec y x) as [->|]; [|discriminate]. eauto.
  - intros (a & H). exists (x, a). split; auto. simpl. now destruct (point_dec x x).
Qed.

Context (S_dec : forall a b : S, {a = b} + {a <> b}).
Definition member (a : S) (l : list S) : bool := existsb (fun b => if S_dec a b then true else false) l.
Lemma member_spec a l : member a l = true <-> In a l.
Proof.
  unfold member. rewrite existsb_exists. split.
  - intros (b & Hin & H). destruct (S_dec a b) as [->|]; [auto|discriminate].
  - intros H. exists a. split; auto. now destruct (S_dec a a).
Qed.

Context (bad : history -> point -> list S).

(** Some query that is asked for the first time gets one of the answers that
    are bad at that moment. *)
Fixpoint hits {Out} (O : oracle S) (h : history) (A : program S Out) : bool :=
  match A with
  | Done _ => false
  | Ask m t next =>
    (negb (asked (m, t) h) && member (O m t) (bad h (m, t))) || hits O (((m, t), O m t) :: h) (next (O m t))
  end.

Lemma hits_respects {Out} h (A : program S Out) : respects (fun O => hits O h A).
Proof.
  intros O O' H. revert h. induction A as [m t next IH|out]; intros h; simpl; auto.
  rewrite (H m t). f_equal. apply IH.
Qed.

Fixpoint within {Out} (P : point -> Prop) (A : program S Out) : Prop :=
  match A with
  | Done _ => True
  | Ask m t next => P (m, t) /\ forall a, within P (next a)
  end.

Lemma within_mono {Out} (P P' : point -> Prop) (A : program S Out) : (forall x, P x -> P' x) -> within P A -> within P' A.
Proof. intros H. induction A as [m t next IH|]; simpl; auto. intros [H1 H2]. split; auto. Qed.

Lemma count_in l : NoDup scalars -> count (fun a => member a l) scalars <= length l.
Proof.
  intros Hs. unfold count. apply NoDup_incl_length; [now apply NoDup_filter|].
  intros a Ha. apply filter_In in Ha as [_ Ha]. now apply member_spec.
Qed.

Lemma hits_bound {Out} (N B : nat) :
  NoDup scalars ->
  (forall h x, length h < N -> length (bad h x) <= B) ->
  forall (n : nat) (A : program S Out) (D : list point) (h : history) (O : oracle S),
  at_most n A -> length h + n <= N ->
  NoDup D -> (forall x, In x D -> asked x h = false) ->
  within (fun x => In x D \/ asked x h = true \/ forall h', bad h' x = []) A ->
  count (fun O => hits O h A) (oracles D O) * q <= n * B * q ^ length D.
Proof.
  intros Hs HB n A. revert n. induction A as [m t next IH|out]; intros n D h O Hn HN Hd Hf Hw.
  2:{ simpl. unfold count.
      assert (E : filter (fun _ : oracle S => false) (oracles D O) = []).
      { induction (oracles D O); auto. }
      rewrite E. simpl. lia. }
  destruct n as [|n]; [destruct Hn|]. simpl in Hn, Hw. destruct Hw as [Hx Hw].
  destruct (in_dec point_dec (m, t) D) as [Hin|Hout].
  - pose proof (Hf _ Hin) as Hfresh.
    destruct (count_split (fun O => hits O h (Ask m t next)) D (m, t) Hd Hin (hits_respects h (Ask m t next)))
      as (D' & Hd' & Hx' & Hiff & Hlen & Hc).
    rewrite Hc, Hlen.
    set (b := bad h (m, t)).
    assert (Hle : sum (fun a => count (fun O => hits O h (Ask m t next)) (oracles D' (update O (m, t) a))) scalars * q
             <= sum (fun a => (if member a b then 1 else 0) * (q * q ^ length D') + n * B * q ^ length D') scalars).
    { rewrite <- sum_scale. apply sum_le. intros a _.
      assert (Hval : forall O', In O' (oracles D' (update O (m, t) a)) -> O' m t = a).
      { intros O' HO'. rewrite (oracles_fixed _ _ _ _ _ HO' Hx'). apply (update_at O (m, t) a). }
      destruct (member a b) eqn:Ea.
      - pose proof (count_le_length (fun O => hits O h (Ask m t next)) (oracles D' (update O (m, t) a))) as Hc'.
        rewrite oracles_length in Hc'. nia.
      - rewrite (count_ext _ (fun O => hits O (((m, t), a) :: h) (next a))).
        + simpl. apply (IH a n D' (((m, t), a) :: h) (update O (m, t) a)); auto.
          * simpl. lia.
          * intros y Hy. destruct (asked y (((m, t), a) :: h)) eqn:E; auto. apply asked_spec in E as (a' & [E|E]).
            -- injection E as <- _. contradiction.
            -- rewrite <- (Hf y) by (apply Hiff; auto). symmetry. apply asked_spec. eauto.
          * refine (within_mono _ _ _ _ (Hw a)). intros x H1.
            destruct H1 as [H1|[H1|H1]]; auto.
            -- apply Hiff in H1 as [E|H1]; auto. right; left. apply asked_spec. exists a. left. now rewrite E.
            -- right; left. apply asked_spec in H1 as (a'' & H1). apply asked_spec. exists a''. now right.
        + intros O' HO'. simpl. rewrite (Hval O' HO'), Hfresh. fold b. rewrite Ea. reflexivity. }
    etransitivity; [exact Hle|]. rewrite sum_add, sum_const.
    rewrite sum_scale, <- count_sum.
    pose proof (count_in b Hs) as Hb. pose proof (HB h (m, t) ltac:(lia)) as HBb. fold b in HBb.
    pose proof (Nat.le_trans _ _ _ Hb HBb) as Hcb. clear - Hcb.
    rewrite Nat.pow_succ_r'. set (X := q ^ length D'). set (c := count _ scalars) in *.
    pose proof (Nat.mul_le_mono_r _ _ (q * X) Hcb).
    replace (Datatypes.S n * B * (q * X)) with (B * (q * X) + q * (n * B * X)) by ring. lia.
  - assert (Hnone : asked (m, t) h = true \/ forall h', bad h' (m, t) = []) by (destruct Hx as [Hx|Hx]; [contradiction|auto]).
    rewrite (count_ext _ (fun O' => hits O' (((m, t), O m t) :: h) (next (O m t)))).
    + assert (Hstep : count (fun O' => hits O' (((m, t), O m t) :: h) (next (O m t))) (oracles D O) * q <= n * B * q ^ length D).
      { apply (IH (O m t) n D (((m, t), O m t) :: h) O); auto.
        * simpl. lia.
        * intros y Hy. destruct (asked y (((m, t), O m t) :: h)) eqn:E; auto. apply asked_spec in E as (a' & [E|E]).
          -- injection E as <- _. contradiction.
          -- rewrite <- (Hf y) by auto. symmetry. apply asked_spec. eauto.
        * refine (within_mono _ _ _ _ (Hw (O m t))). intros x H1.
          destruct H1 as [H1|[H1|H1]]; auto.
          right; left. apply asked_spec in H1 as (a'' & H1). apply asked_spec. exists a''. now right. }
      simpl. nia.
    + intros O' HO'. simpl. rewrite (oracles_fixed _ _ _ _ _ HO' Hout).
      destruct Hnone as [->| ->]; simpl; auto. now rewrite Bool.andb_false_r.
Qed.

(** The strings a program can ask for. *)
Fixpoint queries {Out} (A : program S Out) : list point :=
  match A with
  | Done _ => []
  | Ask m t next => (m, t) :: flat_map (fun a => queries (next a)) scalars
  end.
Lemma queries_within {Out} (A : program S Out) : (forall a, In a scalars) -> within (fun x => In x (queries A)) A.
Proof.
  intros Hall. induction A as [m t next IH|]; simpl; auto. split; auto.
  intros a. apply (within_mono (fun x => In x (queries (next a)))); auto.
  intros x Hx. right. apply in_flat_map. exists a. auto.
Qed.

(** ** Sequencing *)
Fixpoint andthen {A B} (P : program S A) (f : A -> program S B) : program S B :=
  match P with
  | Ask m t next => Ask m t (fun a => andthen (next a) f)
  | Done out => f out
  end.
Lemma run_andthen {A B} O (P : program S A) (f : A -> program S B) : run O (andthen P f) = run O (f (run O P)).
Proof. induction P as [m t next IH|]; simpl; auto. Qed.
Lemma at_most_mono {A} n n' (P : program S A) : n <= n' -> at_most n P -> at_most n' P.
Proof.
  revert n n'. induction P as [m t next IH|]; intros [|n] [|n'] H HP; simpl in *; auto; try lia; try contradiction.
  intros a. apply (IH a n n'); auto. lia.
Qed.
Lemma at_most_andthen {A B} n n' (P : program S A) (f : A -> program S B) :
  at_most n P -> (forall a, at_most n' (f a)) -> at_most (n + n') (andthen P f).
Proof.
  revert n. induction P as [m t next IH|]; intros n HP Hf; simpl in *.
  - destruct n as [|n]; [contradiction|]. simpl. intros a. apply IH; auto.
  - apply (at_most_mono n'); [lia|auto].
Qed.

(** The history at the end of a run. *)
Fixpoint final {A} (O : oracle S) (h : history) (P : program S A) : history :=
  match P with
  | Ask m t next => final O (((m, t), O m t) :: h) (next (O m t))
  | Done _ => h
  end.
Lemma hits_andthen {A B} O (P : program S A) (f : A -> program S B) h :
  hits O h (andthen P f) = hits O h P || hits O (final O h P) (f (run O P)).
Proof.
  revert h. induction P as [m t next IH|]; intros h; simpl; auto.
  rewrite IH. now rewrite Bool.orb_assoc.
Qed.
End Counting.

Lemma chance_of_hits {S Out} (scalars : list S) S_dec bad (N B : nat) (wins : oracle S -> bool) (T : program S Out) :
  NoDup scalars -> (forall a, In a scalars) ->
  (forall h x, (length h < N)%nat -> (length (bad h x) <= B)%nat) -> at_most N T ->
  (forall O, wins O = true -> hits S_dec bad O [] T = true) ->
  chance_at_most scalars (N * B) wins.
Proof.
  intros Hnd Hall HB HN Hw. exists (queries scalars T). intros points O Hp Hinc all.
  unfold all. rewrite oracles_length. etransitivity.
  - apply Nat.mul_le_mono_r. apply count_mono with (g := fun O => hits S_dec bad O [] T). auto.
  - apply (hits_bound scalars S_dec bad N B Hnd HB N T points [] O HN); auto.
    apply (within_mono (fun x => In x (queries scalars T))); [auto|]. now apply queries_within.
Qed.

(** The same when the answer at one string is fixed first: the program and the
    bad answers may depend on it. *)
Lemma chance_given {S Out} (scalars : list S) S_dec (x0 : point) (bad : S -> history -> point -> list S) (N B : nat)
    (wins : oracle S -> bool) (T : S -> program S Out) :
  NoDup scalars -> (forall a, In a scalars) ->
  (forall a h x, (length h < N)%nat -> (length (bad a h x) <= B)%nat) ->
  (forall a h, bad a h x0 = []) -> (forall a, at_most N (T a)) ->
  (forall O, wins O = true -> hits S_dec (bad (O (fst x0) (snd x0))) O [] (T (O (fst x0) (snd x0))) = true) ->
  chance_at_most scalars (N * B) wins.
Proof.
  intros Hnd Hall HB H0 HN Hw. exists (x0 :: flat_map (fun a => queries scalars (T a)) scalars).
  intros points O Hp Hinc all. unfold all. rewrite oracles_length.
  set (f := fun O : oracle S => hits S_dec (bad (O (fst x0) (snd x0))) O [] (T (O (fst x0) (snd x0)))).
  assert (Hf : respects f).
  { intros O1 O2 H. unfold f. rewrite (H (fst x0) (snd x0)). now apply hits_respects. }
  etransitivity; [apply Nat.mul_le_mono_r; apply count_mono with (g := f); intros O1 _; apply Hw|].
  destruct (count_split scalars f points x0 Hp) as (D & Hd & Hx & Hiff & Hlen & Hc); auto.
  { apply Hinc. now left. }
  rewrite Hc, <- sum_scale, Hlen, Nat.pow_succ_r'.
  replace (N * B * (length scalars * length scalars ^ length D))%nat
    with (length scalars * (N * B * length scalars ^ length D))%nat by ring.
  rewrite <- (sum_const (N * B * length scalars ^ length D) scalars). apply sum_le. intros a _.
  assert (Hin : forall O', In O' (oracles scalars D (update O x0 a)) -> O' (fst x0) (snd x0) = a).
  { intros O' HO'. rewrite (oracles_fixed scalars D _ _ (fst x0) (snd x0) HO') by now rewrite <- surjective_pairing.
    apply update_at. }
  rewrite (count_ext _ (fun O => hits S_dec (bad a) O [] (T a))) by (intros O' HO'; unfold f; now rewrite (Hin O' HO')).
  apply (hits_bound scalars S_dec (bad a) N B Hnd (HB a) N (T a) D [] (update O x0 a) (HN a)); auto.
  apply (within_mono (fun x => In x (queries scalars (T a)))); [|now apply queries_within].
  intros x Hq. assert (Hxp : In x points).
  { apply Hinc. right. apply in_flat_map. exists a. auto. }
  apply Hiff in Hxp as [->|Hxp]; auto.
Qed.
