(** * Guess: naming the value of the hash at a string that was never hashed.

    A program that calls the hash ends by naming values at some strings.  For
    at most [n / |S|] of the hash functions one of [n] named values is right at
    a string that the program did not hash, whatever the number of its calls. *)
From Verif Require Import Common Oracle.
From Coq Require Import Permutation Lia.
Open Scope nat_scope.

Section Guess.
Context {S : Type} (S_dec : forall a b : S, {a = b} + {a <> b}) (answers : list S).
Local Notation q := (length answers).
Local Notation oracles := (oracles answers).

Definition right_at (O : oracle S) (c : point * S) : bool :=
  if S_dec (O (fst (fst c)) (snd (fst c))) (snd c) then true else false.
Lemma right_at_spec O x a : right_at O (x, a) = true <-> O (fst x) (snd x) = a.
Proof. unfold right_at. simpl. destruct (S_dec _ _); split; auto; discriminate. Qed.

(** Some value the program names is right and was not asked for. *)
Fixpoint guesses (O : oracle S) (h : history (S := S)) (P : program S (list (point * S))) : bool :=
  match P with
  | Ask m t next => guesses O ((m, t, O m t) :: h) (next (O m t))
  | Done claims => existsb (fun c => negb (asked (fst c) h) && right_at O c) claims
  end.

(** The program names at most [n] values. *)
Fixpoint names {A} (n : nat) (P : program S (list A)) : Prop :=
  match P with
  | Ask _ _ next => forall a, names n (next a)
  | Done claims => length claims <= n
  end.

Fixpoint touches (X : point -> Prop) (P : program S (list (point * S))) : Prop :=
  match P with
  | Ask m t next => X (m, t) /\ forall a, touches X (next a)
  | Done claims => Forall (fun c => X (fst c)) claims
  end.
Lemma touches_mono (X X' : point -> Prop) P : (forall x, X x -> X' x) -> touches X P -> touches X' P.
Proof.
  intros H. induction P as [m t next IH|]; simpl.
  - intros [H1 H2]. split; auto.
  - intros HX. eapply Forall_impl; [|exact HX]. auto.
Qed.
Fixpoint touched (P : program S (list (point * S))) : list point :=
  match P with
  | Ask m t next => (m, t) :: flat_map (fun a => touched (next a)) answers
  | Done claims => map fst claims
  end.
Lemma touched_spec P : (forall a, In a answers) -> touches (fun x => In x (touched P)) P.
Proof.
  intros Hall. induction P as [m t next IH|claims]; simpl.
  - split; auto. intros a. apply (touches_mono (fun x => In x (touched (next a)))); auto.
    intros x Hx. right. apply in_flat_map. exists a. auto.
  - apply Forall_forall. intros c Hc. now apply in_map.
Qed.

Lemma guesses_respects h P : respects (fun O => guesses O h P).
Proof.
  intros O O' H. revert h. induction P as [m t next IH|claims]; intros h; simpl.
  - rewrite (H m t). apply IH.
  - induction claims as [|[x a] claims IHc]; simpl; auto. rewrite IHc. unfold right_at. simpl. now rewrite (H _ _).
Qed.

Lemma right_respects c : respects (fun O => right_at O c).
Proof. intros O O' H. unfold right_at. now rewrite (H _ _). Qed.

(** One fresh string: one answer in [q]. *)
Lemma right_bound x a D O : NoDup answers -> NoDup D -> In x D ->
  count (fun O => right_at O (x, a)) (oracles D O) * q <= q ^ length D.
Proof.
  intros Hs Hd Hx.
  destruct (count_split answers (fun O => right_at O (x, a)) D x Hd Hx (right_respects (x, a))) as (D' & Hd' & Hn & _ & Hl & Hc).
  rewrite Hc, Hl, Nat.pow_succ_r', Nat.mul_comm. apply Nat.mul_le_mono_l.
  rewrite (sum_ext _ (fun b => (if S_dec b a then 1 else 0) * q ^ length D')).
  - rewrite sum_scale. enough (sum (fun b => if S_dec b a then 1 else 0) answers <= 1) by nia.
    clear - Hs. induction answers as [|b l IH]; simpl; auto. inversion Hs; subst. specialize (IH H2).
    destruct (S_dec b a) as [->|]; [|lia].
    rewrite (sum_ext _ (fun _ => 0)); [rewrite sum_const; lia|]. intros c Hc. destruct (S_dec c a); congruence.
  - intros b _. assert (Hv : forall O', In O' (oracles D' (update O x b)) -> O' (fst x) (snd x) = b).
    { intros O' HO'. rewrite (oracles_fixed answers D' _ _ _ _ HO') by now rewrite <- surjective_pairing. apply update_at. }
    rewrite (count_ext _ (fun _ => if S_dec b a then true else false)).
    + rewrite <- (oracles_length answers D' (update O x b)). unfold count. destruct (S_dec b a).
      * rewrite Nat.mul_1_l. induction (oracles D' (update O x b)); simpl; auto.
        f_equal. apply IHl. intros. apply Hv. now right.
      * induction (oracles D' (update O x b)); simpl; auto. apply IHl. intros. apply Hv. now right.
    + intros O' HO'. unfold right_at. cbn [fst snd]. now rewrite (Hv O' HO').
Qed.

Lemma count_false {A} (l : list A) : count (fun _ => false) l = 0.
Proof. unfold count. induction l; simpl; auto. Qed.

Lemma guess_bound (n : nat) : NoDup answers ->
  forall (P : program S (list (point * S))) (D : list point) (h : history) (O : oracle S),
  names n P -> NoDup D -> (forall x, In x D -> asked x h = false) ->
  touches (fun x => In x D \/ asked x h = true) P ->
  count (fun O => guesses O h P) (oracles D O) * q <= n * q ^ length D.
Proof.
  intros Hs P. induction P as [m t next IH|claims]; intros D h O Hn Hd Hf Ht.
  - simpl in Hn, Ht. destruct Ht as [Hx Ht].
    assert (Hstep : forall a D' O', NoDup D' -> (forall x, In x D <-> x = (m, t) \/ In x D') \/ (asked (m, t) h = true /\ D' = D) ->
      ~ In (m, t) D' -> count (fun O => guesses O ((m, t, a) :: h) (next a)) (oracles D' O') * q <= n * q ^ length D').
    { intros a D' O' Hd' Hiff Hnin. apply IH; auto.
      - intros y Hy. destruct (asked y ((m, t, a) :: h)) eqn:E; auto. apply asked_spec in E as (a' & [E|E]).
        + injection E as <- _. contradiction.
        + rewrite <- (Hf y); [symmetry; apply asked_spec; eauto|].
          destruct Hiff as [Hiff|[_ ->]]; auto. apply Hiff. auto.
      - refine (touches_mono _ _ _ _ (Ht a)). intros x [H1|H1].
        + destruct Hiff as [Hiff|[_ ->]]; auto. apply Hiff in H1 as [->|H1]; auto.
          right. apply asked_spec. exists a. now left.
        + right. apply asked_spec in H1 as (a'' & H1). apply asked_spec. exists a''. now right. }
    destruct (in_dec point_dec (m, t) D) as [Hin|Hout].
    + destruct (count_split answers (fun O => guesses O h (Ask m t next)) D (m, t) Hd Hin (guesses_respects h (Ask m t next)))
        as (D' & Hd' & Hx' & Hiff & Hlen & Hc).
      rewrite Hc, Hlen, Nat.pow_succ_r', <- sum_scale.
      replace (n * (q * q ^ length D')) with (q * (n * q ^ length D')) by lia.
      rewrite <- (sum_const (n * q ^ length D') answers). apply sum_le. intros a _.
      rewrite (count_ext _ (fun O => guesses O ((m, t, a) :: h) (next a))).
      * apply Hstep; auto.
      * intros O' HO'. simpl.
        assert (E : O' m t = a) by (rewrite (oracles_fixed _ _ _ _ _ _ HO' Hx'); apply (update_at O (m, t) a)).
        now rewrite E.
    + destruct Hx as [Hx|Hx]; [contradiction|].
      rewrite (count_ext _ (fun O' => guesses O' ((m, t, O m t) :: h) (next (O m t)))).
      * apply Hstep; auto.
      * intros O' HO'. simpl. now rewrite (oracles_fixed _ _ _ _ _ _ HO' Hout).
  - simpl in Hn, Ht.
    enough (Hc : count (fun O => guesses O h (Done claims)) (oracles D O) * q <= length claims * q ^ length D) by nia.
    clear Hn. induction claims as [|[x a] claims IHc]; simpl.
    + rewrite count_false. lia.
    + inversion Ht as [|? ? Hx Ht']; subst. specialize (IHc Ht').
      set (f := fun O : oracle S => negb (asked x h) && right_at O (x, a)).
      set (g := fun O => guesses O h (Done claims)).
      assert (Hor : count (fun O => f O || g O) (oracles D O) <= count f (oracles D O) + count g (oracles D O)).
      { rewrite !count_sum, <- sum_add. apply sum_le. intros O' _. destruct (f O'), (g O'); simpl; lia. }
      assert (Hfx : count f (oracles D O) * q <= q ^ length D).
      { cbn [fst] in Hx. unfold f. destruct (asked x h) eqn:Ea; simpl.
        - rewrite count_false. lia.
        - destruct Hx as [Hx|Hx]; [|congruence]. now apply right_bound. }
      fold g in IHc. change (count (fun O => f O || g O) (oracles D O) * q <= q ^ length D + length claims * q ^ length D). nia.
Qed.

Lemma chance_of_guess (n : nat) (wins : oracle S -> bool) (P : program S (list (point * S))) :
  NoDup answers -> (forall a, In a answers) -> names n P ->
  (forall O, wins O = true -> guesses O [] P = true) ->
  chance_at_most answers n wins.
Proof.
  intros Hnd Hall Hn Hw. exists (touched P). intros points O Hp Hinc all.
  unfold all. rewrite oracles_length. etransitivity.
  - apply Nat.mul_le_mono_r. apply count_mono with (g := fun O => guesses O [] P). auto.
  - apply (guess_bound n Hnd P points [] O Hn Hp); auto.
    apply (touches_mono (fun x => In x (touched P))); [auto|]. now apply touched_spec.
Qed.

Lemma names_andthen {A B} n (P : program S A) (f : A -> program S (list B)) :
  (forall a, names n (f a)) -> names n (andthen P f).
Proof. intros H. induction P as [m t next IH|]; simpl; auto. Qed.

Lemma guesses_final O h P :
  guesses O h P = existsb (fun c => negb (asked (fst c) (final O h P)) && right_at O c) (run O P).
Proof. revert h. induction P as [m t next IH|claims]; intros h; simpl; auto. Qed.

Lemma final_andthen {A B} O h (P : program S A) (f : A -> program S B) :
  final O h (andthen P f) = final O (final O h P) (f (run O P)).
Proof. revert h. induction P as [m t next IH|]; intros h; simpl; auto. Qed.
End Guess.

(** ** Attacks on a server that has a secret *)

Inductive attack (Call Reply Out : Type) : Type :=
| Hash (message : bytes) (next : bytes -> attack Call Reply Out)
| Query (call : Call) (next : Reply -> attack Call Reply Out)
| Name (out : Out).
Arguments Hash {Call Reply Out} _ _.
Arguments Query {Call Reply Out} _ _.
Arguments Name {Call Reply Out} _.

(** What the attacker ends with, what it has hashed, and its calls to the
    server. *)
Fixpoint play {Call Reply Out St} (hash : bytes -> bytes) (server : Call -> St -> Reply * St)
    (A : attack Call Reply Out) (st : St) : Out * list bytes * list Call :=
  match A with
  | Hash m next =>
      let '(out, hashed, calls) := play hash server (next (hash m)) st in (out, m :: hashed, calls)
  | Query c next =>
      let '(r, st') := server c st in
      let '(out, hashed, calls) := play hash server (next r) st' in (out, hashed, c :: calls)
  | Name out => (out, [], [])
  end.

(** The attacker names at most [n] things, whatever the answers and the
    replies. *)
Fixpoint names_at_most {Call Reply A} (n : nat) (X : attack Call Reply (list A)) : Prop :=
  match X with
  | Hash _ next => forall a, names_at_most n (next a)
  | Query _ next => forall r, names_at_most n (next r)
  | Name out => length out <= n
  end.

(** ** The suite with a given output hash *)

Definition digest_of (n : N) : Type := { d : bytes | len d = n }.
Definition value {n} (d : digest_of n) : bytes := proj1_sig d.

Lemma value_inj n (a b : digest_of n) : value a = value b -> a = b.
Proof.
  destruct a as [a Ha], b as [b Hb]. unfold value. simpl. intros <-. f_equal. apply Eqdep_dec.UIP_dec, N.eq_dec.
Qed.
Definition digest_dec n (a b : digest_of n) : {a = b} + {a <> b}.
Proof.
  destruct (list_eq_dec Byte.byte_eq_dec (value a) (value b)) as [E|E].
  - left. now apply value_inj.
  - right. intros ->. auto.
Defined.

(** The digest [d], if it has the right length. *)
Definition to_digest (n : N) (d : bytes) : list (digest_of n) :=
  match N.eq_dec (len d) n with
  | left E => [exist _ d E]
  | right _ => []
  end.

(** The hash function [Hash] of RFC 9497 is [O]; hash to group and hash to
    scalar are the ones of [CS]. *)
Definition digest_group (G : Group) (H : HashFn) : Group := {|
  Elem := Elem G;
  Scalar := Scalar G;
  elem_len := elem_len G;
  scalar_len := scalar_len G;
  elem_ct_eq := elem_ct_eq G;
  elem_add := elem_add G;
  elem_mul := elem_mul G;
  zeroize_elem := zeroize_elem G;
  scalar_ct_eq := scalar_ct_eq G;
  scalar_add := scalar_add G;
  scalar_mul := scalar_mul G;
  scalar_sub := scalar_sub G;
  zeroize_scalar := zeroize_scalar G;
  hash_to_curve := fun _ => hash_to_curve G H;
  hash_to_scalar := fun _ => hash_to_scalar G H;
  base_elem := base_elem G;
  identity_elem := identity_elem G;
  serialize_elem := serialize_elem G;
  deserialize_elem := deserialize_elem G;
  random_scalar := random_scalar G;
  invert_scalar := invert_scalar G;
  is_zero_scalar := is_zero_scalar G;
  zero_scalar := zero_scalar G;
  serialize_scalar := serialize_scalar G;
  deserialize_scalar := deserialize_scalar G
|}.

Notation output_digest CS := (digest_of (output_size (CSHash CS))).

Definition with_digest (CS : CipherSuite) (O : oracle (output_digest CS)) : CipherSuite := {|
  ID := ID CS;
  CSGroup := digest_group (CSGroup CS) (CSHash CS);
  CSHash := {| digest := fun m => value (O m []);
               output_size := output_size (CSHash CS);
               block_size := block_size (CSHash CS) |}
|}.
