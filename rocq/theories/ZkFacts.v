(** * ZkFacts: proofs made without the key, and counting.

    A game tree asks the hash and asks for proofs.  With the key a proof is
    made from a random nonce and the hash at one string; without it, from a
    random challenge and response, the hash being changed at that string.  The
    numbers of accepting runs differ by little, because the string is new
    unless the nonce is one of few. *)
From Verif Require Import BytesFacts Spec GroupFacts PropEncoding Oracle Reprogram PropSimulation RomFacts.
From Coq Require Import Permutation Lia ArithRing.
Open Scope nat_scope.

(** ** Sums over hash functions *)
Section SumOracles.
Context {S : Type} (scalars : list S).
Local Notation q := (length scalars).
Local Notation oracles := (oracles scalars).

Definition respectsN (f : oracle S -> nat) : Prop := forall O O', same O O' -> f O = f O'.

Lemma sum_app {A} (f : A -> nat) l l' : sum f (l ++ l') = sum f l + sum f l'.
Proof. induction l; simpl; lia. Qed.
Lemma sum_flat_map {A B} (f : B -> nat) (g : A -> list B) l : sum f (flat_map g l) = sum (fun a => sum f (g a)) l.
Proof. induction l; simpl; auto. rewrite sum_app. auto. Qed.
Lemma sum_scale_l {A} c (f : A -> nat) l : sum (fun a => c * f a) l = c * sum f l.
Proof. induction l; simpl; lia. Qed.
Lemma sum_perm {A} (f : A -> nat) l l' : Permutation l l' -> sum f l = sum f l'.
Proof. intros H. induction H; simpl; lia. Qed.
Lemma sum_map {A B} (f : B -> nat) (g : A -> B) l : sum f (map g l) = sum (fun a => f (g a)) l.
Proof. induction l; simpl; auto. Qed.
Lemma sum_filter {A} (p : A -> bool) (f : A -> nat) l : sum f (filter p l) = sum (fun a => if p a then f a else 0) l.
Proof. induction l as [|a l IH]; simpl; auto. destruct (p a); simpl; lia. Qed.

Lemma sum_same f D O O' : respectsN f -> same O O' -> sum f (oracles D O) = sum f (oracles D O').
Proof.
  intros Hf. revert O O'. induction D as [|x D IH]; intros O O' H; simpl.
  - now rewrite (Hf _ _ H).
  - rewrite !sum_flat_map. apply sum_ext. intros a _. apply IH. now apply update_same.
Qed.
Lemma sum_perm_oracles f D D' : Permutation D D' -> NoDup D -> respectsN f ->
  forall O, sum f (oracles D O) = sum f (oracles D' O).
Proof.
  intros H Hd Hf. induction H as [|x D D' H IH|x y D|D D' D'' H IH H' IH']; intros O; simpl; auto.
  - rewrite !sum_flat_map. apply sum_ext. intros a _. apply IH. now inversion Hd.
  - rewrite !sum_flat_map.
    rewrite (sum_ext _ (fun a => sum (fun b => sum f (oracles D (update (update O y a) x b))) scalars))
      by (intros; apply sum_flat_map).
    rewrite sum_swap. apply sum_ext. intros b _. rewrite sum_flat_map. apply sum_ext. intros a _.
    apply sum_same; auto. apply update_comm. intros ->. inversion Hd as [|? ? Hn ?]. apply Hn. now left.
  - rewrite IH by auto. apply IH'. eapply Permutation_NoDup; eauto.
Qed.
Lemma sum_split D x : NoDup D -> In x D ->
  exists D', NoDup D' /\ ~ In x D' /\ (forall y, In y D <-> y = x \/ In y D') /\ length D = Datatypes.S (length D') /\
  forall f O, respectsN f -> sum f (oracles D O) = sum (fun a => sum f (oracles D' (update O x a))) scalars.
Proof.
  intros Hd Hx. apply in_split in Hx as (D1 & D2 & ->).
  exists (D1 ++ D2). pose proof (NoDup_remove_1 _ _ _ Hd). pose proof (NoDup_remove_2 _ _ _ Hd).
  split; auto. split; auto.
  split. { intros y. rewrite !in_app_iff. simpl. split; intuition auto. }
  split. { rewrite !app_length. simpl. lia. }
  intros f O' Hf. rewrite (sum_perm_oracles f _ (x :: D1 ++ D2)); auto.
  - simpl. apply sum_flat_map.
  - symmetry. apply Permutation_middle.
Qed.

Lemma update_twice (O : oracle S) x (a b : S) : same (update (update O x a) x b) (update O x b).
Proof. intros m t. unfold update. destruct (point_dec (m, t) x); auto. Qed.

(** Changing the function at a point outside the domain afterwards. *)
Lemma sum_update f D O x a b : respectsN f -> ~ In x D ->
  sum (fun O => f (update O x b)) (oracles D (update O x a)) = sum f (oracles D (update O x b)).
Proof.
  intros Hf. revert O. induction D as [|y D IH]; intros O Hx; simpl.
  - rewrite (Hf _ _ (update_twice O x a b)). lia.
  - rewrite !sum_flat_map. apply sum_ext. intros c _.
    assert (Hxy : x <> y) by (intros ->; apply Hx; now left).
    rewrite (sum_same (fun O => f (update O x b)) D _ (update (update O y c) x a)).
    + rewrite IH by (intros H; apply Hx; now right). apply sum_same; auto. apply update_comm. auto.
    + intros O1 O2 H. apply Hf. now apply update_same.
    + apply update_comm. auto.
Qed.
End SumOracles.

Section Zk.
Context {CS : CipherSuite} (L : SuiteLaws CS) (mode : N).
Context (scalars : list (scalar CS)) (all_scalars : forall a, In a scalars) (nodup_scalars : NoDup scalars).
Local Notation G := (CSGroup CS).
Local Notation GL := (group_laws L).
Local Notation S := (scalar CS).
Local Notation A := (base_elem G).
Local Notation q := (length scalars).
Local Notation oracles := (oracles scalars).
Local Notation "P [+] Q" := (elem_add G P Q) (at level 50, left associativity).
Local Notation "k [*] P" := (elem_mul G P k) (at level 40).
Local Notation tag := (h2s_tag CS mode).

(** The nonces a server can draw. *)
Definition nonces : list S := filter (fun r => negb (is_zero_scalar G r)) scalars.
Local Notation nq := (length nonces).

Definition chal_point (t : S) (M : elem CS) (T2 T3 : elem CS) : point :=
  (challenge_string (t [*] A) M (t [*] M) T2 T3, tag).
(* the string for nonce [r] *)
Definition nonce_point (t : S) (M : elem CS) (r : S) : point := chal_point t M (r [*] A) (r [*] M).

Inductive ztree : Type :=
| ZAsk (m t : bytes) (next : S -> ztree)
| ZProve (t : S) (M : elem CS) (next : S * S -> ztree)
| ZOut (b : bool).

Definition response (t r c : S) : S := scalar_sub G r (scalar_mul G c t).

(** The number of the sequences of [n] nonces for which the answer is yes. *)
Fixpoint real (n : nat) (O : oracle S) (T : ztree) : nat :=
  match T with
  | ZAsk m t next => real n O (next (O m t))
  | ZProve t M next =>
    match n with
    | Datatypes.O => 0
    | Datatypes.S n => sum (fun r => let x := nonce_point t M r in
        let c := O (fst x) (snd x) in real n O (next (c, response t r c))) nonces
    end
  | ZOut b => if b then nq ^ n else 0
  end.

(** The same for sequences of pairs (challenge, nonce); the hash is changed. *)
Fixpoint simr (n : nat) (O : oracle S) (T : ztree) : nat :=
  match T with
  | ZAsk m t next => simr n O (next (O m t))
  | ZProve t M next =>
    match n with
    | Datatypes.O => 0
    | Datatypes.S n => sum (fun r => sum (fun c =>
        simr n (update O (nonce_point t M r) c) (next (c, response t r c))) scalars) nonces
    end
  | ZOut b => if b then (nq * q) ^ n else 0
  end.

(** Those for which a string is not new. *)
Fixpoint bad (n : nat) (O : oracle S) (h : list point) (T : ztree) : nat :=
  match T with
  | ZAsk m t next => bad n O ((m, t) :: h) (next (O m t))
  | ZProve t M next =>
    match n with
    | Datatypes.O => 0
    | Datatypes.S n => sum (fun r => sum (fun c => let x := nonce_point t M r in
        if in_dec point_dec x h then (nq * q) ^ n
        else bad n (update O x c) (x :: h) (next (c, response t r c))) scalars) nonces
    end
  | ZOut b => 0
  end.

Lemma sum_le_const {B} (f : B -> nat) l c : (forall a, In a l -> f a <= c) -> sum f l <= length l * c.
Proof. intros H. rewrite <- sum_const. now apply sum_le. Qed.

Lemma real_le n O T : real n O T <= nq ^ n.
Proof.
  revert n O. induction T as [m t next IH|t M next IH|b]; intros n O; simpl; auto.
  - destruct n as [|n]; simpl; [lia|]. apply sum_le_const. intros. apply IH.
  - destruct b; lia.
Qed.
Lemma simr_le n O T : simr n O T <= (nq * q) ^ n.
Proof.
  revert n O. induction T as [m t next IH|t M next IH|b]; intros n O; simpl; auto.
  - destruct n as [|n]; simpl; [lia|]. rewrite <- Nat.mul_assoc. apply sum_le_const. intros.
    apply sum_le_const. intros. apply IH.
  - destruct b; lia.
Qed.

Lemma real_respects n T : respectsN (fun O => real n O T).
Proof.
  revert n. induction T as [m t next IH|t M next IH|b]; intros n O O' H; simpl; auto.
  - rewrite (H m t). now apply IH.
  - destruct n as [|n]; auto. apply sum_ext. intros r _. rewrite (H _ _). now apply IH.
Qed.
Lemma simr_respects n T : respectsN (fun O => simr n O T).
Proof.
  revert n. induction T as [m t next IH|t M next IH|b]; intros n O O' H; simpl; auto.
  - rewrite (H m t). now apply IH.
  - destruct n as [|n]; auto. apply sum_ext. intros r _. apply sum_ext. intros c _. apply IH. now apply update_same.
Qed.
Lemma bad_respects n h T : respectsN (fun O => bad n O h T).
Proof.
  revert n h. induction T as [m t next IH|t M next IH|b]; intros n h O O' H; simpl; auto.
  - rewrite (H m t). now apply IH.
  - destruct n as [|n]; auto. apply sum_ext. intros r _. apply sum_ext. intros c _.
    destruct (in_dec point_dec _ _); auto. apply IH. now apply update_same.
Qed.
Lemma bad_mem n O h h' T : (forall x, In x h <-> In x h') -> bad n O h T = bad n O h' T.
Proof.
  revert n O h h'. induction T as [m t next IH|t M next IH|b]; intros n O h h' H; simpl; auto.
  - apply IH. intros x. simpl. rewrite H. reflexivity.
  - destruct n as [|n]; auto. apply sum_ext. intros r _. apply sum_ext. intros c _.
    destruct (in_dec point_dec _ h) as [Hi|Hi], (in_dec point_dec _ h') as [Hi'|Hi']; auto.
    + now apply H in Hi.
    + now apply H in Hi'.
    + apply IH. intros x. simpl. rewrite H. reflexivity.
Qed.

(** All points of the tree are among [X]. *)
Fixpoint stays (X : point -> Prop) (T : ztree) : Prop :=
  match T with
  | ZAsk m t next => X (m, t) /\ forall a, stays X (next a)
  | ZProve t M next => (forall r, X (nonce_point t M r)) /\ forall p, stays X (next p)
  | ZOut _ => True
  end.
Lemma stays_mono (X X' : point -> Prop) T : (forall x, X x -> X' x) -> stays X T -> stays X' T.
Proof. intros H. induction T; simpl; auto; intros [H1 H2]; split; auto. Qed.

(** Real and changed runs, over all functions on [D]. *)
Lemma real_simr n T : forall D h O,
  NoDup D -> (forall x, In x D -> ~ In x h) -> stays (fun x => In x D \/ In x h) T ->
  q ^ n * sum (fun O => real n O T) (oracles D O) <= sum (fun O => simr n O T) (oracles D O) + sum (fun O => bad n O h T) (oracles D O) /\
  sum (fun O => simr n O T) (oracles D O) <= q ^ n * sum (fun O => real n O T) (oracles D O) + sum (fun O => bad n O h T) (oracles D O).
Proof.
  revert n. induction T as [m t next IH|t M next IH|b]; intros n D h O Hd Hf Hs.
  - simpl in Hs. destruct Hs as [Hx Hs].
    destruct (in_dec point_dec (m, t) D) as [Hin|Hout].
    + destruct (sum_split scalars D (m, t) Hd Hin) as (D' & Hd' & Hx' & Hiff & Hlen & Hc).
      rewrite (Hc (fun O => real n O (ZAsk m t next)) O (real_respects n _)).
      rewrite (Hc (fun O => simr n O (ZAsk m t next)) O (simr_respects n _)).
      rewrite (Hc (fun O => bad n O h (ZAsk m t next)) O (bad_respects n h _)).
      assert (Hv : forall a O', In O' (oracles D' (update O (m, t) a)) -> O' m t = a).
      { intros a O' HO'. rewrite (oracles_fixed _ _ _ _ _ _ HO' Hx'). apply (update_at O (m, t) a). }
      assert (E : forall (f : ztree -> oracle S -> nat) T', (forall O, f T' O = f (next (O m t)) O) -> 
        sum (fun a => sum (f T') (oracles D' (update O (m, t) a))) scalars
        = sum (fun a => sum (f (next a)) (oracles D' (update O (m, t) a))) scalars).
      { intros f T' Ef. apply sum_ext. intros a _. apply sum_ext. intros O' HO'. now rewrite Ef, (Hv a O' HO'). }
      rewrite (E (fun T O => real n O T) (ZAsk m t next) (fun _ => eq_refl)).
      rewrite (E (fun T O => simr n O T) (ZAsk m t next) (fun _ => eq_refl)).
      assert (Eb : sum (fun a => sum (fun O => bad n O h (ZAsk m t next)) (oracles D' (update O (m, t) a))) scalars
        = sum (fun a => sum (fun O => bad n O ((m, t) :: h) (next a)) (oracles D' (update O (m, t) a))) scalars).
      { apply sum_ext. intros a _. apply sum_ext. intros O' HO'. simpl. now rewrite (Hv a O' HO'). }
      rewrite Eb, <- sum_scale_l, <- !sum_add.
      assert (HI : forall a, _) by (intros a; exact (IH a n D' ((m, t) :: h) (update O (m, t) a) Hd'
        ltac:(intros y Hy [E'|Hy']; [subst; contradiction|apply (Hf y); auto; apply Hiff; auto])
        ltac:(refine (stays_mono _ _ _ _ (Hs a)); intros y [Hy|Hy]; [apply Hiff in Hy as [->|Hy]; [right; now left|now left]|right; now right]))).
      split; apply sum_le; intros a _; apply HI.
    + destruct Hx as [Hx|Hx]; [contradiction|].
      assert (Hv : forall O', In O' (oracles D O) -> O' m t = O m t) by (intros O' HO'; apply (oracles_fixed _ _ _ _ _ _ HO' Hout)).
      rewrite (sum_ext (fun O => real n O (ZAsk m t next)) (fun O' => real n O' (next (O m t)))) by (intros O' HO'; simpl; now rewrite (Hv O' HO')).
      rewrite (sum_ext (fun O => simr n O (ZAsk m t next)) (fun O' => simr n O' (next (O m t)))) by (intros O' HO'; simpl; now rewrite (Hv O' HO')).
      rewrite (sum_ext (fun O => bad n O h (ZAsk m t next)) (fun O' => bad n O' h (next (O m t)))).
      2:{ intros O' HO'. simpl. rewrite (Hv O' HO'). apply bad_mem. intros y. simpl. split; [intros [<-|Hy]; auto|auto]. }
      apply IH; auto.
  - simpl in Hs. destruct Hs as [Hx Hs]. destruct n as [|n].
    { simpl. rewrite !sum_const. lia. }
    cbn [real simr bad].
    rewrite (sum_swap (fun O r => _) (oracles D O) nonces).
    rewrite (sum_swap (fun O r => sum (fun c => simr n (update O _ c) _) scalars) (oracles D O) nonces).
    rewrite (sum_swap (fun O r => sum (fun c => let x := nonce_point t M r in if in_dec point_dec x h then _ else _) scalars) (oracles D O) nonces).
    rewrite <- sum_scale_l, <- !sum_add.
    enough (H : forall r, 
      let X := sum (fun O' => let x := nonce_point t M r in let c := O' (fst x) (snd x) in real n O' (next (c, response t r c))) (oracles D O) in
      let Y := sum (fun O' => sum (fun c => simr n (update O' (nonce_point t M r) c) (next (c, response t r c))) scalars) (oracles D O) in
      let Z := sum (fun O' => sum (fun c => let x := nonce_point t M r in
        if in_dec point_dec x h then (nq * q) ^ n else bad n (update O' x c) (x :: h) (next (c, response t r c))) scalars) (oracles D O) in
      q ^ Datatypes.S n * X <= Y + Z /\ Y <= q ^ Datatypes.S n * X + Z).
    { split; apply sum_le; intros r _; apply (H r). }
    intros r X Y Z. set (x := nonce_point t M r) in *.
    destruct (in_dec point_dec x h) as [Hh|Hh].
    + assert (HX : X <= q ^ length D * nq ^ n).
      { unfold X. rewrite <- (oracles_length scalars D O). apply sum_le_const. intros. apply real_le. }
      assert (HY : Y <= q ^ length D * (q * (nq * q) ^ n)).
      { unfold Y. rewrite <- (oracles_length scalars D O). apply sum_le_const. intros. apply sum_le_const. intros. apply simr_le. }
      assert (HZ : Z = q ^ length D * (q * (nq * q) ^ n)).
      { unfold Z. fold x. destruct (in_dec point_dec x h); [|contradiction].
        rewrite <- (oracles_length scalars D O), <- !sum_const. reflexivity. }
      rewrite HZ. clear HZ Z. clearbody X Y. rewrite Nat.pow_mul_l in *. cbn [Nat.pow]. split; [|lia].
      pose proof (Nat.mul_le_mono_l _ _ (q * q ^ n) HX). clear HX.
      replace (q * q ^ n * (q ^ length D * nq ^ n)) with (q ^ length D * (q * (nq ^ n * q ^ n))) in H by ring. lia.
    + assert (Hin : In x D) by (destruct (Hx r) as [H|H]; [exact H|contradiction]).
      destruct (sum_split scalars D x Hd Hin) as (D' & Hd' & Hx' & Hiff & Hlen & Hc).
      assert (EX : X = sum (fun c => sum (fun O' => real n O' (next (c, response t r c))) (oracles D' (update O x c))) scalars).
      { unfold X. rewrite Hc.
        - apply sum_ext. intros c _. apply sum_ext. intros O' HO'. cbv zeta. fold x.
          assert (E : O' (fst x) (snd x) = c).
          { rewrite (oracles_fixed _ _ _ _ (fst x) (snd x) HO') by now rewrite <- surjective_pairing. apply update_at. }
          now rewrite E.
        - intros O1 O2 H. cbv zeta. rewrite (H _ _). now apply real_respects. }
      assert (EY : Y = q * sum (fun c => sum (fun O' => simr n O' (next (c, response t r c))) (oracles D' (update O x c))) scalars).
      { unfold Y. rewrite sum_swap, <- sum_scale_l. apply sum_ext. intros c _. rewrite Hc.
        - rewrite <- sum_const. apply sum_ext. intros a _.
          apply (sum_update scalars (fun O' => simr n O' (next (c, response t r c)))); auto. apply simr_respects.
        - intros O1 O2 H. apply simr_respects. now apply update_same. }
      assert (EZ : Z = q * sum (fun c => sum (fun O' => bad n O' (x :: h) (next (c, response t r c))) (oracles D' (update O x c))) scalars).
      { unfold Z. fold x. destruct (in_dec point_dec x h); [contradiction|].
        rewrite sum_swap, <- sum_scale_l. apply sum_ext. intros c _. rewrite Hc.
        - rewrite <- sum_const. apply sum_ext. intros a _.
          apply (sum_update scalars (fun O' => bad n O' (x :: h) (next (c, response t r c)))); auto. apply bad_respects.
        - intros O1 O2 H. cbv zeta. apply bad_respects. now apply update_same. }
      rewrite EX, EY, EZ. cbn [Nat.pow]. rewrite <- Nat.mul_assoc, <- !Nat.mul_add_distr_l, <- sum_scale_l, <- !sum_add.
      assert (HI : forall c, _) by (intros c; exact (IH (c, response t r c) n D' (x :: h) (update O x c) Hd'
        ltac:(intros y Hy [E'|Hy']; [subst; contradiction|apply (Hf y); auto; apply Hiff; auto])
        ltac:(refine (stays_mono _ _ _ _ (Hs _)); intros y [Hy|Hy]; [apply Hiff in Hy as [->|Hy]; [right; now left|now left]|right; now right]))).
      split; apply Nat.mul_le_mono_l; apply sum_le; intros c _; apply HI.
  - simpl. rewrite !sum_const. destruct b; [rewrite Nat.pow_mul_l|]; split; try lia; nia.
Qed.

(** ** The bad runs are few *)
Fixpoint steps (a n : nat) (T : ztree) : Prop :=
  match T with
  | ZAsk _ _ next => match a with Datatypes.O => False | Datatypes.S a => forall x, steps a n (next x) end
  | ZProve _ _ next => match n with Datatypes.O => False | Datatypes.S n => forall p, steps a n (next p) end
  | ZOut _ => True
  end.

Lemma nonce_point_inj t M r r' : nonce_point t M r = nonce_point t M r' -> r = r'.
Proof.
  intros E. unfold nonce_point, chal_point in E. apply (f_equal fst) in E. cbn [fst] in E.
  apply (challenge_string_inj L) in E as (_ & _ & _ & E & _). exact (base_mul_inj GL _ _ E).
Qed.

Lemma few_nonces t M h : count (fun r => if in_dec point_dec (nonce_point t M r) h then true else false) nonces <= length h.
Proof.
  unfold count. rewrite <- (map_length (nonce_point t M)). apply NoDup_incl_length.
  - assert (Hn : NoDup (filter (fun r => if in_dec point_dec (nonce_point t M r) h then true else false) nonces))
      by (apply NoDup_filter, NoDup_filter, nodup_scalars).
    induction Hn as [|r l Hr Hn IH]; simpl; constructor; auto.
    intros H. apply in_map_iff in H as (r' & E & Hin). apply nonce_point_inj in E. subst. contradiction.
  - intros x Hx. apply in_map_iff in Hx as (r & <- & Hr). apply filter_In in Hr as [_ Hr].
    destruct (in_dec point_dec (nonce_point t M r) h); [assumption|discriminate].
Qed.

Lemma bad_bound H T : forall a n O h, steps a n T -> length h + a + n <= H ->
  bad n O h T * nq <= n * H * (nq * q) ^ n.
Proof.
  induction T as [m t next IH|t M next IH|b]; intros a n O h Hs Hl.
  - destruct a as [|a]; [contradiction|]. simpl in Hs |- *. apply (IH _ a); auto. simpl. lia.
  - destruct n as [|n]; [contradiction|]. simpl in Hs. cbn [bad].
    set (T := (nq * q) ^ n).
    set (F := fun r => sum (fun c => let x := nonce_point t M r in
        if in_dec point_dec x h then T else bad n (update O x c) (x :: h) (next (c, response t r c))) scalars).
    assert (HF : forall r, F r * nq <= (if in_dec point_dec (nonce_point t M r) h then 1 else 0) * (q * (T * nq)) + q * (n * H * T)).
    { intros r. unfold F. destruct (in_dec point_dec (nonce_point t M r) h) as [Hi|Hi].
      - cbv zeta.
        match goal with |- sum ?f _ * _ <= _ => assert (EF : sum f scalars = q * T) end.
        { rewrite <- sum_const. apply sum_ext. intros c _. cbv beta zeta. destruct (in_dec point_dec (nonce_point t M r) h); [auto|contradiction]. }
        rewrite EF. nia.
      - cbv zeta. rewrite <- sum_scale. etransitivity; [apply (sum_le_const _ _ (n * H * T))|lia].
        intros c _. cbv beta. destruct (in_dec point_dec (nonce_point t M r) h); [contradiction|]. apply (IH _ a); auto. simpl. lia. }
    rewrite <- sum_scale. etransitivity; [apply sum_le; intros r _; apply HF|].
    rewrite sum_add, sum_const, sum_scale.
    assert (EC : sum (fun r => if in_dec point_dec (nonce_point t M r) h then 1 else 0) nonces
      = count (fun r => if in_dec point_dec (nonce_point t M r) h then true else false) nonces).
    { rewrite count_sum. apply sum_ext. intros r _. cbv beta. destruct (in_dec point_dec (nonce_point t M r) h); auto. }
    rewrite EC. pose proof (few_nonces t M h) as Hc. set (c := count _ _) in *. clearbody c. clear HF F EC.
    cbn [Nat.pow]. fold T. assert (Hch : c <= H) by lia. 
    pose proof (Nat.mul_le_mono_r _ _ (q * (T * nq)) Hch). 
    replace (Datatypes.S n * H * (nq * q * T)) with (H * (q * (T * nq)) + nq * (q * (n * H * T))) by ring. lia.
  - simpl. lia.
Qed.

(** ** Without the key: challenge and response *)
Definition valid_responses (B : elem CS) (c : S) : list S :=
  filter (fun s => negb (is_identity_elem G (s [*] A [+] c [*] B))) scalars.

Fixpoint simc (n : nat) (O : oracle S) (T : ztree) : nat :=
  match T with
  | ZAsk m t next => simc n O (next (O m t))
  | ZProve t M next =>
    match n with
    | Datatypes.O => 0
    | Datatypes.S n => sum (fun c => sum (fun s =>
        simc n (update O (chal_point t M (s [*] A [+] c [*] (t [*] A)) (s [*] M [+] c [*] (t [*] M))) c) (next (c, s)))
        (valid_responses (t [*] A) c)) scalars
    end
  | ZOut b => if b then (nq * q) ^ n else 0
  end.

Add Ring Sring : (F_R (scalar_field G GL)).

Lemma shift_perm (d : S) : Permutation (map (fun s => scalar_add G s d) scalars) scalars.
Proof.
  apply NoDup_Permutation; auto.
  - assert (Hinj : forall a b, scalar_add G a d = scalar_add G b d -> a = b).
    { intros a b E. transitivity (scalar_sub G (scalar_add G a d) d); [ring|]. rewrite E. ring. }
    clear - Hinj nodup_scalars. induction nodup_scalars as [|a l Ha Hn IH]; simpl; constructor; auto.
    intros H. apply in_map_iff in H as (b & E & Hb). apply Hinj in E. subst. contradiction.
  - intros x. split; auto. intros _. apply in_map_iff. exists (scalar_sub G x d). split; auto. ring.
Qed.

Lemma simc_simr n T : forall O, simc n O T = simr n O T.
Proof.
  revert n. induction T as [m t next IH|t M next IH|b]; intros n O; [apply IH| |reflexivity].
  destruct n as [|n]; [reflexivity|]. cbn [simc simr].
  rewrite (sum_swap (fun r c => simr n (update O (nonce_point t M r) c) (next (c, response t r c))) nonces scalars).
  apply sum_ext. intros c _. unfold valid_responses, nonces. rewrite !sum_filter.
  match goal with |- _ = sum ?f scalars => rewrite <- (sum_perm f _ _ (shift_perm (scalar_mul G c t))), (sum_map f) end.
  apply sum_ext. intros s _.
  assert (Ho : forall P : elem CS, scalar_add G s (scalar_mul G c t) [*] P = s [*] P [+] c [*] (t [*] P)).
  { intros P. rewrite (elem_mul_mul G GL), (add_mul GL). f_equal. ring. }
  assert (Ez : is_zero_scalar G (scalar_add G s (scalar_mul G c t)) = is_identity_elem G (s [*] A [+] c [*] (t [*] A))).
  { apply Bool.eq_iff_eq_true. rewrite (is_zero_spec G GL). unfold is_identity_elem. rewrite (elem_ct_eq_spec G GL), <- Ho.
    split; intros H.
    - rewrite H. symmetry. apply (elem_mul_zero G GL).
    - symmetry in H. apply (mul_eq_id GL) in H as [H|H]; auto. now apply (base_not_identity G GL) in H. }
  rewrite Ez. destruct (negb _); auto. rewrite IH. unfold nonce_point. rewrite !Ho.
  assert (Er : response t (scalar_add G s (scalar_mul G c t)) c = s) by (unfold response; ring).
  now rewrite Er.
Qed.

Lemma valid_responses_number t c : length (valid_responses (t [*] A) c) = nq.
Proof.
  assert (H : forall (p : S -> bool) l, length (filter p l) = sum (fun a => if p a then 1 else 0) l)
    by (intros p l; exact (count_sum p l)).
  unfold valid_responses, nonces. rewrite !H.
  match goal with |- _ = sum ?f scalars => rewrite <- (sum_perm f _ _ (shift_perm (scalar_mul G c t))), (sum_map f) end.
  apply sum_ext. intros s _.
  assert (Ho : scalar_add G s (scalar_mul G c t) [*] A = s [*] A [+] c [*] (t [*] A)).
  { rewrite (elem_mul_mul G GL), (add_mul GL). f_equal. ring. }
  assert (Ez : is_zero_scalar G (scalar_add G s (scalar_mul G c t)) = is_identity_elem G (s [*] A [+] c [*] (t [*] A))).
  { apply Bool.eq_iff_eq_true. rewrite (is_zero_spec G GL). unfold is_identity_elem. rewrite (elem_ct_eq_spec G GL), <- Ho.
    split; intros E.
    - rewrite E. symmetry. apply (elem_mul_zero G GL).
    - symmetry in E. apply (mul_eq_id GL) in E as [E|E]; auto. now apply (base_not_identity G GL) in E. }
  now rewrite Ez.
Qed.

(** All points a tree can touch. *)
Fixpoint zpoints (T : ztree) : list point :=
  match T with
  | ZAsk m t next => (m, t) :: flat_map (fun a => zpoints (next a)) scalars
  | ZProve t M next => map (nonce_point t M) scalars ++ flat_map (fun c => flat_map (fun s => zpoints (next (c, s))) scalars) scalars
  | ZOut _ => []
  end.
Lemma zpoints_stays T : stays (fun x => In x (zpoints T)) T.
Proof.
  induction T as [m t next IH|t M next IH|b]; simpl; auto.
  - split; auto. intros a. refine (stays_mono _ _ _ _ (IH a)). intros x Hx. right. apply in_flat_map. eauto.
  - split.
    + intros r. apply in_or_app. left. apply in_map. auto.
    + intros [c s]. refine (stays_mono _ _ _ _ (IH (c, s))). intros x Hx. apply in_or_app. right.
      apply in_flat_map. exists c. split; auto. apply in_flat_map. eauto.
Qed.

(** The two games. *)
Lemma zk_bound a n T : steps a n T ->
  exists needed, forall points O, NoDup points -> incl needed points ->
  let all := oracles points O in
  let R := q ^ n * sum (fun O => real n O T) all in
  let C := sum (fun O => simc n O T) all in
  let E := n * (a + n) * (length all * (nq * q) ^ n) in
  nq * R <= nq * C + E /\ nq * C <= nq * R + E.
Proof.
  intros Hs. exists (zpoints T). intros points O Hp Hinc all R C E.
  assert (HC : C = sum (fun O => simr n O T) all) by (apply sum_ext; intros; apply simc_simr).
  destruct (real_simr n T points [] O Hp) as [H1 H2].
  { intros x _ []. }
  { refine (stays_mono _ _ _ _ (zpoints_stays T)). intros x Hx. left. auto. }
  fold all in H1, H2. rewrite <- HC in H1, H2. fold R in H1, H2.
  assert (HB : nq * sum (fun O => bad n O [] T) all <= E).
  { unfold E. rewrite <- sum_scale_l.
    replace (n * (a + n) * (length all * (nq * q) ^ n)) with (length all * (n * (a + n) * (nq * q) ^ n)) by ring.
    apply sum_le_const. intros O' _. rewrite Nat.mul_comm. apply (bad_bound (a + n) T a n); auto. }
  set (Bd := sum (fun O => bad n O [] T) all) in *. clearbody Bd R C E.
  split.
  - pose proof (Nat.mul_le_mono_l _ _ nq H1). lia.
  - pose proof (Nat.mul_le_mono_l _ _ nq H2). lia.
Qed.
End Zk.
