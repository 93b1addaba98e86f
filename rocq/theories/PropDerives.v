(** * C62: comparing, hashing and cloning values. *)
From Verif Require Import Laws Derives Serialization BytesFacts GroupFacts PropSerialization PropCorrectness Zq.
From Coq Require Import Lia.
Open Scope N_scope.

(** ** Specification *)

(** What Rust's library expects of the traits, and a little more: equality is
    identity, the order is total, and no value feeds a hasher a beginning of
    what another value feeds it. *)
Record coherent {T : Type} (D : Derivable T) : Prop := {
  eq_is_equality : forall x y, eq_of D x y = true <-> x = y;
  cmp_equal : forall x y, cmp_of D x y = Eq <-> x = y;
  cmp_flip : forall x y, cmp_of D y x = CompOpp (cmp_of D x y);
  cmp_chain : forall x y z, cmp_of D x y = Lt -> cmp_of D y z = Lt -> cmp_of D x z = Lt;
  partial_is_total : forall x y, partial_cmp_of D x y = Some (cmp_of D x y);
  feeds_apart : forall x y rest rest', feed_of D x ++ rest = feed_of D y ++ rest' -> x = y;
  clone_is_same : forall x, clone_of D x = x
}.

(** ** C62 *)
Lemma coherent1 {T A} (a : T -> A) (make : A -> T) (DA : Derivable A) :
  (forall x, make (a x) = x) -> (forall u, a (make u) = u) -> coherent DA -> coherent (derive1 a make DA).
Proof.
  intros M1 M2 H. assert (I : forall x y, a x = a y -> x = y) by (intros x y E; now rewrite <- (M1 x), <- (M1 y), E).
  split; cbn.
  - intros x y. rewrite (eq_is_equality _ H). split; [apply I|congruence].
  - intros x y. rewrite (cmp_equal _ H). split; [apply I|congruence].
  - intros x y. apply (cmp_flip _ H).
  - intros x y z. apply (cmp_chain _ H).
  - intros x y. apply (partial_is_total _ H).
  - intros x y r r' E. apply I. exact (feeds_apart _ H _ _ _ _ E).
  - intros x. rewrite (clone_is_same _ H). apply M1.
Qed.
Lemma coherent2 {T A B} (a : T -> A) (b : T -> B) (make : A -> B -> T) (DA : Derivable A) (DB : Derivable B) :
  (forall x, make (a x) (b x) = x) -> coherent DA -> coherent DB -> coherent (derive2 a b make DA DB).
Proof.
  intros M HA HB.
  assert (I : forall x y, a x = a y -> b x = b y -> x = y) by (intros x y E F; now rewrite <- (M x), <- (M y), E, F).
  split; cbn.
  - intros x y. rewrite Bool.andb_true_iff, (eq_is_equality _ HA), (eq_is_equality _ HB). split; [intros []; auto|intros ->; auto].
  - intros x y. destruct (cmp_of DA (a x) (a y)) eqn:E.
    + apply (cmp_equal _ HA) in E. rewrite (cmp_equal _ HB). split; [auto|congruence].
    + split; [discriminate|]. intros ->. rewrite (proj2 (cmp_equal _ HA _ _) eq_refl) in E. discriminate.
    + split; [discriminate|]. intros ->. rewrite (proj2 (cmp_equal _ HA _ _) eq_refl) in E. discriminate.
  - intros x y. rewrite (cmp_flip _ HA (a x)). destruct (cmp_of DA (a x) (a y)); cbn; auto. apply (cmp_flip _ HB).
  - intros x y z. destruct (cmp_of DA (a x) (a y)) eqn:E1; try discriminate.
    + apply (cmp_equal _ HA) in E1. rewrite E1. intros F1. destruct (cmp_of DA (a y) (a z)) eqn:E2; try discriminate; auto.
      intros F2. exact (cmp_chain _ HB _ _ _ F1 F2).
    + intros _. destruct (cmp_of DA (a y) (a z)) eqn:E2; try discriminate.
      * apply (cmp_equal _ HA) in E2. rewrite <- E2, E1. auto.
      * intros _. now rewrite (cmp_chain _ HA _ _ _ E1 E2).
  - intros x y. rewrite (partial_is_total _ HA), (partial_is_total _ HB). destruct (cmp_of DA (a x) (a y)); auto.
  - intros x y r r' E. rewrite <- !app_assoc in E. pose proof (feeds_apart _ HA _ _ _ _ E) as Ea. apply I; auto.
    rewrite Ea in E. apply app_inv_head in E. exact (feeds_apart _ HB _ _ _ _ E).
  - intros x. rewrite (clone_is_same _ HA), (clone_is_same _ HB). apply M.
Qed.

Theorem C62_coherent : forall (CS : CipherSuite) (DE : Derivable (elem CS)) (DS : Derivable (scalar CS)),
  coherent DE -> coherent DS ->
  coherent (blinded_derives CS DE) /\ coherent (evaluation_derives CS DE) /\ coherent (prepared_derives CS DE) /\
  coherent (proof_derives CS DS) /\ coherent (tweak_derives CS DS) /\
  coherent (oprf_client_derives CS DS) /\ coherent (oprf_server_derives CS DS) /\
  coherent (voprf_client_derives CS DE DS) /\ coherent (voprf_server_derives CS DE DS) /\
  coherent (poprf_client_derives CS DE DS) /\ coherent (poprf_server_derives CS DE DS).
Proof.
  intros CS DE DS HE HS. assert (He : coherent (evaluation_derives CS DE)) by (apply coherent1; auto; now intros []).
  repeat (apply conj); auto;
    first [ apply coherent1; auto; now intros [] | apply coherent2; auto; now intros [] ].
Qed.

(** [==] is true exactly if the bytes sent and stored are the same. *)
Definition compares_bytes {T} (D : Derivable T) (serialize : T -> bytes) : Prop :=
  forall x y, eq_of D x y = true <-> serialize x = serialize y.

Theorem C62_equal_bytes : forall (CS : CipherSuite), SuiteLaws CS ->
  forall (DE : Derivable (elem CS)) (DS : Derivable (scalar CS)), coherent DE -> coherent DS ->
  compares_bytes (blinded_derives CS DE) (blinded_serialize CS) /\
  compares_bytes (evaluation_derives CS DE) (evaluation_serialize CS) /\
  compares_bytes (proof_derives CS DS) (proof_serialize CS) /\
  compares_bytes (oprf_client_derives CS DS) (oprf_client_serialize CS) /\
  compares_bytes (oprf_server_derives CS DS) (oprf_server_serialize CS) /\
  compares_bytes (voprf_client_derives CS DE DS) (voprf_client_serialize CS) /\
  compares_bytes (voprf_server_derives CS DE DS) (voprf_server_serialize CS) /\
  compares_bytes (poprf_client_derives CS DE DS) (poprf_client_serialize CS) /\
  compares_bytes (poprf_server_derives CS DE DS) (poprf_server_serialize CS).
Proof.
  intros CS L DE DS HE HS.
  destruct (C62_coherent CS DE DS HE HS) as (H1 & H2 & _ & H4 & _ & H6 & H7 & H8 & H9 & H10 & H11).
  destruct (C23_round_trip CS L) as (R1 & R2 & R3 & R4 & R5 & R6 & R7 & R8 & R9).
  assert (W : forall T (D : Derivable T) ser de n ok, coherent D -> round_trips ser de n ok -> compares_bytes D ser).
  { intros T D ser de n ok HD (_ & _ & Hi) x y. rewrite (eq_is_equality _ HD). split; [congruence|apply Hi]. }
  repeat (apply conj); eapply W; eauto.
Qed.

(** The values of the suite over Z/251 compared as integers. *)
Definition ex_derives (serialize : Fq 251 -> bytes) : Derivable (Fq 251) := {|
  eq_of x y := (fval x =? fval y)%Z;
  cmp_of x y := (fval x ?= fval y)%Z;
  partial_cmp_of x y := Some (fval x ?= fval y)%Z;
  feed_of := serialize;
  clone_of x := x
|}.
Lemma ex_coherent serialize n : (forall x, len (serialize x) = n) -> (forall x y, serialize x = serialize y -> x = y) ->
  coherent (ex_derives serialize).
Proof.
  intros Hl Hi. split; cbn.
  - intros x y. rewrite Z.eqb_eq. split; [apply Fq_eq|congruence].
  - intros x y. rewrite Z.compare_eq_iff. split; [apply Fq_eq|congruence].
  - intros x y. apply Z.compare_antisym.
  - intros x y z. rewrite !Z.compare_lt_iff. lia.
  - reflexivity.
  - intros x y r r' E. apply Hi. apply app_inj_len in E as [E _]; auto. pose proof (Hl x). pose proof (Hl y). unfold len in *. lia.
  - reflexivity.
Qed.
Example C62_case :
  coherent (ex_derives (serialize_elem (CSGroup TS))) /\ coherent (ex_derives (serialize_scalar (CSGroup TS))) /\
  let D := voprf_server_derives TS (ex_derives (serialize_elem (CSGroup TS))) (ex_derives (serialize_scalar (CSGroup TS))) in
  eq_of D (mkVoprfServer (ex_scalar 5) (ex_elem 7)) (mkVoprfServer (ex_scalar 5) (ex_elem 8)) = false /\
  cmp_of D (mkVoprfServer (ex_scalar 5) (ex_elem 7)) (mkVoprfServer (ex_scalar 5) (ex_elem 8)) = Lt /\
  cmp_of D (mkVoprfServer (ex_scalar 6) (ex_elem 7)) (mkVoprfServer (ex_scalar 5) (ex_elem 8)) = Gt.
Proof.
  split; [|split].
  - apply (ex_coherent _ (elem_len (CSGroup TS))); [apply (serialize_elem_len _ (group_laws TL))|apply (serialize_elem_inj (group_laws TL))].
  - apply (ex_coherent _ (scalar_len (CSGroup TS))); [apply (serialize_scalar_len _ (group_laws TL))|apply (serialize_scalar_inj (group_laws TL))].
  - cbv zeta. split; [|split]; vm_compute; reflexivity.
Qed.
