(** * Derives: the comparison, hashing and cloning traits of the crate's types.

    All are derived with [derive_where] (1.2), which treats the fields in the
    order of their declaration. *)
From Verif Require Export Oprf Voprf Poprf.

(** The derivable traits of a type: [PartialEq::eq], [Ord::cmp],
    [PartialOrd::partial_cmp], the bytes that [Hash::hash] feeds to the hasher,
    and [Clone::clone].  ([Eq] has no method.) *)
Record Derivable (T : Type) : Type := mkDerivable {
  eq_of : T -> T -> bool;
  cmp_of : T -> T -> comparison;
  partial_cmp_of : T -> T -> option comparison;
  feed_of : T -> bytes;
  clone_of : T -> T
}.
Arguments eq_of {T} _ _ _.
Arguments cmp_of {T} _ _ _.
Arguments partial_cmp_of {T} _ _ _.
Arguments feed_of {T} _ _.
Arguments clone_of {T} _ _.

(** What is derived for a struct with one field. *)
Definition derive1 {T A} (a : T -> A) (make : A -> T) (DA : Derivable A) : Derivable T := {|
  eq_of x y := eq_of DA (a x) (a y);
  cmp_of x y := cmp_of DA (a x) (a y);
  partial_cmp_of x y := partial_cmp_of DA (a x) (a y);
  feed_of x := feed_of DA (a x);
  clone_of x := make (clone_of DA (a x))
|}.
(** ... and with two. *)
Definition derive2 {T A B} (a : T -> A) (b : T -> B) (make : A -> B -> T)
    (DA : Derivable A) (DB : Derivable B) : Derivable T := {|
  eq_of x y := eq_of DA (a x) (a y) && eq_of DB (b x) (b y);
  cmp_of x y := match cmp_of DA (a x) (a y) with Eq => cmp_of DB (b x) (b y) | c => c end;
  partial_cmp_of x y :=
    match partial_cmp_of DA (a x) (a y) with Some Eq => partial_cmp_of DB (b x) (b y) | c => c end;
  feed_of x := feed_of DA (a x) ++ feed_of DB (b x);
  clone_of x := make (clone_of DA (a x)) (clone_of DB (b x))
|}.

Section Derives.
Context (CS : CipherSuite).
(** The traits of [Group::Elem] and [Group::Scalar], which are bounds of the
    derived implementations. *)
Context (DE : Derivable (elem CS)) (DS : Derivable (scalar CS)).

(** common.rs:72-86. *)
Definition blinded_derives : Derivable (BlindedElement CS) := derive1 blinded_value (mkBlinded (CS := CS)) DE.
(** common.rs:89-103. *)
Definition evaluation_derives : Derivable (EvaluationElement CS) := derive1 evaluation_value (mkEvaluation (CS := CS)) DE.
(** common.rs:106-117. *)
Definition prepared_derives : Derivable (PreparedEvaluationElement CS) :=
  derive1 prepared_value (mkPrepared (CS := CS)) evaluation_derives.
(** common.rs:120-137. *)
Definition proof_derives : Derivable (Proof CS) := derive2 c_scalar s_scalar (mkProof (CS := CS)) DS DS.
(** oprf.rs:40-53 and 58-71. *)
Definition oprf_client_derives : Derivable (OprfClient CS) := derive1 oprf_blind (mkOprfClient (CS := CS)) DS.
Definition oprf_server_derives : Derivable (OprfServer CS) := derive1 oprf_sk (mkOprfServer (CS := CS)) DS.
(** voprf.rs:38-54 and 58-74. *)
Definition voprf_client_derives : Derivable (VoprfClient CS) :=
  derive2 voprf_blind voprf_blinded_element (mkVoprfClient (CS := CS)) DS DE.
Definition voprf_server_derives : Derivable (VoprfServer CS) := derive2 voprf_sk voprf_pk (mkVoprfServer (CS := CS)) DS DE.
(** poprf.rs:38-54 and 58-74. *)
Definition poprf_client_derives : Derivable (PoprfClient CS) :=
  derive2 poprf_blind poprf_blinded_element (mkPoprfClient (CS := CS)) DS DE.
Definition poprf_server_derives : Derivable (PoprfServer CS) := derive2 poprf_sk poprf_pk (mkPoprfServer (CS := CS)) DS DE.
(** poprf.rs:538-552. *)
Definition tweak_derives : Derivable (PoprfPreparedTweak CS) := derive1 tweak_value (mkPreparedTweak (CS := CS)) DS.

End Derives.
