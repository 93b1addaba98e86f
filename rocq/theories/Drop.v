(** * Drop: what is left of a value after it is dropped.

    Every type that holds a scalar or an element derives [ZeroizeOnDrop]
    with derive-where (feature "zeroize-on-drop", Cargo.toml:28): the derived
    [Drop] calls [Zeroize::zeroize] on each field.  The functions below are
    the values found in the storage after [drop_in_place], as in the tests
    oprf.rs:389-426. *)
From Verif Require Export Serialization.

Section Drop.
Context (CS : CipherSuite).
Local Notation G := (CSGroup CS).

(** oprf.rs:40-54. *)
Definition drop_oprf_client (x : OprfClient CS) : OprfClient CS :=
  mkOprfClient (zeroize_scalar G (oprf_blind x)).
(** oprf.rs:58-72. *)
Definition drop_oprf_server (x : OprfServer CS) : OprfServer CS :=
  mkOprfServer (zeroize_scalar G (oprf_sk x)).
(** voprf.rs:38-54. *)
Definition drop_voprf_client (x : VoprfClient CS) : VoprfClient CS :=
  mkVoprfClient (zeroize_scalar G (voprf_blind x)) (zeroize_elem G (voprf_blinded_element x)).
(** voprf.rs:58-74. *)
Definition drop_voprf_server (x : VoprfServer CS) : VoprfServer CS :=
  mkVoprfServer (zeroize_scalar G (voprf_sk x)) (zeroize_elem G (voprf_pk x)).
(** poprf.rs:38-54. *)
Definition drop_poprf_client (x : PoprfClient CS) : PoprfClient CS :=
  mkPoprfClient (zeroize_scalar G (poprf_blind x)) (zeroize_elem G (poprf_blinded_element x)).
(** poprf.rs:58-74. *)
Definition drop_poprf_server (x : PoprfServer CS) : PoprfServer CS :=
  mkPoprfServer (zeroize_scalar G (poprf_sk x)) (zeroize_elem G (poprf_pk x)).
(** poprf.rs:538-551. *)
Definition drop_tweak (x : PoprfPreparedTweak CS) : PoprfPreparedTweak CS :=
  mkPreparedTweak (zeroize_scalar G (tweak_value x)).
(** common.rs:72-85. *)
Definition drop_blinded (x : BlindedElement CS) : BlindedElement CS :=
  mkBlinded (zeroize_elem G (blinded_value x)).
(** common.rs:89-102. *)
Definition drop_evaluation (x : EvaluationElement CS) : EvaluationElement CS :=
  mkEvaluation (zeroize_elem G (evaluation_value x)).
(** common.rs:106-116; the field is itself [ZeroizeOnDrop]. *)
Definition drop_prepared (x : PreparedEvaluationElement CS) : PreparedEvaluationElement CS :=
  mkPrepared (drop_evaluation (prepared_value x)).
(** common.rs:120-136. *)
Definition drop_proof (x : Proof CS) : Proof CS :=
  mkProof (zeroize_scalar G (c_scalar x)) (zeroize_scalar G (s_scalar x)).

End Drop.
