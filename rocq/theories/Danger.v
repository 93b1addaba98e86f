(** * Danger: the functions the crate exposes only with the "danger" feature,
    and the API extended with them.

    lib.rs:524-526 and 572.  [OprfClient::from_blind],
    [VoprfClient::from_blind_and_element], the [get_private_key] functions and
    the [get_blind] functions of the verifiable clients are compiled for tests
    only ([cfg(test)]) and are not part of the API. *)
From Verif Require Export Api.

Section Danger.
Context (CS : CipherSuite) (R : Rng).

(** oprf.rs:152-154, [OprfClient::get_blind]. *)
Definition oprf_client_get_blind (self : OprfClient CS) : scalar CS := oprf_blind self.

(** poprf.rs:442-444, [BlindedElement::from_value_unchecked]. *)
Definition blinded_from_value_unchecked (value : elem CS) : BlindedElement CS := mkBlinded value.

(** poprf.rs:448-450, [BlindedElement::value]. *)
Definition blinded_get_value (self : BlindedElement CS) : elem CS := blinded_value self.

(** poprf.rs:465-467, [EvaluationElement::from_value_unchecked]. *)
Definition evaluation_from_value_unchecked (value : elem CS) : EvaluationElement CS := mkEvaluation value.

(** poprf.rs:471-473, [EvaluationElement::value]. *)
Definition evaluation_get_value (self : EvaluationElement CS) : elem CS := evaluation_value self.

(** common.rs:399-408, [derive_key]. *)
Definition derive_key (seed info : bytes) (mode : Mode) : res (scalar CS) :=
  derive_key_internal CS seed info mode.

(** The calls of a program compiled with the "danger" feature.  Scalars and
    elements are plain values of the group: such a program can make any of
    them, so the results of [get_blind], [value] and [derive_key] need not be
    kept in the store. *)
Inductive dcall : Type :=
| DSafe (c : call CS)
(* oprf.rs:109, voprf.rs:111, poprf.rs:111 *)
| DOprfBlind (input : bytes) (blind : scalar CS)
| DVoprfBlind (input : bytes) (blind : scalar CS)
| DPoprfBlind (input : bytes) (blind : scalar CS)
(* poprf.rs:442, 448, 465, 471 *)
| DBlindedFrom (value : elem CS)
| DBlindedValue (b : BlindedElement CS)
| DEvaluationFrom (value : elem CS)
| DEvaluationValue (e : EvaluationElement CS)
(* oprf.rs:152, common.rs:399: the scalar is shown as bytes *)
| DGetBlind (c : OprfClient CS)
| DDeriveKey (seed info : bytes) (mode : Mode).

Definition darguments (c : dcall) : list (obj CS) :=
  match c with
  | DSafe c => arguments CS c
  | DBlindedValue b => [OBlinded b]
  | DEvaluationValue e => [OEvaluation e]
  | DGetBlind c => [OOprfClient c]
  | _ => []
  end.

Definition dperform (c : dcall) : rng_state R -> results CS * rng_state R :=
  match c with
  | DSafe c => perform CS R c
  | DOprfBlind input blind =>
      pure CS (one CS (fun r => [OOprfClient (oprf_state r); OBlinded (oprf_message r)])
                 (oprf_client_deterministic_blind_unchecked CS input blind))
  | DVoprfBlind input blind =>
      pure CS (one CS (fun r => [OVoprfClient (voprf_state r); OBlinded (voprf_message r)])
                 (voprf_client_deterministic_blind_unchecked CS input blind))
  | DPoprfBlind input blind =>
      pure CS (one CS (fun r => [OPoprfClient (poprf_state r); OBlinded (poprf_message r)])
                 (poprf_client_deterministic_blind_unchecked CS input blind))
  | DBlindedFrom value => pure CS [Ok (OBlinded (blinded_from_value_unchecked value))]
  | DBlindedValue b => pure CS [Ok (OKey (blinded_get_value b))]
  | DEvaluationFrom value => pure CS [Ok (OEvaluation (evaluation_from_value_unchecked value))]
  | DEvaluationValue e => pure CS [Ok (OKey (evaluation_get_value e))]
  | DGetBlind c => pure CS [Ok (OBytes (serialize_scalar (CSGroup CS) (oprf_client_get_blind c)))]
  | DDeriveKey seed info mode =>
      pure CS (one CS (fun k => [OBytes (serialize_scalar (CSGroup CS) k)]) (derive_key seed info mode))
  end.

Inductive dreachable (st0 : rng_state R) : list (obj CS) -> rng_state R -> Prop :=
| dreach_start : dreachable st0 [] st0
| dreach_call : forall store st c rs st',
    dreachable st0 store st ->
    incl (darguments c) store ->
    dperform c st = (rs, st') ->
    dreachable st0 (obtained CS rs ++ store) st'.

End Danger.
