(** * Serialization: model of the byte part of /repo/src/serialization.rs *)
From Verif Require Export Oprf Voprf Poprf.

(** serialization.rs:314-322, [SliceExt::take_ext]: [None], or the front part
    together with the advanced slice. *)
Definition take_ext (self : bytes) (take : N) : option (bytes * bytes) :=
  if (len self <? take)%N then None
  else Some (firstn (N.to_nat take) self, skipn (N.to_nat take) self).

Section Serialization.
Context (CS : CipherSuite).
Local Notation G := (CSGroup CS).

(** serialization.rs:295-300, [deserialize_elem]; returns the advanced
    slice as well. *)
Definition de_elem (input : bytes) : res (elem CS * bytes) :=
  '(front, back) <- ok_or (take_ext input (elem_len G)) EDeserialization ;;
  e <- deserialize_elem G front ;;
  Ok (e, back).

(** serialization.rs:302-307, [deserialize_scalar]. *)
Definition de_scalar (input : bytes) : res (scalar CS * bytes) :=
  '(front, back) <- ok_or (take_ext input (scalar_len G)) EDeserialization ;;
  s <- deserialize_scalar G front ;;
  Ok (s, back).

(** serialization.rs:32, 39-52: [OprfClient]. *)
Definition OprfClientLen : N := scalar_len G.
Definition oprf_client_serialize (self : OprfClient CS) : bytes :=
  serialize_scalar G (oprf_blind self).
Definition oprf_client_deserialize (input : bytes) : res (OprfClient CS) :=
  '(blind, input) <- de_scalar input ;;
  Ok (mkOprfClient blind).

(** serialization.rs:55-88: [VoprfClient]. *)
Definition VoprfClientLen : N := scalar_len G + elem_len G.
Definition voprf_client_serialize (self : VoprfClient CS) : bytes :=
  serialize_scalar G (voprf_blind self) ++ serialize_elem G (voprf_blinded_element self).
Definition voprf_client_deserialize (input : bytes) : res (VoprfClient CS) :=
  '(blind, input) <- de_scalar input ;;
  '(blinded_element, input) <- de_elem input ;;
  Ok (mkVoprfClient blind blinded_element).

(** serialization.rs:91-124: [PoprfClient]. *)
Definition PoprfClientLen : N := scalar_len G + elem_len G.
Definition poprf_client_serialize (self : PoprfClient CS) : bytes :=
  serialize_scalar G (poprf_blind self) ++ serialize_elem G (poprf_blinded_element self).
Definition poprf_client_deserialize (input : bytes) : res (PoprfClient CS) :=
  '(blind, input) <- de_scalar input ;;
  '(blinded_element, input) <- de_elem input ;;
  Ok (mkPoprfClient blind blinded_element).

(** serialization.rs:127-148: [OprfServer]. *)
Definition OprfServerLen : N := scalar_len G.
Definition oprf_server_serialize (self : OprfServer CS) : bytes :=
  serialize_scalar G (oprf_sk self).
Definition oprf_server_deserialize (input : bytes) : res (OprfServer CS) :=
  '(sk, input) <- de_scalar input ;;
  Ok (mkOprfServer sk).

(** serialization.rs:151-180: [VoprfServer]. *)
Definition VoprfServerLen : N := scalar_len G + elem_len G.
Definition voprf_server_serialize (self : VoprfServer CS) : bytes :=
  serialize_scalar G (voprf_sk self) ++ serialize_elem G (voprf_pk self).
Definition voprf_server_deserialize (input : bytes) : res (VoprfServer CS) :=
  '(sk, input) <- de_scalar input ;;
  '(pk, input) <- de_elem input ;;
  Ok (mkVoprfServer sk pk).

(** serialization.rs:183-212: [PoprfServer]. *)
Definition PoprfServerLen : N := scalar_len G + elem_len G.
Definition poprf_server_serialize (self : PoprfServer CS) : bytes :=
  serialize_scalar G (poprf_sk self) ++ serialize_elem G (poprf_pk self).
Definition poprf_server_deserialize (input : bytes) : res (PoprfServer CS) :=
  '(sk, input) <- de_scalar input ;;
  '(pk, input) <- de_elem input ;;
  Ok (mkPoprfServer sk pk).

(** serialization.rs:215-245: [Proof]. *)
Definition ProofLen : N := scalar_len G + scalar_len G.
Definition proof_serialize (self : Proof CS) : bytes :=
  serialize_scalar G (c_scalar self) ++ serialize_scalar G (s_scalar self).
Definition proof_deserialize (input : bytes) : res (Proof CS) :=
  '(c_scalar, input) <- de_scalar input ;;
  '(s_scalar, input) <- de_scalar input ;;
  Ok (mkProof c_scalar s_scalar).

(** serialization.rs:248-269: [BlindedElement]. *)
Definition BlindedElementLen : N := elem_len G.
Definition blinded_serialize (self : BlindedElement CS) : bytes :=
  serialize_elem G (blinded_value self).
Definition blinded_deserialize (input : bytes) : res (BlindedElement CS) :=
  '(value, input) <- de_elem input ;;
  Ok (mkBlinded value).

(** serialization.rs:272-293: [EvaluationElement]. *)
Definition EvaluationElementLen : N := elem_len G.
Definition evaluation_serialize (self : EvaluationElement CS) : bytes :=
  serialize_elem G (evaluation_value self).
Definition evaluation_deserialize (input : bytes) : res (EvaluationElement CS) :=
  '(value, input) <- de_elem input ;;
  Ok (mkEvaluation value).

End Serialization.
