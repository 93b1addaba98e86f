(** * Api: the safe public API as a transition system.

    A program using the crate (without the "danger" feature) is a sequence of
    calls.  The values it has obtained so far are in a store; a call takes
    values from the store, arbitrary byte strings and (for public keys, which
    are plain group elements) arbitrary elements, and adds its results to the
    store.  All the types are [Clone] and every method takes [&self], so
    values are never consumed. *)
From Verif Require Export Serialization Serde.

Section Api.
Context (CS : CipherSuite) (R : Rng).

(** The values a program can hold. *)
Inductive obj : Type :=
| OOprfClient (c : OprfClient CS)
| OVoprfClient (c : VoprfClient CS)
| OPoprfClient (c : PoprfClient CS)
| OOprfServer (s : OprfServer CS)
| OVoprfServer (s : VoprfServer CS)
| OPoprfServer (s : PoprfServer CS)
| OBlinded (b : BlindedElement CS)
| OEvaluation (e : EvaluationElement CS)
| OPrepared (p : PreparedEvaluationElement CS)
| OTweak (t : PoprfPreparedTweak CS)
| OProof (p : Proof CS)
| OOutput (out : bytes)
| OBytes (b : bytes)
| OKey (pk : elem CS).

(** The types that implement serde's [Deserialize]. *)
Inductive serde_type : Type :=
| TOprfClient | TVoprfClient | TPoprfClient | TOprfServer | TVoprfServer | TPoprfServer
| TProof | TBlinded | TEvaluation | TPrepared | TTweak.

(** The calls. *)
Inductive call : Type :=
(* oprf.rs:89, 133, 166, 178, 192, 206, 214 *)
| COprfBlind (input : bytes)
| COprfFinalize (c : OprfClient CS) (input : bytes) (e : EvaluationElement CS)
| COprfNew
| COprfNewWithKey (key : bytes)
| COprfNewFromSeed (seed info : bytes)
| COprfBlindEvaluate (s : OprfServer CS) (b : BlindedElement CS)
| COprfEvaluate (s : OprfServer CS) (input : bytes)
(* voprf.rs:91, 139, 164, 216, 229, 244, 258, 291, 319, 339, 380, 393 *)
| CVoprfBlind (input : bytes)
| CVoprfFinalize (c : VoprfClient CS) (input : bytes) (e : EvaluationElement CS) (p : Proof CS) (pk : elem CS)
| CVoprfBatchFinalize (inputs : list bytes) (cs : list (VoprfClient CS))
    (es : list (EvaluationElement CS)) (p : Proof CS) (pk : elem CS)
| CVoprfNew
| CVoprfNewWithKey (key : bytes)
| CVoprfNewFromSeed (seed info : bytes)
| CVoprfBlindEvaluate (s : VoprfServer CS) (b : BlindedElement CS)
| CVoprfBatchBlindEvaluate (s : VoprfServer CS) (bs : list (BlindedElement CS))
| CVoprfPrepare (s : VoprfServer CS) (bs : list (BlindedElement CS))
| CVoprfFinish (s : VoprfServer CS) (bs : list (BlindedElement CS)) (ps : list (PreparedEvaluationElement CS))
| CVoprfEvaluate (s : VoprfServer CS) (input : bytes)
| CVoprfPublicKey (s : VoprfServer CS)
(* poprf.rs:91, 141, 169, 205, 218, 233, 251, 289, 330, 359, 405, 425 *)
| CPoprfBlind (input : bytes)
| CPoprfFinalize (c : PoprfClient CS) (input : bytes) (e : EvaluationElement CS) (p : Proof CS) (pk : elem CS)
    (info : option bytes)
| CPoprfBatchFinalize (inputs : list bytes) (cs : list (PoprfClient CS))
    (es : list (EvaluationElement CS)) (p : Proof CS) (pk : elem CS) (info : option bytes)
| CPoprfNew
| CPoprfNewWithKey (key : bytes)
| CPoprfNewFromSeed (seed info : bytes)
| CPoprfBlindEvaluate (s : PoprfServer CS) (b : BlindedElement CS) (info : option bytes)
| CPoprfBatchBlindEvaluate (s : PoprfServer CS) (bs : list (BlindedElement CS)) (info : option bytes)
| CPoprfPrepare (s : PoprfServer CS) (bs : list (BlindedElement CS)) (info : option bytes)
| CPoprfFinish (bs : list (BlindedElement CS)) (ps : list (PreparedEvaluationElement CS))
    (t : PoprfPreparedTweak CS)
| CPoprfEvaluate (s : PoprfServer CS) (input : bytes) (info : option bytes)
| CPoprfPublicKey (s : PoprfServer CS)
(* serialization.rs:32-293: any value can be serialized, any byte string
   deserialized at any type *)
| CSerialize (o : obj)
| CDeserializeOprfClient (b : bytes)
| CDeserializeVoprfClient (b : bytes)
| CDeserializePoprfClient (b : bytes)
| CDeserializeOprfServer (b : bytes)
| CDeserializeVoprfServer (b : bytes)
| CDeserializePoprfServer (b : bytes)
| CDeserializeProof (b : bytes)
| CDeserializeBlinded (b : bytes)
| CDeserializeEvaluation (b : bytes)
(* serialization.rs:329-383 and the derives: any document read at any type *)
| CSerde (t : serde_type) (d : doc).

(** The values a call takes from the store. *)
Definition arguments (c : call) : list obj :=
  match c with
  | COprfFinalize c _ e => [OOprfClient c; OEvaluation e]
  | COprfBlindEvaluate s b => [OOprfServer s; OBlinded b]
  | COprfEvaluate s _ => [OOprfServer s]
  | CVoprfFinalize c _ e p _ => [OVoprfClient c; OEvaluation e; OProof p]
  | CVoprfBatchFinalize _ cs es p _ => map OVoprfClient cs ++ map OEvaluation es ++ [OProof p]
  | CVoprfBlindEvaluate s b => [OVoprfServer s; OBlinded b]
  | CVoprfBatchBlindEvaluate s bs => OVoprfServer s :: map OBlinded bs
  | CVoprfPrepare s bs => OVoprfServer s :: map OBlinded bs
  | CVoprfFinish s bs ps => OVoprfServer s :: map OBlinded bs ++ map OPrepared ps
  | CVoprfEvaluate s _ => [OVoprfServer s]
  | CVoprfPublicKey s => [OVoprfServer s]
  | CPoprfFinalize c _ e p _ _ => [OPoprfClient c; OEvaluation e; OProof p]
  | CPoprfBatchFinalize _ cs es p _ _ => map OPoprfClient cs ++ map OEvaluation es ++ [OProof p]
  | CPoprfBlindEvaluate s b _ => [OPoprfServer s; OBlinded b]
  | CPoprfBatchBlindEvaluate s bs _ => OPoprfServer s :: map OBlinded bs
  | CPoprfPrepare s bs _ => OPoprfServer s :: map OBlinded bs
  | CPoprfFinish bs ps t => OTweak t :: map OBlinded bs ++ map OPrepared ps
  | CPoprfEvaluate s _ _ => [OPoprfServer s]
  | CPoprfPublicKey s => [OPoprfServer s]
  | CSerialize o => [o]
  | _ => []
  end.

(** The results of a call, one by one: a call that fails as a whole has the
    failure as its only result; a call returning an iterator has one result
    per item, which may be a failure of its own. *)
Definition results := list (res obj).

Definition one {A} (f : A -> list obj) (r : res A) : results :=
  match r with
  | Ok a => map Ok (f a)
  | Err e => [Err e]
  | Panic => [Panic]
  | Diverge => [Diverge]
  end.

Definition many {A} (f : A -> obj) (r : res (list (res A))) : results :=
  match r with
  | Ok l => map (fun x => bind x (fun a => Ok (f a))) l
  | Err e => [Err e]
  | Panic => [Panic]
  | Diverge => [Diverge]
  end.

Definition pure {S} (r : results) : S -> results * S := fun st => (r, st).
Definition with_rng {S A} (f : A -> list obj) (m : rcomp S A) : S -> results * S :=
  fun st => let '(r, st') := m st in (one f r, st').

(** An error of the data format is not an [Error] of the crate: no result. *)
Definition serde_one {A} (f : A -> obj) (r : sres A) : results :=
  match r with
  | Ok a => [Ok (f a)]
  | Err _ => []
  | Panic => [Panic]
  | Diverge => [Diverge]
  end.
Definition serde_read (t : serde_type) (d : doc) : results :=
  match t with
  | TOprfClient => serde_one OOprfClient (dd_oprf_client CS d)
  | TVoprfClient => serde_one OVoprfClient (dd_voprf_client CS d)
  | TPoprfClient => serde_one OPoprfClient (dd_poprf_client CS d)
  | TOprfServer => serde_one OOprfServer (dd_oprf_server CS d)
  | TVoprfServer => serde_one OVoprfServer (dd_voprf_server CS d)
  | TPoprfServer => serde_one OPoprfServer (dd_poprf_server CS d)
  | TProof => serde_one OProof (dd_proof CS d)
  | TBlinded => serde_one OBlinded (dd_blinded CS d)
  | TEvaluation => serde_one OEvaluation (dd_evaluation CS d)
  | TPrepared => serde_one OPrepared (dd_prepared CS d)
  | TTweak => serde_one OTweak (dd_tweak CS d)
  end.

Definition serialize_obj (o : obj) : bytes :=
  match o with
  | OOprfClient c => oprf_client_serialize CS c
  | OVoprfClient c => voprf_client_serialize CS c
  | OPoprfClient c => poprf_client_serialize CS c
  | OOprfServer s => oprf_server_serialize CS s
  | OVoprfServer s => voprf_server_serialize CS s
  | OPoprfServer s => poprf_server_serialize CS s
  | OBlinded b => blinded_serialize CS b
  | OEvaluation e => evaluation_serialize CS e
  | OProof p => proof_serialize CS p
  | OPrepared p => evaluation_serialize CS (prepared_value p)
  | OTweak t => serialize_scalar (CSGroup CS) (tweak_value t)
  | OOutput b | OBytes b => b
  | OKey pk => serialize_elem (CSGroup CS) pk
  end.

(** What each call does. *)
Definition perform (c : call) : rng_state R -> results * rng_state R :=
  match c with
  | COprfBlind input =>
      with_rng (fun r => [OOprfClient (oprf_state r); OBlinded (oprf_message r)]) (oprf_client_blind CS R input)
  | COprfFinalize c input e => pure (one (fun o => [OOutput o]) (oprf_client_finalize CS c input e))
  | COprfNew => with_rng (fun s => [OOprfServer s]) (oprf_server_new CS R)
  | COprfNewWithKey key => pure (one (fun s => [OOprfServer s]) (oprf_server_new_with_key CS key))
  | COprfNewFromSeed seed info => pure (one (fun s => [OOprfServer s]) (oprf_server_new_from_seed CS seed info))
  | COprfBlindEvaluate s b => pure [Ok (OEvaluation (oprf_server_blind_evaluate CS s b))]
  | COprfEvaluate s input => pure (one (fun o => [OOutput o]) (oprf_server_evaluate CS s input))
  | CVoprfBlind input =>
      with_rng (fun r => [OVoprfClient (voprf_state r); OBlinded (voprf_message r)]) (voprf_client_blind CS R input)
  | CVoprfFinalize c input e p pk =>
      pure (one (fun o => [OOutput o]) (voprf_client_finalize CS c input e p pk))
  | CVoprfBatchFinalize inputs cs es p pk =>
      pure (many OOutput (voprf_client_batch_finalize CS inputs cs es p pk))
  | CVoprfNew => with_rng (fun s => [OVoprfServer s]) (voprf_server_new CS R)
  | CVoprfNewWithKey key => pure (one (fun s => [OVoprfServer s]) (voprf_server_new_with_key CS key))
  | CVoprfNewFromSeed seed info => pure (one (fun s => [OVoprfServer s]) (voprf_server_new_from_seed CS seed info))
  | CVoprfBlindEvaluate s b =>
      with_rng (fun r => [OEvaluation (voprf_eval_message r); OProof (voprf_eval_proof r)])
        (voprf_server_blind_evaluate CS s R b)
  | CVoprfBatchBlindEvaluate s bs =>
      with_rng (fun r => OProof (voprf_batch_proof r) :: map OEvaluation (voprf_batch_messages r))
        (voprf_server_batch_blind_evaluate CS s R bs)
  | CVoprfPrepare s bs => pure (map (fun p => Ok (OPrepared p)) (voprf_server_batch_blind_evaluate_prepare CS s bs))
  | CVoprfFinish s bs ps =>
      with_rng (fun r => OProof (voprf_batch_proof r) :: map OEvaluation (voprf_batch_messages r))
        (voprf_server_batch_blind_evaluate_finish CS s R bs ps)
  | CVoprfEvaluate s input => pure (one (fun o => [OOutput o]) (voprf_server_evaluate CS s input))
  | CVoprfPublicKey s => pure [Ok (OKey (voprf_server_get_public_key CS s))]
  | CPoprfBlind input =>
      with_rng (fun r => [OPoprfClient (poprf_state r); OBlinded (poprf_message r)]) (poprf_client_blind CS R input)
  | CPoprfFinalize c input e p pk info =>
      pure (one (fun o => [OOutput o]) (poprf_client_finalize CS c input e p pk info))
  | CPoprfBatchFinalize inputs cs es p pk info =>
      pure (many OOutput (poprf_client_batch_finalize CS inputs cs es p pk info))
  | CPoprfNew => with_rng (fun s => [OPoprfServer s]) (poprf_server_new CS R)
  | CPoprfNewWithKey key => pure (one (fun s => [OPoprfServer s]) (poprf_server_new_with_key CS key))
  | CPoprfNewFromSeed seed info => pure (one (fun s => [OPoprfServer s]) (poprf_server_new_from_seed CS seed info))
  | CPoprfBlindEvaluate s b info =>
      with_rng (fun r => [OEvaluation (poprf_eval_message r); OProof (poprf_eval_proof r)])
        (poprf_server_blind_evaluate CS s R b info)
  | CPoprfBatchBlindEvaluate s bs info =>
      with_rng (fun r => OProof (poprf_batch_proof r) :: map OEvaluation (poprf_batch_messages r))
        (poprf_server_batch_blind_evaluate CS s R bs info)
  | CPoprfPrepare s bs info =>
      pure (match poprf_server_batch_blind_evaluate_prepare CS s bs info with
            | Ok r => Ok (OTweak (poprf_prepared_tweak r))
                      :: map (fun x => bind x (fun p => Ok (OPrepared p))) (poprf_prepared_elements r)
            | Err e => [Err e]
            | Panic => [Panic]
            | Diverge => [Diverge]
            end)
  | CPoprfFinish bs ps t =>
      with_rng (fun r => OProof (poprf_batch_proof r) :: map OEvaluation (poprf_batch_messages r))
        (poprf_server_batch_blind_evaluate_finish CS R bs ps t)
  | CPoprfEvaluate s input info => pure (one (fun o => [OOutput o]) (poprf_server_evaluate CS s input info))
  | CPoprfPublicKey s => pure [Ok (OKey (poprf_server_get_public_key CS s))]
  | CSerialize o => pure [Ok (OBytes (serialize_obj o))]
  | CDeserializeOprfClient b => pure (one (fun c => [OOprfClient c]) (oprf_client_deserialize CS b))
  | CDeserializeVoprfClient b => pure (one (fun c => [OVoprfClient c]) (voprf_client_deserialize CS b))
  | CDeserializePoprfClient b => pure (one (fun c => [OPoprfClient c]) (poprf_client_deserialize CS b))
  | CDeserializeOprfServer b => pure (one (fun c => [OOprfServer c]) (oprf_server_deserialize CS b))
  | CDeserializeVoprfServer b => pure (one (fun c => [OVoprfServer c]) (voprf_server_deserialize CS b))
  | CDeserializePoprfServer b => pure (one (fun c => [OPoprfServer c]) (poprf_server_deserialize CS b))
  | CDeserializeProof b => pure (one (fun c => [OProof c]) (proof_deserialize CS b))
  | CDeserializeBlinded b => pure (one (fun c => [OBlinded c]) (blinded_deserialize CS b))
  | CDeserializeEvaluation b => pure (one (fun c => [OEvaluation c]) (evaluation_deserialize CS b))
  | CSerde t d => pure (serde_read t d)
  end.

(** Values obtained by a call. *)
Definition obtained (rs : results) : list obj :=
  flat_map (fun r => match r with Ok o => [o] | _ => [] end) rs.

(** A history: a state is the store and the RNG state.  (A program may go on
    after a panic that it caught.) *)
Inductive reachable (st0 : rng_state R) : list obj -> rng_state R -> Prop :=
| reach_start : reachable st0 [] st0
| reach_call : forall store st c rs st',
    reachable st0 store st ->
    incl (arguments c) store ->
    perform c st = (rs, st') ->
    reachable st0 (obtained rs ++ store) st'.

End Api.
Arguments OOprfClient {CS} _.
Arguments OVoprfClient {CS} _.
Arguments OPoprfClient {CS} _.
Arguments OOprfServer {CS} _.
Arguments OVoprfServer {CS} _.
Arguments OPoprfServer {CS} _.
Arguments OBlinded {CS} _.
Arguments OEvaluation {CS} _.
Arguments OPrepared {CS} _.
Arguments OTweak {CS} _.
Arguments OProof {CS} _.
Arguments OOutput {CS} _.
Arguments OBytes {CS} _.
Arguments OKey {CS} _.
