(** * Sessions: the crate used as a protocol, over bytes.

    A client and a server exchange byte strings; each may be stopped at any
    time and restarted from the bytes it saved.  The functions of a mode are
    calls of the public API with the (de)serialization calls a user makes
    around them, README.md and lib.rs:43-330.  Everything that goes over the
    network or to disk is a byte string. *)
From Verif Require Export Serialization.

(** What a user runs in one mode.  A reply is an evaluation element and, in
    the verifiable modes, a proof. *)
Record Protocol : Type := {
  client : Type;
  server : Type;
  (* blind the input; the message to send *)
  m_blind : forall R : Rng, bytes -> rcomp (rng_state R) (client * bytes);
  (* answer a message, with the public info agreed for it *)
  m_serve : forall R : Rng, server -> bytes -> option bytes -> rcomp (rng_state R) (bytes * bytes);
  (* read a reply and finalize, under a public key *)
  m_finish : client -> bytes -> option bytes -> bytes -> bytes * bytes -> res bytes;
  m_public_key : server -> bytes;
  save_client : client -> bytes;
  load_client : bytes -> res client;
  save_server : server -> bytes;
  load_server : bytes -> res server
}.

Section Modes.
Context (CS : CipherSuite).
Local Notation G := (CSGroup CS).

(** oprf.rs:89-142 and 206-208 with serialization.rs:32-52, 127-148 and
    248-293. *)
Definition oprf_mode : Protocol := {|
  client := OprfClient CS;
  server := OprfServer CS;
  m_blind := fun R input =>
    r <~ oprf_client_blind CS R input ;;
    rret (Ok (oprf_state r, blinded_serialize CS (oprf_message r)));
  m_serve := fun R s message info =>
    b <~ rret (blinded_deserialize CS message) ;;
    rret (Ok (evaluation_serialize CS (oprf_server_blind_evaluate CS s b), []));
  m_finish := fun c input info pk reply =>
    e <- evaluation_deserialize CS (fst reply) ;;
    oprf_client_finalize CS c input e;
  m_public_key := fun s => [];
  save_client := oprf_client_serialize CS;
  load_client := oprf_client_deserialize CS;
  save_server := oprf_server_serialize CS;
  load_server := oprf_server_deserialize CS
|}.

(** voprf.rs:91-152, 258-282 and 393-395 with serialization.rs:55-88 and
    151-293; public keys are encoded with [Group::serialize_elem]. *)
Definition voprf_mode : Protocol := {|
  client := VoprfClient CS;
  server := VoprfServer CS;
  m_blind := fun R input =>
    r <~ voprf_client_blind CS R input ;;
    rret (Ok (voprf_state r, blinded_serialize CS (voprf_message r)));
  m_serve := fun R s message info =>
    b <~ rret (blinded_deserialize CS message) ;;
    r <~ voprf_server_blind_evaluate CS s R b ;;
    rret (Ok (evaluation_serialize CS (voprf_eval_message r), proof_serialize CS (voprf_eval_proof r)));
  m_finish := fun c input info pk reply =>
    e <- evaluation_deserialize CS (fst reply) ;;
    p <- proof_deserialize CS (snd reply) ;;
    pk <- deserialize_elem G pk ;;
    voprf_client_finalize CS c input e p pk;
  m_public_key := fun s => serialize_elem G (voprf_server_get_public_key CS s);
  save_client := voprf_client_serialize CS;
  load_client := voprf_client_deserialize CS;
  save_server := voprf_server_serialize CS;
  load_server := voprf_server_deserialize CS
|}.

(** poprf.rs:91-155, 251-280 and 425-427 with serialization.rs:91-124 and
    183-293. *)
Definition poprf_mode : Protocol := {|
  client := PoprfClient CS;
  server := PoprfServer CS;
  m_blind := fun R input =>
    r <~ poprf_client_blind CS R input ;;
    rret (Ok (poprf_state r, blinded_serialize CS (poprf_message r)));
  m_serve := fun R s message info =>
    b <~ rret (blinded_deserialize CS message) ;;
    r <~ poprf_server_blind_evaluate CS s R b info ;;
    rret (Ok (evaluation_serialize CS (poprf_eval_message r), proof_serialize CS (poprf_eval_proof r)));
  m_finish := fun c input info pk reply =>
    e <- evaluation_deserialize CS (fst reply) ;;
    p <- proof_deserialize CS (snd reply) ;;
    pk <- deserialize_elem G pk ;;
    poprf_client_finalize CS c input e p pk info;
  m_public_key := fun s => serialize_elem G (poprf_server_get_public_key CS s);
  save_client := poprf_client_serialize CS;
  load_client := poprf_client_deserialize CS;
  save_server := poprf_server_serialize CS;
  load_server := poprf_server_deserialize CS
|}.

End Modes.

(** ** Histories *)
Section Histories.
Context (M : Protocol).
Context (pk : bytes).   (* the public key every client uses *)

(** One client session. *)
Record session : Type := mkSession {
  s_input : bytes;
  s_info : option bytes;
  s_message : bytes;                          (* what it sent *)
  s_memory : option (client M);               (* [None] after a crash *)
  s_disk : option bytes;                      (* what it saved last *)
  s_results : list ((bytes * bytes) * res bytes)   (* replies received, and the results *)
}.

Record world : Type := mkWorld {
  w_server : option (server M);               (* [None] after a crash *)
  w_disk : bytes;                             (* the server's saved state *)
  w_sessions : list session;
  w_replies : list (nat * (bytes * bytes))    (* replies in the network, and whom they are for *)
}.

(** Replacing one item of a list. *)
Fixpoint update {A} (l : list A) (i : nat) (x : A) : list A :=
  match l, i with
  | [], _ => []
  | _ :: l, O => x :: l
  | y :: l, S i => y :: update l i x
  end.

(** The network: it can deliver to session [i] (any number of times, in any
    order) the replies for it, or, when it is [hostile], anything. *)
Definition deliverable (hostile : bool) (w : world) (i : nat) (reply : bytes * bytes) : Prop :=
  hostile = true \/ In (i, reply) (w_replies w).

(** One event.  Every call may use a random number generator of its own in
    any state. *)
Inductive step (hostile : bool) (w : world) : world -> Prop :=
| Start : forall input info R st c message st',
    m_blind M R input st = (Ok (c, message), st') ->
    step hostile w (mkWorld (w_server w) (w_disk w)
                      (w_sessions w ++ [mkSession input info message (Some c) None []]) (w_replies w))
| Save : forall i s c,
    nth_error (w_sessions w) i = Some s -> s_memory s = Some c ->
    step hostile w (mkWorld (w_server w) (w_disk w)
                      (update (w_sessions w) i
                         (mkSession (s_input s) (s_info s) (s_message s) (Some c)
                            (Some (save_client M c)) (s_results s)))
                      (w_replies w))
| Crash : forall i s,
    nth_error (w_sessions w) i = Some s ->
    step hostile w (mkWorld (w_server w) (w_disk w)
                      (update (w_sessions w) i
                         (mkSession (s_input s) (s_info s) (s_message s) None (s_disk s) (s_results s)))
                      (w_replies w))
| Restore : forall i s b c,
    nth_error (w_sessions w) i = Some s -> s_disk s = Some b -> load_client M b = Ok c ->
    step hostile w (mkWorld (w_server w) (w_disk w)
                      (update (w_sessions w) i
                         (mkSession (s_input s) (s_info s) (s_message s) (Some c) (s_disk s) (s_results s)))
                      (w_replies w))
| ServerSave : forall srv,
    w_server w = Some srv ->
    step hostile w (mkWorld (w_server w) (save_server M srv) (w_sessions w) (w_replies w))
| ServerCrash :
    step hostile w (mkWorld None (w_disk w) (w_sessions w) (w_replies w))
| ServerRestore : forall srv,
    load_server M (w_disk w) = Ok srv ->
    step hostile w (mkWorld (Some srv) (w_disk w) (w_sessions w) (w_replies w))
| Serve : forall i s srv R st reply st',
    nth_error (w_sessions w) i = Some s -> w_server w = Some srv ->
    m_serve M R srv (s_message s) (s_info s) st = (Ok reply, st') ->
    step hostile w (mkWorld (w_server w) (w_disk w) (w_sessions w) ((i, reply) :: w_replies w))
| Finish : forall i s c reply,
    nth_error (w_sessions w) i = Some s -> s_memory s = Some c ->
    deliverable hostile w i reply ->
    step hostile w (mkWorld (w_server w) (w_disk w)
                      (update (w_sessions w) i
                         (mkSession (s_input s) (s_info s) (s_message s) (Some c) (s_disk s)
                            ((reply, m_finish M c (s_input s) (s_info s) pk reply) :: s_results s)))
                      (w_replies w)).

(** Histories: any number of events. *)
Inductive history (hostile : bool) (w0 : world) : world -> Prop :=
| history_start : history hostile w0 w0
| history_step : forall w w', history hostile w0 w -> step hostile w w' -> history hostile w0 w'.

(** The world when the server has just been created and saved. *)
Definition initial (srv : server M) : world := mkWorld (Some srv) (save_server M srv) [] [].

End Histories.
Arguments mkSession {M} _ _ _ _ _ _.
Arguments s_input {M} _.
Arguments s_info {M} _.
Arguments s_message {M} _.
Arguments s_memory {M} _.
Arguments s_disk {M} _.
Arguments s_results {M} _.
Arguments mkWorld {M} _ _ _ _.
Arguments w_server {M} _.
Arguments w_disk {M} _.
Arguments w_sessions {M} _.
Arguments w_replies {M} _.
