(** * Trace: the API functions again, with what they do along the way.

    Each definition here is the one of the same name (without [t_]) in
    [Common], [Oprf], [Voprf] or [Poprf] and models the same lines of /repo.
    Besides its result it records, in order, every call of a group, hash or
    RNG operation, with the lengths of the strings passed, and every run-time
    test the code branches on, with its outcome.  [PropTrace] proves that the
    results are those of the other definitions.

    Not recorded: moving and copying of values, array construction, the
    assertion of [Dst::new] (its operands are constants), and anything inside
    the operations (the group and hash crates are not part of /repo). *)
From Verif Require Export Oprf Voprf Poprf.
Open Scope N_scope.

(** What the code tests at run time.
    - [TooLong]: [i2osp_2] of the length of a string (common.rs:566-570);
    - [OtherLength], [TooMany]: common.rs:294, 298, poprf.rs:750;
    - [ZeroKey]: is a candidate key zero (common.rs:385); the loop goes on if so;
    - [ZeroTweak], [IdentityKey]: poprf.rs:662, 626;
    - [IdentityInput]: oprf.rs:216, voprf.rs:382, poprf.rs:411;
    - [SameChallenge]: common.rs:263;
    - [ValidKey]: does [deserialize_scalar] succeed (oprf.rs:179, voprf.rs:230, poprf.rs:219). *)
Inductive test : Set :=
| TooLong | OtherLength | TooMany | ZeroKey | ZeroTweak | IdentityKey | IdentityInput | SameChallenge | ValidKey.

(** The operations; numbers are lengths in bytes. *)
Inductive event : Set :=
| MulElem | AddElem                              (* [*] and [+] on elements *)
| MulScalar | AddScalar | SubScalar | Invert     (* on scalars; [Group::invert_scalar] *)
| Serialize                                      (* [Group::serialize_elem] *)
| Deserialize (n : N)                            (* [Group::deserialize_scalar] *)
| ToCurve (parts dst : list N)                   (* [Group::hash_to_curve] *)
| ToScalar (parts dst : list N)                  (* [Group::hash_to_scalar] *)
| Update (n : N) | Finish                        (* [Digest::update], [finalize] *)
| Draw                                           (* [Group::random_scalar] *)
| Fill (n : N)                                   (* [RngCore::fill_bytes] *)
| CompareElem | CompareScalar | CheckZero        (* [ct_eq], [is_zero_scalar] *)
| Test (what : test) (outcome : bool).

(** A result and the events on the way to it. *)
Definition tr (A : Type) : Type := (res A * list event)%type.
Definition tret {A} (a : A) : tr A := (Ok a, []).
Definition tfail {A} (e : Error) : tr A := (Err e, []).
Definition top {A} (e : event) (r : res A) : tr A := (r, [e]).
Definition tval {A} (e : event) (a : A) : tr A := (Ok a, [e]).
Definition task (w : test) (b : bool) : tr bool := (Ok b, [Test w b]).
(* a result with no event: constants, [unwrap] on an option *)
Definition tpure {A} (r : res A) : tr A := (r, []).
Definition tbind {A B} (m : tr A) (f : A -> tr B) : tr B :=
  match fst m with
  | Ok a => let r := f a in (fst r, snd m ++ snd r)
  | Err e => (Err e, snd m)
  | Panic => (Panic, snd m)
  | Diverge => (Diverge, snd m)
  end.
Definition tunwrap {A} (m : tr A) : tr A := (unwrap (fst m), snd m).

(** The same with an RNG. *)
Definition rtr (S A : Type) : Type := S -> (res A * S) * list event.
Definition tlift {S A} (m : tr A) : rtr S A := fun s => ((fst m, s), snd m).
Definition rtbind {S A B} (m : rtr S A) (f : A -> rtr S B) : rtr S B :=
  fun s =>
    let r := m s in
    match fst (fst r) with
    | Ok a => let r' := f a (snd (fst r)) in (fst r', snd r ++ snd r')
    | Err e => ((Err e, snd (fst r)), snd r)
    | Panic => ((Panic, snd (fst r)), snd r)
    | Diverge => ((Diverge, snd (fst r)), snd r)
    end.
Definition rtunwrap {S A} (m : rtr S A) : rtr S A :=
  fun s => let r := m s in ((unwrap (fst (fst r)), snd (fst r)), snd r).

Notation "x <-- m ;; k" := (tbind m (fun x => k))
  (at level 61, m at next level, right associativity) : outcome_scope.
Notation "' p <-- m ;; k" := (tbind m (fun p => k))
  (at level 61, p pattern, m at next level, right associativity) : outcome_scope.
Notation "x <~~ m ;; k" := (rtbind m (fun x => k))
  (at level 61, m at next level, right associativity) : outcome_scope.
Notation "' p <~~ m ;; k" := (rtbind m (fun p => k))
  (at level 61, p pattern, m at next level, right associativity) : outcome_scope.

(** [Iterator::next] then [unwrap] on a lazy iterator: the first item is
    computed now. *)
Definition t_next_unwrap {A} (items : list (tr A)) : tr A :=
  match items with [] => tpure Panic | x :: _ => x end.
(** [collect] computes the items in turn. *)
Fixpoint t_collect {A} (items : list (tr A)) : tr (list A) :=
  match items with
  | [] => tret []
  | x :: xs => a <-- x ;; l <-- t_collect xs ;; tret (a :: l)
  end.

(** common.rs:566-570, [i2osp_2] then [map_err]. *)
Definition t_i2osp_2 (n : N) (e : Error) : tr bytes :=
  b <-- task TooLong (negb (n <=? u16_max)) ;;
  if b then tfail e else tret (u16_to_be_bytes n).

(** common.rs:544-559, updates of a hasher. *)
Definition t_update (h : hasher) (data : bytes) : tr hasher := tval (Update (len data)) (chain_update h data).
Fixpoint t_update_multi (h : hasher) (datas : list bytes) : tr hasher :=
  match datas with
  | [] => tret h
  | d :: ds => h' <-- t_update h d ;; t_update_multi h' ds
  end.

Section Trace.
Context (CS : CipherSuite).
Local Notation G := (CSGroup CS).
Local Notation H := (CSHash CS).

(** The operators and functions of the group. *)
Definition t_mul (e : elem CS) (k : scalar CS) : tr (elem CS) := tval MulElem (elem_mul G e k).
Definition t_add (a b : elem CS) : tr (elem CS) := tval AddElem (elem_add G a b).
Definition t_ser (e : elem CS) : tr bytes := tval Serialize (serialize_elem G e).
Definition t_invert (k : scalar CS) : tr (scalar CS) := top Invert (invert_scalar G k).
Definition t_finish (h : hasher) : tr bytes := tval Finish (finalize_hash H h).
Definition t_to_scalar (parts : list bytes) (dst : Dst) : tr (scalar CS) :=
  top (ToScalar (map len parts) (map len (as_dst dst))) (unwrap (hash_to_scalar G H parts (as_dst dst))).
Definition t_is_identity (e : elem CS) (w : test) : tr bool :=
  b <-- tval CompareElem (is_identity_elem G e) ;; task w b.
Definition t_is_zero (k : scalar CS) (w : test) : tr bool :=
  b <-- tval CheckZero (is_zero_scalar G k) ;; task w b.
Definition t_deserialize_scalar (key : bytes) : tr (scalar CS) :=
  match deserialize_scalar G key with
  | Ok k => (Ok k, [Deserialize (len key); Test ValidKey true])
  | r => (r, [Deserialize (len key); Test ValidKey false])
  end.

(** common.rs:451-461. *)
Definition t_hash_to_group (input : bytes) (mode : Mode) : tr (elem CS) :=
  dst <-- tpure (dst_new CS STR_HASH_TO_GROUP mode) ;;
  top (ToCurve [len input] (map len (as_dst dst))) (map_err (hash_to_curve G H [input] (as_dst dst)) EInput).

(** common.rs:437-448. *)
Definition t_deterministic_blind_unchecked (input : bytes) (blind : scalar CS) (mode : Mode) : tr (elem CS) :=
  hashed_point <-- t_hash_to_group input mode ;;
  t_mul hashed_point blind.

(** common.rs:317-344; the weight is computed after both elements are
    serialized. *)
Definition t_composite_step (k_option : option (scalar CS)) (seed : bytes) (mode : Mode)
    (acc : elem CS * elem CS) (item : N * (elem CS * elem CS)) : tr (elem CS * elem CS) :=
  let '(m, z) := acc in
  let '(i, (c, d)) := item in
  ci <-- t_ser c ;;
  di <-- t_ser d ;;
  let h2_input := [i2osp_2_array seed; seed; u16_to_be_bytes i;
                   elem_len_bytes CS; ci; elem_len_bytes CS; di; STR_COMPOSITE] in
  dst <-- tpure (dst_new CS STR_HASH_TO_SCALAR mode) ;;
  w <-- t_to_scalar h2_input dst ;;
  cw <-- t_mul c w ;;
  m' <-- t_add cw m ;;
  z' <-- match k_option with
         | Some _ => tret z
         | None => dw <-- t_mul d w ;; t_add dw z
         end ;;
  tret (m', z').
Fixpoint t_composite_loop (k_option : option (scalar CS)) (seed : bytes) (mode : Mode)
    (acc : elem CS * elem CS) (items : list (N * (elem CS * elem CS))) : tr (elem CS * elem CS) :=
  match items with
  | [] => tret acc
  | item :: rest =>
      acc' <-- t_composite_step k_option seed mode acc item ;;
      t_composite_loop k_option seed mode acc' rest
  end.

(** common.rs:303-311. *)
Definition t_composite_seed (b : elem CS) (seed_dst : Dst) : tr bytes :=
  h <-- t_update hash_new (elem_len_bytes CS) ;;
  bm <-- t_ser b ;;
  h <-- t_update h bm ;;
  l <-- tpure (dst_i2osp_2 seed_dst) ;;
  h <-- t_update h l ;;
  h <-- t_update_multi h (as_dst seed_dst) ;;
  t_finish h.

(** common.rs:275-353. *)
Definition t_compute_composites (k_option : option (scalar CS)) (b : elem CS)
    (c_slice d_slice : list (elem CS)) (mode : Mode) : tr (elem CS * elem CS) :=
  differ <-- task OtherLength (negb (len c_slice =? len d_slice)) ;;
  if differ then tfail EBatch else
  many <-- task TooMany (negb (len c_slice <=? u16_max)) ;;
  if many then tfail EBatch else
  seed_dst <-- tpure (dst_new CS STR_SEED mode) ;;
  seed <-- t_composite_seed b seed_dst ;;
  '(m, z) <-- t_composite_loop k_option seed mode (identity_elem G, identity_elem G)
                (combine (u16_range (len c_slice)) (combine c_slice d_slice)) ;;
  z' <-- match k_option with Some k => t_mul m k | None => tret z end ;;
  tret (m, z').

(** common.rs:170-197 and 231-257. *)
Definition t_challenge (b m z t2 t3 : elem CS) (mode : Mode) : tr (scalar CS) :=
  bm <-- t_ser b ;;
  a0 <-- t_ser m ;;
  a1 <-- t_ser z ;;
  a2 <-- t_ser t2 ;;
  a3 <-- t_ser t3 ;;
  let l := elem_len_bytes CS in
  dst <-- tpure (dst_new CS STR_HASH_TO_SCALAR mode) ;;
  t_to_scalar [l; bm; l; a0; l; a1; l; a2; l; a3; STR_CHALLENGE] dst.

(** [Group::random_scalar]. *)
Definition t_random_scalar (R : Rng) : rtr (rng_state R) (scalar CS) :=
  fun st => (random_scalar G R st, [Draw]).

(** common.rs:145-205. *)
Definition t_generate_proof (R : Rng) (k : scalar CS) (a b : elem CS)
    (cs ds : list (elem CS)) (mode : Mode) : rtr (rng_state R) (Proof CS) :=
  '(m, z) <~~ tlift (t_compute_composites (Some k) b cs ds mode) ;;
  r <~~ t_random_scalar R ;;
  tlift (t2 <-- t_mul a r ;;
         t3 <-- t_mul m r ;;
         c <-- t_challenge b m z t2 t3 mode ;;
         ck <-- tval MulScalar (scalar_mul G c k) ;;
         s <-- tval SubScalar (scalar_sub G r ck) ;;
         tret (mkProof c s)).

(** common.rs:209-267. *)
Definition t_verify_proof (a b : elem CS) (cs ds : list (elem CS)) (proof : Proof CS) (mode : Mode) : tr unit :=
  '(m, z) <-- t_compute_composites None b cs ds mode ;;
  as_ <-- t_mul a (s_scalar proof) ;;
  bc <-- t_mul b (c_scalar proof) ;;
  t2 <-- t_add as_ bc ;;
  ms <-- t_mul m (s_scalar proof) ;;
  zc <-- t_mul z (c_scalar proof) ;;
  t3 <-- t_add ms zc ;;
  c <-- t_challenge b m z t2 t3 mode ;;
  same <-- tval CompareScalar (scalar_ct_eq G c (c_scalar proof)) ;;
  same <-- task SameChallenge same ;;
  if same then tret tt else tfail EProofVerification.

(** common.rs:361-391. *)
Fixpoint t_derive_key_loop (seed info_len info : bytes) (dst : Dst) (counters : list N) : tr (scalar CS) :=
  match counters with
  | [] => tfail EProtocol
  | counter :: rest =>
      sk <-- top (ToScalar (map len (derive_key_input seed info_len info counter)) (map len (as_dst dst)))
               (map_err (hash_to_scalar G H (derive_key_input seed info_len info counter) (as_dst dst)) EDeriveKeyPair) ;;
      zero <-- t_is_zero sk ZeroKey ;;
      if negb zero then tret sk
      else t_derive_key_loop seed info_len info dst rest
  end.
Definition t_derive_key_internal (seed info : bytes) (mode : Mode) : tr (scalar CS) :=
  dst <-- tpure (dst_new CS STR_DERIVE_KEYPAIR mode) ;;
  info_len <-- t_i2osp_2 (len info) EDeriveKeyPair ;;
  t_derive_key_loop seed info_len info dst u8_range_inclusive.

(** common.rs:418-430. *)
Definition t_derive_keypair (seed info : bytes) (mode : Mode) : tr (scalar CS * elem CS) :=
  sk_s <-- t_derive_key_internal seed info mode ;;
  pk_s <-- t_mul (base_elem G) sk_s ;;
  tret (sk_s, pk_s).

(** common.rs:465-499. *)
Definition t_server_evaluate_hash_input (input : bytes) (info : option bytes) (issued_element : bytes) : tr bytes :=
  il <-- t_i2osp_2 (len input) EInput ;;
  h <-- t_update hash_new il ;;
  h <-- t_update h input ;;
  h <-- match info with
        | Some info =>
            nl <-- t_i2osp_2 (len info) EInput ;;
            h <-- t_update h nl ;;
            t_update h info
        | None => tret h
        end ;;
  el <-- t_i2osp_2 (len issued_element) EInput ;;
  h <-- t_update h el ;;
  h <-- t_update h issued_element ;;
  h <-- t_update h STR_FINALIZE ;;
  t_finish h.

(** ** Base mode *)

(** oprf.rs:89-95, 117-126. *)
Definition t_oprf_client_blind (R : Rng) (input : bytes) : rtr (rng_state R) (OprfClientBlindResult CS) :=
  blind <~~ t_random_scalar R ;;
  tlift (blinded_element <-- t_deterministic_blind_unchecked input blind Oprf ;;
         tret (mkOprfClientBlindResult (mkOprfClient blind) (mkBlinded blinded_element))).

(** oprf.rs:269-283 (and voprf.rs:562-576). *)
Definition t_finalize_one (input : bytes) (unblinded_element : elem CS) : tr bytes :=
  il <-- t_i2osp_2 (len input) EInput ;;
  h <-- t_update hash_new il ;;
  h <-- t_update h input ;;
  h <-- t_update h (elem_len_bytes CS) ;;
  e <-- t_ser unblinded_element ;;
  h <-- t_update h e ;;
  h <-- t_update h STR_FINALIZE ;;
  t_finish h.

(** oprf.rs:133-142. *)
Definition t_oprf_client_finalize (self : OprfClient CS) (input : bytes)
    (evaluation_element : EvaluationElement CS) : tr bytes :=
  inv <-- t_invert (oprf_blind self) ;;
  unblinded_element <-- t_mul (evaluation_value evaluation_element) inv ;;
  t_next_unwrap [t_finalize_one input unblinded_element].

(** oprf.rs:192-195. *)
Definition t_oprf_server_new_from_seed (seed info : bytes) : tr (OprfServer CS) :=
  sk <-- t_derive_key_internal seed info Oprf ;;
  tret (mkOprfServer sk).

(** oprf.rs:166-170, voprf.rs:216-221, poprf.rs:205-210: the seed. *)
Definition t_fill (R : Rng) : rtr (rng_state R) bytes :=
  fun st => let '(seed, st') := fill_bytes R st (N.to_nat (scalar_len G)) in ((Ok seed, st'), [Fill (scalar_len G)]).
Definition t_oprf_server_new (R : Rng) : rtr (rng_state R) (OprfServer CS) :=
  seed <~~ t_fill R ;; tlift (t_oprf_server_new_from_seed seed []).

(** oprf.rs:178-181. *)
Definition t_oprf_server_new_with_key (private_key_bytes : bytes) : tr (OprfServer CS) :=
  sk <-- t_deserialize_scalar private_key_bytes ;;
  tret (mkOprfServer sk).

(** oprf.rs:206-208. *)
Definition t_oprf_server_blind_evaluate (self : OprfServer CS) (blinded_element : BlindedElement CS)
  : tr (EvaluationElement CS) :=
  e <-- t_mul (blinded_value blinded_element) (oprf_sk self) ;;
  tret (mkEvaluation e).

(** oprf.rs:214-224 and voprf.rs:380-390. *)
Definition t_evaluate (sk : scalar CS) (input : bytes) (mode : Mode) : tr bytes :=
  input_element <-- t_hash_to_group input mode ;;
  identity <-- t_is_identity input_element IdentityInput ;;
  if identity then tfail EInput else
  evaluated_element <-- t_mul input_element sk ;;
  issued_element <-- t_ser evaluated_element ;;
  t_server_evaluate_hash_input input None issued_element.
Definition t_oprf_server_evaluate (self : OprfServer CS) (input : bytes) : tr bytes :=
  t_evaluate (oprf_sk self) input Oprf.

(** ** Verifiable mode *)

(** voprf.rs:91-97, 119-131. *)
Definition t_voprf_client_blind (R : Rng) (input : bytes) : rtr (rng_state R) (VoprfClientBlindResult CS) :=
  blind <~~ t_random_scalar R ;;
  tlift (blinded_element <-- t_deterministic_blind_unchecked input blind Voprf ;;
         tret (mkVoprfClientBlindResult (mkVoprfClient blind blinded_element) (mkBlinded blinded_element))).

(** voprf.rs:539-541 and poprf.rs:722-724. *)
Definition t_unblind_one (blind : scalar CS) (x : EvaluationElement CS) : tr (elem CS) :=
  inv <-- t_invert blind ;;
  t_mul (evaluation_value x) inv.

(** voprf.rs:164-186 and 507-577, [batch_finalize]: the proof is checked in
    the call, the outputs are computed item by item by the caller. *)
Definition t_voprf_client_batch_finalize (inputs : list bytes) (clients : list (VoprfClient CS))
    (messages : list (EvaluationElement CS)) (proof : Proof CS) (pk : elem CS) : tr (list (tr bytes)) :=
  _ <-- t_verify_proof (base_elem G) pk (map voprf_blinded_element clients) (map evaluation_value messages) proof Voprf ;;
  tret (map (fun '(input, (blind, x)) => e <-- t_unblind_one blind x ;; t_finalize_one input e)
            (combine inputs (combine (map voprf_blind clients) messages))).

(** voprf.rs:139-152. *)
Definition t_voprf_client_finalize (self : VoprfClient CS) (input : bytes)
    (evaluation_element : EvaluationElement CS) (proof : Proof CS) (pk : elem CS) : tr bytes :=
  batch_result <-- t_voprf_client_batch_finalize [input] [self] [evaluation_element] proof pk ;;
  t_next_unwrap batch_result.

(** voprf.rs:244-247, 216-221, 229-233. *)
Definition t_voprf_server_new_from_seed (seed info : bytes) : tr (VoprfServer CS) :=
  '(sk, pk) <-- t_derive_keypair seed info Voprf ;;
  tret (mkVoprfServer sk pk).
Definition t_voprf_server_new (R : Rng) : rtr (rng_state R) (VoprfServer CS) :=
  seed <~~ t_fill R ;; tlift (t_voprf_server_new_from_seed seed []).
Definition t_voprf_server_new_with_key (key : bytes) : tr (VoprfServer CS) :=
  sk <-- t_deserialize_scalar key ;;
  pk <-- t_mul (base_elem G) sk ;;
  tret (mkVoprfServer sk pk).

(** voprf.rs:319-331: a lazy map; its items are computed when the caller, or
    [collect] at voprf.rs:301, asks for them. *)
Definition t_voprf_server_batch_blind_evaluate_prepare (self : VoprfServer CS)
    (blinded_elements : list (BlindedElement CS)) : list (tr (PreparedEvaluationElement CS)) :=
  map (fun blinded_element =>
         e <-- t_mul (blinded_value blinded_element) (voprf_sk self) ;;
         tret (mkPrepared (mkEvaluation e))) blinded_elements.

(** voprf.rs:339-374. *)
Definition t_voprf_server_batch_blind_evaluate_finish (self : VoprfServer CS) (R : Rng)
    (blinded_elements : list (BlindedElement CS)) (evaluation_elements : list (PreparedEvaluationElement CS))
  : rtr (rng_state R) (VoprfServerBatchEvaluateResult CS) :=
  proof <~~ t_generate_proof R (voprf_sk self) (base_elem G) (voprf_pk self)
              (map blinded_value blinded_elements)
              (map (fun element => evaluation_value (prepared_value element)) evaluation_elements) Voprf ;;
  tlift (tret (mkVoprfServerBatchEvaluateResult
    (map (fun element => mkEvaluation (evaluation_value (prepared_value element))) evaluation_elements) proof)).

(** voprf.rs:291-313. *)
Definition t_voprf_server_batch_blind_evaluate (self : VoprfServer CS) (R : Rng)
    (blinded_elements : list (BlindedElement CS)) : rtr (rng_state R) (VoprfServerBatchEvaluateResult CS) :=
  prepared <~~ tlift (t_collect (t_voprf_server_batch_blind_evaluate_prepare self blinded_elements)) ;;
  r <~~ t_voprf_server_batch_blind_evaluate_finish self R blinded_elements prepared ;;
  tlift (tret (mkVoprfServerBatchEvaluateResult (voprf_batch_messages r) (voprf_batch_proof r))).

(** voprf.rs:258-282. *)
Definition t_voprf_server_blind_evaluate (self : VoprfServer CS) (R : Rng)
    (blinded_element : BlindedElement CS) : rtr (rng_state R) (VoprfServerEvaluateResult CS) :=
  prepared <~~ tlift (t_next_unwrap (t_voprf_server_batch_blind_evaluate_prepare self [blinded_element])) ;;
  r <~~ rtunwrap (t_voprf_server_batch_blind_evaluate_finish self R [blinded_element] [prepared]) ;;
  message <~~ tlift (tpure (unwrap_opt (hd_error (voprf_batch_messages r)))) ;;
  tlift (tret (mkVoprfServerEvaluateResult message (voprf_batch_proof r))).

(** voprf.rs:380-390. *)
Definition t_voprf_server_evaluate (self : VoprfServer CS) (input : bytes) : tr bytes :=
  t_evaluate (voprf_sk self) input Voprf.

(** ** Partially-oblivious mode *)

(** poprf.rs:91-97, 119-131. *)
Definition t_poprf_client_blind (R : Rng) (input : bytes) : rtr (rng_state R) (PoprfClientBlindResult CS) :=
  blind <~~ t_random_scalar R ;;
  tlift (blinded_element <-- t_deterministic_blind_unchecked input blind Poprf ;;
         tret (mkPoprfClientBlindResult (mkPoprfClient blind blinded_element) (mkBlinded blinded_element))).

(** poprf.rs:598-630. *)
Definition t_compute_tweaked_key (pk : elem CS) (info : option bytes) : tr (elem CS) :=
  let info := info_or_default info in
  info_len <-- t_i2osp_2 (len info) EInfo ;;
  dst <-- tpure (dst_new CS STR_HASH_TO_SCALAR Poprf) ;;
  m <-- t_to_scalar (framed_info_of info_len info) dst ;;
  t <-- t_mul (base_elem G) m ;;
  tweaked_key <-- t_add t pk ;;
  identity <-- t_is_identity tweaked_key IdentityKey ;;
  if identity then tfail EProtocol else tret tweaked_key.

(** poprf.rs:636-666. *)
Definition t_compute_tweak (sk : scalar CS) (info : option bytes) : tr (scalar CS) :=
  let info := info_or_default info in
  info_len <-- t_i2osp_2 (len info) EInfo ;;
  dst <-- tpure (dst_new CS STR_HASH_TO_SCALAR Poprf) ;;
  m <-- t_to_scalar (framed_info_of info_len info) dst ;;
  t <-- tval AddScalar (scalar_add G sk m) ;;
  zero <-- t_is_zero t ZeroTweak ;;
  if zero then tfail EProtocol else tret t.

(** poprf.rs:757-776. *)
Definition t_poprf_finalize_one (unblinded_element : elem CS) (input info : bytes) : tr bytes :=
  il <-- t_i2osp_2 (len input) EInput ;;
  h <-- t_update hash_new il ;;
  h <-- t_update h input ;;
  nl <-- t_i2osp_2 (len info) EInfo ;;
  h <-- t_update h nl ;;
  h <-- t_update h info ;;
  h <-- t_update h (elem_len_bytes CS) ;;
  e <-- t_ser unblinded_element ;;
  h <-- t_update h e ;;
  h <-- t_update h STR_FINALIZE ;;
  t_finish h.

(** poprf.rs:169-187, 686-725 and 736-778. *)
Definition t_poprf_client_batch_finalize (inputs : list bytes) (clients : list (PoprfClient CS))
    (messages : list (EvaluationElement CS)) (proof : Proof CS) (pk : elem CS) (info : option bytes) : tr (list (tr bytes)) :=
  tweaked_key <-- t_compute_tweaked_key pk (Some (info_or_default info)) ;;
  _ <-- t_verify_proof (base_elem G) tweaked_key (map evaluation_value messages) (map poprf_blinded_element clients) proof Poprf ;;
  let unblinded_elements := map (fun '(blind, x) => t_unblind_one blind x) (combine (map poprf_blind clients) messages) in
  differ <-- task OtherLength (negb (len unblinded_elements =? len inputs)) ;;
  if differ then tfail EBatch else
  tret (map (fun '(unblinded_element, input) => e <-- unblinded_element ;; t_poprf_finalize_one e input (info_or_default info))
            (combine unblinded_elements inputs)).

(** poprf.rs:141-155. *)
Definition t_poprf_client_finalize (self : PoprfClient CS) (input : bytes)
    (evaluation_element : EvaluationElement CS) (proof : Proof CS) (pk : elem CS) (info : option bytes) : tr bytes :=
  batch_result <-- t_poprf_client_batch_finalize [input] [self] [evaluation_element] proof pk info ;;
  t_next_unwrap batch_result.

(** poprf.rs:233-236, 205-210, 218-222. *)
Definition t_poprf_server_new_from_seed (seed info : bytes) : tr (PoprfServer CS) :=
  '(sk, pk) <-- t_derive_keypair seed info Poprf ;;
  tret (mkPoprfServer sk pk).
Definition t_poprf_server_new (R : Rng) : rtr (rng_state R) (PoprfServer CS) :=
  seed <~~ t_fill R ;; tlift (t_poprf_server_new_from_seed seed []).
Definition t_poprf_server_new_with_key (key : bytes) : tr (PoprfServer CS) :=
  sk <-- t_deserialize_scalar key ;;
  pk <-- t_mul (base_elem G) sk ;;
  tret (mkPoprfServer sk pk).

(** poprf.rs:330-350: the tweak is computed in the call, the elements, with an
    inversion each, when they are asked for. *)
Definition t_poprf_server_batch_blind_evaluate_prepare (self : PoprfServer CS)
    (blinded_elements : list (BlindedElement CS)) (info : option bytes)
  : tr (list (tr (PreparedEvaluationElement CS)) * PoprfPreparedTweak CS) :=
  tweak <-- t_compute_tweak (poprf_sk self) info ;;
  tret (map (fun blinded_element =>
               inv <-- t_invert tweak ;;
               e <-- t_mul (blinded_value blinded_element) inv ;;
               tret (mkPrepared (mkEvaluation e))) blinded_elements,
        mkPreparedTweak tweak).

(** poprf.rs:359-399. *)
Definition t_poprf_server_batch_blind_evaluate_finish (R : Rng)
    (blinded_elements : list (BlindedElement CS)) (prepared_evaluation_elements : list (PreparedEvaluationElement CS))
    (prepared_tweak : PoprfPreparedTweak CS) : rtr (rng_state R) (PoprfServerBatchEvaluateResult CS) :=
  let tweak := tweak_value prepared_tweak in
  tweaked_key <~~ tlift (t_mul (base_elem G) tweak) ;;
  proof <~~ t_generate_proof R tweak (base_elem G) tweaked_key
              (map (fun element => evaluation_value (prepared_value element)) prepared_evaluation_elements)
              (map blinded_value blinded_elements) Poprf ;;
  tlift (tret (mkPoprfServerBatchEvaluateResult
    (map (fun element => mkEvaluation (evaluation_value (prepared_value element))) prepared_evaluation_elements) proof)).

(** poprf.rs:289-320. *)
Definition t_poprf_server_batch_blind_evaluate (self : PoprfServer CS) (R : Rng)
    (blinded_elements : list (BlindedElement CS)) (info : option bytes)
  : rtr (rng_state R) (PoprfServerBatchEvaluateResult CS) :=
  '(items, tweak) <~~ tlift (t_poprf_server_batch_blind_evaluate_prepare self blinded_elements info) ;;
  prepared <~~ tlift (t_collect items) ;;
  r <~~ rtunwrap (t_poprf_server_batch_blind_evaluate_finish R blinded_elements prepared tweak) ;;
  tlift (tret (mkPoprfServerBatchEvaluateResult (poprf_batch_messages r) (poprf_batch_proof r))).

(** poprf.rs:251-280. *)
Definition t_poprf_server_blind_evaluate (self : PoprfServer CS) (R : Rng)
    (blinded_element : BlindedElement CS) (info : option bytes) : rtr (rng_state R) (PoprfServerEvaluateResult CS) :=
  '(items, tweak) <~~ tlift (t_poprf_server_batch_blind_evaluate_prepare self [blinded_element] info) ;;
  prepared <~~ tlift (t_next_unwrap items) ;;
  r <~~ rtunwrap (t_poprf_server_batch_blind_evaluate_finish R [blinded_element] [prepared] tweak) ;;
  message <~~ tlift (tpure (unwrap_opt (hd_error (poprf_batch_messages r)))) ;;
  tlift (tret (mkPoprfServerEvaluateResult message (poprf_batch_proof r))).

(** poprf.rs:405-422. *)
Definition t_poprf_server_evaluate (self : PoprfServer CS) (input : bytes) (info : option bytes) : tr bytes :=
  input_element <-- t_hash_to_group input Poprf ;;
  identity <-- t_is_identity input_element IdentityInput ;;
  if identity then tfail EInput else
  tweak <-- t_compute_tweak (poprf_sk self) info ;;
  inv <-- t_invert tweak ;;
  evaluated_element <-- t_mul input_element inv ;;
  issued_element <-- t_ser evaluated_element ;;
  t_server_evaluate_hash_input input info issued_element.

End Trace.
