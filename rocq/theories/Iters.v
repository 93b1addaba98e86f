(** * Iters: the batch functions with the caller's iterators as they are.

    The other files take the collections passed to the batch functions as
    lists.  Here each [into_iter()] of the code is a traversal of its own,
    which claims a length and yields items: collections may misreport their
    length and may yield other items the next time.  [len()] and [size_hint()]
    of an iterator give the same number (a panic in them, items without end
    and effects of the caller's code are not modelled). *)
From Verif Require Import Voprf Poprf.
From Coq Require Import Lia.
Open Scope outcome_scope.

Record Traversal (A : Type) : Type := mkTraversal { claims : N; items : list A }.
Arguments mkTraversal {A}.
Arguments claims {A}.
Arguments items {A}.

(** [Iterator::map]. *)
Definition tmap {A B} (f : A -> B) (t : Traversal A) : Traversal B := mkTraversal (claims t) (map f (items t)).
(** [Vec::iter]. *)
Definition exact {A} (l : list A) : Traversal A := mkTraversal (len l) l.

Section Iters.
Context (CS : CipherSuite).
Local Notation G := (CSGroup CS).
Local Notation H := (CSHash CS).

(** common.rs:275-353, [compute_composites]. *)
Definition compute_composites_it (k_option : option (scalar CS)) (b : elem CS)
    (c_slice d_slice : Traversal (elem CS)) (mode : Mode) : res (elem CS * elem CS) :=
  if negb (claims c_slice =? claims d_slice)%N then Err EBatch else
  if negb (claims c_slice <=? u16_max)%N then Err EBatch else
  let n := claims c_slice in
  seed_dst <- dst_new CS STR_SEED mode ;;
  seed <- composite_seed CS b seed_dst ;;
  '(m, z) <- composite_loop CS k_option seed mode (identity_elem G, identity_elem G)
               (combine (u16_range n) (combine (items c_slice) (items d_slice))) ;;
  let z' := match k_option with
            | Some k => elem_mul G m k
            | None => z
            end in
  Ok (m, z').

(** common.rs:145-205, [generate_proof]. *)
Definition generate_proof_it (R : Rng) (k : scalar CS) (a b : elem CS)
    (cs ds : Traversal (elem CS)) (mode : Mode) : rcomp (rng_state R) (Proof CS) :=
  '(m, z) <~ rret (compute_composites_it (Some k) b cs ds mode) ;;
  r <~ random_scalar G R ;;
  let t2 := elem_mul G a r in
  let t3 := elem_mul G m r in
  let h2_input := challenge_input CS b m z t2 t3 in
  dst <~ rret (dst_new CS STR_HASH_TO_SCALAR mode) ;;
  c <~ rret (unwrap (hash_to_scalar G H h2_input (as_dst dst))) ;;
  let s := scalar_sub G r (scalar_mul G c k) in
  rret (Ok (mkProof c s)).

(** common.rs:209-267, [verify_proof]. *)
Definition verify_proof_it (a b : elem CS) (cs ds : Traversal (elem CS)) (proof : Proof CS)
    (mode : Mode) : res unit :=
  '(m, z) <- compute_composites_it None b cs ds mode ;;
  let t2 := elem_add G (elem_mul G a (s_scalar proof)) (elem_mul G b (c_scalar proof)) in
  let t3 := elem_add G (elem_mul G m (s_scalar proof)) (elem_mul G z (c_scalar proof)) in
  let h2_input := challenge_input CS b m z t2 t3 in
  dst <- dst_new CS STR_HASH_TO_SCALAR mode ;;
  c <- unwrap (hash_to_scalar G H h2_input (as_dst dst)) ;;
  if scalar_ct_eq G c (c_scalar proof) then Ok tt else Err EProofVerification.

(** voprf.rs:507-542, [verifiable_unblind]: [clients0] is the traversal at
    line 523 (for the blinds), [messages0] at 527, [clients1] at 528 (for the
    blinded elements), [messages1] at 540. *)
Definition verifiable_unblind_it (clients0 clients1 : Traversal (VoprfClient CS))
    (messages0 messages1 : Traversal (EvaluationElement CS)) (pk : elem CS) (proof : Proof CS)
  : res (list (res (elem CS))) :=
  let g := base_elem G in
  let blinds := tmap voprf_blind clients0 in
  let evaluation_elements := tmap evaluation_value messages0 in
  let blinded_elements := tmap voprf_blinded_element clients1 in
  _ <- verify_proof_it g pk blinded_elements evaluation_elements proof Voprf ;;
  Ok (map (fun '(blind, x) => voprf_unblind_one CS blind x) (combine (items blinds) (items messages1))).

(** voprf.rs:164-186, [VoprfClient::batch_finalize]. *)
Definition voprf_client_batch_finalize_it (inputs : Traversal bytes) (clients0 clients1 : Traversal (VoprfClient CS))
    (messages0 messages1 : Traversal (EvaluationElement CS)) (proof : Proof CS) (pk : elem CS)
  : res (list (res bytes)) :=
  unblinded_elements <- verifiable_unblind_it clients0 clients1 messages0 messages1 pk proof ;;
  let inputs_and_unblinded_elements := combine (items inputs) unblinded_elements in
  Ok (voprf_finalize_after_unblind CS inputs_and_unblinded_elements).

(** poprf.rs:686-725, [poprf_unblind]; traversals as above (lines 706, 710,
    711, 723).  The result claims the smaller of the two lengths ([Zip]). *)
Definition poprf_unblind_it (clients0 clients1 : Traversal (PoprfClient CS))
    (messages0 messages1 : Traversal (EvaluationElement CS)) (pk : elem CS) (proof : Proof CS) (info : option bytes)
  : res (Traversal (res (elem CS))) :=
  let info := info_or_default info in
  tweaked_key <- compute_tweaked_key CS pk (Some info) ;;
  let g := base_elem G in
  let blinds := tmap poprf_blind clients0 in
  let evaluation_elements := tmap evaluation_value messages0 in
  let blinded_elements := tmap poprf_blinded_element clients1 in
  _ <- verify_proof_it g tweaked_key evaluation_elements blinded_elements proof Poprf ;;
  Ok (mkTraversal (N.min (claims blinds) (claims messages1))
        (map (fun '(blind, x) => poprf_unblind_one CS blind x) (combine (items blinds) (items messages1)))).

(** poprf.rs:736-778, [finalize_after_unblind]. *)
Definition poprf_finalize_after_unblind_it (unblinded_elements : Traversal (res (elem CS)))
    (inputs : Traversal bytes) (info : option bytes) : res (list (res bytes)) :=
  if negb (claims unblinded_elements =? claims inputs)%N then Err EBatch else
  let info := info_or_default info in
  Ok (map (fun '((unblinded_element, input), info) =>
             e <- unblinded_element ;; poprf_finalize_one CS e input info)
          (combine (combine (items unblinded_elements) (items inputs))
                   (repeat info (length (combine (items unblinded_elements) (items inputs)))))).

(** poprf.rs:169-187, [PoprfClient::batch_finalize]. *)
Definition poprf_client_batch_finalize_it (inputs : Traversal bytes) (clients0 clients1 : Traversal (PoprfClient CS))
    (messages0 messages1 : Traversal (EvaluationElement CS)) (proof : Proof CS) (pk : elem CS)
    (info : option bytes) : res (list (res bytes)) :=
  unblinded_elements <- poprf_unblind_it clients0 clients1 messages0 messages1 pk proof info ;;
  poprf_finalize_after_unblind_it unblinded_elements inputs info.

(** voprf.rs:339-374, [VoprfServer::batch_blind_evaluate_finish]: the
    prepared elements are traversed at lines 363 and 367. *)
Definition voprf_server_batch_blind_evaluate_finish_it (self : VoprfServer CS) (R : Rng)
    (blinded_elements : Traversal (BlindedElement CS))
    (evaluation0 evaluation1 : Traversal (PreparedEvaluationElement CS))
  : rcomp (rng_state R) (VoprfServerBatchEvaluateResult CS) :=
  let g := base_elem G in
  proof <~ generate_proof_it R (voprf_sk self) g (voprf_pk self)
             (tmap blinded_value blinded_elements)
             (tmap (fun element => evaluation_value (prepared_value element)) evaluation0)
             Voprf ;;
  let messages := map (fun element => mkEvaluation (evaluation_value (prepared_value element)))
                      (items evaluation1) in
  rret (Ok (mkVoprfServerBatchEvaluateResult messages proof)).

(** voprf.rs:291-313, [VoprfServer::batch_blind_evaluate]: the blinded
    elements are traversed at lines 302 and 307; the prepared elements are in
    a [Vec]. *)
Definition voprf_server_batch_blind_evaluate_it (self : VoprfServer CS) (R : Rng)
    (blinded0 blinded1 : Traversal (BlindedElement CS))
  : rcomp (rng_state R) (VoprfServerBatchEvaluateResult CS) :=
  let prepared := voprf_server_batch_blind_evaluate_prepare CS self (items blinded0) in
  r <~ voprf_server_batch_blind_evaluate_finish_it self R blinded1 (exact prepared) (exact prepared) ;;
  rret (Ok (mkVoprfServerBatchEvaluateResult (voprf_batch_messages r) (voprf_batch_proof r))).

(** poprf.rs:359-399, [PoprfServer::batch_blind_evaluate_finish]. *)
Definition poprf_server_batch_blind_evaluate_finish_it (R : Rng)
    (blinded_elements : Traversal (BlindedElement CS))
    (evaluation0 evaluation1 : Traversal (PreparedEvaluationElement CS))
    (prepared_tweak : PoprfPreparedTweak CS)
  : rcomp (rng_state R) (PoprfServerBatchEvaluateResult CS) :=
  let g := base_elem G in
  let tweak := tweak_value prepared_tweak in
  let tweaked_key := elem_mul G g tweak in
  proof <~ generate_proof_it R tweak g tweaked_key
             (tmap (fun element => evaluation_value (prepared_value element)) evaluation0)
             (tmap blinded_value blinded_elements)
             Poprf ;;
  let messages := map (fun element => mkEvaluation (evaluation_value (prepared_value element)))
                      (items evaluation1) in
  rret (Ok (mkPoprfServerBatchEvaluateResult messages proof)).

(** poprf.rs:289-320, [PoprfServer::batch_blind_evaluate]; traversals at lines
    303 and 311. *)
Definition poprf_server_batch_blind_evaluate_it (self : PoprfServer CS) (R : Rng)
    (blinded0 blinded1 : Traversal (BlindedElement CS)) (info : option bytes)
  : rcomp (rng_state R) (PoprfServerBatchEvaluateResult CS) :=
  p <~ rret (poprf_server_batch_blind_evaluate_prepare CS self (items blinded0) info) ;;
  prepared <~ rret (collect (poprf_prepared_elements p)) ;;
  r <~ runwrap (poprf_server_batch_blind_evaluate_finish_it R blinded1
                  (exact prepared) (exact prepared) (poprf_prepared_tweak p)) ;;
  rret (Ok (mkPoprfServerBatchEvaluateResult (poprf_batch_messages r) (poprf_batch_proof r))).
End Iters.
