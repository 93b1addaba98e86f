(** * Common: model of /repo/src/common.rs *)
From Verif Require Export Traits.


(** common.rs:32-40, the string constants. *)
Definition STR_FINALIZE : bytes := bstr "Finalize".
Definition STR_SEED : bytes := bstr "Seed-".
Definition STR_DERIVE_KEYPAIR : bytes := bstr "DeriveKeyPair".
Definition STR_COMPOSITE : bytes := bstr "Composite".
Definition STR_CHALLENGE : bytes := bstr "Challenge".
Definition STR_INFO : bytes := bstr "Info".
Definition STR_OPRF : bytes := bstr "OPRFV1-".
Definition STR_HASH_TO_SCALAR : bytes := bstr "HashToScalar-".
Definition STR_HASH_TO_GROUP : bytes := bstr "HashToGroup-".

(** common.rs:45-52, [enum Mode]. *)
Inductive Mode : Set := Oprf | Voprf | Poprf.

(** common.rs:56-62, [Mode::to_u8]. *)
Definition mode_to_u8 (m : Mode) : byte :=
  match m with Oprf => x00 | Voprf => x01 | Poprf => x02 end.

(** common.rs:79-82, [BlindedElement]. *)
Record BlindedElement (CS : CipherSuite) : Type := mkBlinded { blinded_value : elem CS }.
Arguments mkBlinded {CS} _.
Arguments blinded_value {CS} _.

(** common.rs:96-99, [EvaluationElement]. *)
Record EvaluationElement (CS : CipherSuite) : Type := mkEvaluation { evaluation_value : elem CS }.
Arguments mkEvaluation {CS} _.
Arguments evaluation_value {CS} _.

(** common.rs:113, [PreparedEvaluationElement]. *)
Record PreparedEvaluationElement (CS : CipherSuite) : Type :=
  mkPrepared { prepared_value : EvaluationElement CS }.
Arguments mkPrepared {CS} _.
Arguments prepared_value {CS} _.

(** common.rs:127-136, [Proof]. *)
Record Proof (CS : CipherSuite) : Type := mkProof {
  c_scalar : scalar CS;
  s_scalar : scalar CS
}.
Arguments mkProof {CS} _ _.
Arguments c_scalar {CS} _.
Arguments s_scalar {CS} _.

(** common.rs:501-504, [struct Dst]. *)
Record Dst : Type := mkDst { dst_1 : bytes; dst_2 : bytes }.

(** common.rs:533-535, [Dst::as_dst]. *)
Definition as_dst (d : Dst) : list bytes := [dst_1 d; dst_2 d].

(** common.rs:537-541, [Dst::i2osp_2]: [u16::try_from(..).unwrap()]. *)
Definition dst_i2osp_2 (d : Dst) : res bytes :=
  unwrap (i2osp_2 (len (dst_1 d) + len (dst_2 d))).

(** common.rs:544-559, the incremental hasher: [new], [chain_update],
    [chain_update_multi], [finalize].  A hasher is the string fed so far. *)
Definition hasher : Type := bytes.
Definition hash_new : hasher := [].
Definition chain_update (h : hasher) (data : bytes) : hasher := h ++ data.
Definition chain_update_multi (h : hasher) (datas : list bytes) : hasher :=
  fold_left chain_update datas h.
Definition finalize_hash (H : HashFn) (h : hasher) : bytes := digest H h.

(** common.rs:572-576, [i2osp_2_array]: [L::U16.to_be_bytes()] with [L] the
    length of the array. *)
Definition i2osp_2_array (a : bytes) : bytes := u16_to_be_bytes (len a).

Section Common.
Context (CS : CipherSuite).
Local Notation G := (CSGroup CS).
Local Notation H := (CSHash CS).

(** common.rs:507-531, [Dst::new]; the [assert!] is a panic. *)
Definition dst_new (par_1 : bytes) (mode : Mode) : res Dst :=
  let par_2 := STR_OPRF ++ [mode_to_u8 mode] ++ bstr "-" in
  let d1 := par_1 ++ par_2 in
  let d2 := ID CS in
  if (len d1 + len d2 <=? u16_max)%N then Ok (mkDst d1 d2) else Panic.

(** [<CS::Group as Group>::ElemLen::U16.to_be_bytes()] as used at
    common.rs:177, 237, 292, oprf.rs:270, voprf.rs:563 and poprf.rs:758. *)
Definition elem_len_bytes : bytes := u16_to_be_bytes (elem_len G).

(** common.rs:318-335, the hash input for the weight of item [i], as the
    slice list passed to [hash_to_scalar]. *)
Definition composite_input (seed : bytes) (i : N) (c d : elem CS) : list bytes :=
  let ci := serialize_elem G c in
  let di := serialize_elem G d in
  [i2osp_2_array seed; seed; u16_to_be_bytes i;
   elem_len_bytes; ci; elem_len_bytes; di; STR_COMPOSITE].

(** common.rs:317-344, one iteration of the loop of [compute_composites]. *)
Definition composite_step (k_option : option (scalar CS)) (seed : bytes) (mode : Mode)
    (acc : elem CS * elem CS) (item : N * (elem CS * elem CS)) : res (elem CS * elem CS) :=
  let '(m, z) := acc in
  let '(i, (c, d)) := item in
  let h2_input := composite_input seed i c d in
  dst <- dst_new STR_HASH_TO_SCALAR mode ;;
  w <- unwrap (hash_to_scalar G H h2_input (as_dst dst)) ;;
  let m' := elem_add G (elem_mul G c w) m in
  let z' := match k_option with
            | Some _ => z
            | None => elem_add G (elem_mul G d w) z
            end in
  Ok (m', z').

(** common.rs:317, the [for] loop: the state is [(m, z)]. *)
Fixpoint composite_loop (k_option : option (scalar CS)) (seed : bytes) (mode : Mode)
    (acc : elem CS * elem CS) (items : list (N * (elem CS * elem CS))) : res (elem CS * elem CS) :=
  match items with
  | [] => Ok acc
  | item :: rest =>
      acc' <- composite_step k_option seed mode acc item ;;
      composite_loop k_option seed mode acc' rest
  end.

(** The range [0..len] of [u16] at common.rs:317. *)
Definition u16_range (n : N) : list N := map N.of_nat (seq 0 (N.to_nat n)).

(** common.rs:303-311, the hash that gives [seed]. *)
Definition composite_seed (b : elem CS) (seed_dst : Dst) : res bytes :=
  l <- dst_i2osp_2 seed_dst ;;
  Ok (finalize_hash H
        (chain_update_multi
           (chain_update
              (chain_update (chain_update hash_new elem_len_bytes) (serialize_elem G b))
              l)
           (as_dst seed_dst))).

(** common.rs:275-353, [compute_composites].  The two [ExactSizeIterator]s
    are lists ([Iters] has iterators that misreport their length). *)
Definition compute_composites (k_option : option (scalar CS)) (b : elem CS)
    (c_slice d_slice : list (elem CS)) (mode : Mode) : res (elem CS * elem CS) :=
  if negb (len c_slice =? len d_slice)%N then Err EBatch else
  if negb (len c_slice <=? u16_max)%N then Err EBatch else
  let n := len c_slice in
  seed_dst <- dst_new STR_SEED mode ;;
  seed <- composite_seed b seed_dst ;;
  '(m, z) <- composite_loop k_option seed mode (identity_elem G, identity_elem G)
               (combine (u16_range n) (combine c_slice d_slice)) ;;
  let z' := match k_option with
            | Some k => elem_mul G m k
            | None => z
            end in
  Ok (m, z').

(** common.rs:185-197 and 245-257: the challenge hash input, as the slice
    list passed to [hash_to_scalar]. *)
Definition challenge_input (b m z t2 t3 : elem CS) : list bytes :=
  let bm := serialize_elem G b in
  let a0 := serialize_elem G m in
  let a1 := serialize_elem G z in
  let a2 := serialize_elem G t2 in
  let a3 := serialize_elem G t3 in
  [elem_len_bytes; bm; elem_len_bytes; a0; elem_len_bytes; a1;
   elem_len_bytes; a2; elem_len_bytes; a3; STR_CHALLENGE].

(** common.rs:145-205, [generate_proof]. *)
Definition generate_proof (R : Rng) (k : scalar CS) (a b : elem CS)
    (cs ds : list (elem CS)) (mode : Mode) : rcomp (rng_state R) (Proof CS) :=
  '(m, z) <~ rret (compute_composites (Some k) b cs ds mode) ;;
  r <~ random_scalar G R ;;
  let t2 := elem_mul G a r in
  let t3 := elem_mul G m r in
  let h2_input := challenge_input b m z t2 t3 in
  dst <~ rret (dst_new STR_HASH_TO_SCALAR mode) ;;
  c <~ rret (unwrap (hash_to_scalar G H h2_input (as_dst dst))) ;;
  let s := scalar_sub G r (scalar_mul G c k) in
  rret (Ok (mkProof c s)).

(** common.rs:209-267, [verify_proof]. *)
Definition verify_proof (a b : elem CS) (cs ds : list (elem CS)) (proof : Proof CS)
    (mode : Mode) : res unit :=
  '(m, z) <- compute_composites None b cs ds mode ;;
  let t2 := elem_add G (elem_mul G a (s_scalar proof)) (elem_mul G b (c_scalar proof)) in
  let t3 := elem_add G (elem_mul G m (s_scalar proof)) (elem_mul G z (c_scalar proof)) in
  let h2_input := challenge_input b m z t2 t3 in
  dst <- dst_new STR_HASH_TO_SCALAR mode ;;
  c <- unwrap (hash_to_scalar G H h2_input (as_dst dst)) ;;
  if scalar_ct_eq G c (c_scalar proof) then Ok tt else Err EProofVerification.

(** common.rs:375-379, the hash input for one candidate key. *)
Definition derive_key_input (seed info_len info : bytes) (counter : N) : list bytes :=
  [seed; info_len; info; u8_to_be_bytes counter].

(** common.rs:374-388, the [for counter in 0..=u8::MAX] loop of
    [derive_key_internal]. *)
Fixpoint derive_key_loop (seed info_len info : bytes) (dst : Dst) (counters : list N)
  : res (scalar CS) :=
  match counters with
  | [] => Err EProtocol
  | counter :: rest =>
      sk <- map_err (hash_to_scalar G H (derive_key_input seed info_len info counter) (as_dst dst))
                    EDeriveKeyPair ;;
      if negb (is_zero_scalar G sk) then Ok sk
      else derive_key_loop seed info_len info dst rest
  end.

(** The range [0_u8..=u8::MAX] at common.rs:374. *)
Definition u8_range_inclusive : list N := map N.of_nat (seq 0 256).

(** common.rs:361-391, [derive_key_internal]; also the public function
    [derive_key] of the "danger" feature (common.rs:399-410). *)
Definition derive_key_internal (seed info : bytes) (mode : Mode) : res (scalar CS) :=
  dst <- dst_new STR_DERIVE_KEYPAIR mode ;;
  info_len <- map_err (i2osp_2 (len info)) EDeriveKeyPair ;;
  derive_key_loop seed info_len info dst u8_range_inclusive.

(** common.rs:418-430, [derive_keypair]. *)
Definition derive_keypair (seed info : bytes) (mode : Mode) : res (scalar CS * elem CS) :=
  sk_s <- derive_key_internal seed info mode ;;
  let pk_s := elem_mul G (base_elem G) sk_s in
  Ok (sk_s, pk_s).

(** common.rs:451-461, [hash_to_group]. *)
Definition hash_to_group (input : bytes) (mode : Mode) : res (elem CS) :=
  dst <- dst_new STR_HASH_TO_GROUP mode ;;
  map_err (hash_to_curve G H [input] (as_dst dst)) EInput.

(** common.rs:437-448, [deterministic_blind_unchecked]. *)
Definition deterministic_blind_unchecked (input : bytes) (blind : scalar CS) (mode : Mode)
  : res (elem CS) :=
  hashed_point <- hash_to_group input mode ;;
  Ok (elem_mul G hashed_point blind).

(** common.rs:465-499, [server_evaluate_hash_input].  With [info = None] no
    info part is hashed at all. *)
Definition server_evaluate_hash_input (input : bytes) (info : option bytes)
    (issued_element : bytes) : res bytes :=
  il <- map_err (i2osp_2 (len input)) EInput ;;
  let hash := chain_update (chain_update hash_new il) input in
  hash <- match info with
          | Some info =>
              nl <- map_err (i2osp_2 (len info)) EInput ;;
              Ok (chain_update (chain_update hash nl) info)
          | None => Ok hash
          end ;;
  el <- map_err (i2osp_2 (len issued_element)) EInput ;;
  Ok (finalize_hash H
        (chain_update (chain_update (chain_update hash el) issued_element) STR_FINALIZE)).

End Common.
