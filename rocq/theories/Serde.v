(** * Serde: model of the serde support (feature "serde").

    serialization.rs:329-383 and the [derive(Serialize, Deserialize)] of the
    types.  The derived code is generic over the data format; the model is
    of a self-describing format such as JSON (serde_json is what the
    crate's users and tests use): sequences, maps with string keys, numbers
    and anything else.  What is modelled of serde and generic-array, from
    their documentation:
    - a [GenericArray<u8, N>] is written as a sequence of N numbers and read
      from a sequence of exactly N numbers from 0 to 255;
    - a struct with named fields is written as a map and read from a map in
      which each field occurs exactly once, in any order, unknown keys being
      ignored, or from a sequence with exactly the fields in order;
    - a newtype struct is written and read as its field. *)
From Verif Require Export Serialization.

Inductive doc : Type :=
| DNum (n : Z)
| DSeq (items : list doc)
| DMap (entries : list (String.string * doc))
| DOther.

(** All serde errors are one value here. *)
Notation sres := (outcome unit).
Definition serr {A} : sres A := Err tt.
Definition from_opt {A} (o : option A) : sres A := match o with Some a => Ok a | None => serr end.
(** [map_err(D::Error::custom)]. *)
Definition custom {A} (r : res A) : sres A := map_err r tt.

(** [u8] *)
Definition ser_u8 (b : byte) : doc := DNum (Z.of_N (Byte.to_N b)).
Definition de_u8 (d : doc) : sres byte :=
  match d with
  | DNum n => if ((0 <=? n) && (n <=? 255))%Z then from_opt (Byte.of_N (Z.to_N n)) else serr
  | _ => serr
  end.

(** generic-array: [GenericArray<u8, N>] as a tuple of N numbers. *)
Definition ser_array (b : bytes) : doc := DSeq (map ser_u8 b).
Fixpoint de_items (l : list doc) : sres bytes :=
  match l with
  | [] => Ok []
  | d :: l => b <- de_u8 d ;; bs <- de_items l ;; Ok (b :: bs)
  end.
Definition de_array (n : N) (d : doc) : sres bytes :=
  match d with
  | DSeq l => if (len l =? n)%N then de_items l else serr
  | _ => serr
  end.

(** Derived struct code: the value of a field in a map or sequence. *)
Definition entry (name : String.string) (entries : list (String.string * doc)) : sres doc :=
  match filter (fun kv => String.eqb (fst kv) name) entries with
  | [(_, d)] => Ok d
  | _ => serr   (* missing or duplicate field *)
  end.
Definition de_struct1 (n1 : String.string) (d : doc) : sres doc :=
  match d with
  | DMap entries => entry n1 entries
  | DSeq [d1] => Ok d1
  | _ => serr
  end.
Definition de_struct2 (n1 n2 : String.string) (d : doc) : sres (doc * doc) :=
  match d with
  | DMap entries => d1 <- entry n1 entries ;; d2 <- entry n2 entries ;; Ok (d1, d2)
  | DSeq [d1; d2] => Ok (d1, d2)
  | _ => serr
  end.

Section Serde.
Context (CS : CipherSuite).
Local Notation G := (CSGroup CS).

(** serialization.rs:341-356, [serde::Element]. *)
Definition sd_elem (e : elem CS) : doc := ser_array (serialize_elem G e).
Definition dd_elem (d : doc) : sres (elem CS) :=
  b <- de_array (elem_len G) d ;; custom (deserialize_elem G b).
(** serialization.rs:361-376, [serde::Scalar]. *)
Definition sd_scalar (s : scalar CS) : doc := ser_array (serialize_scalar G s).
Definition dd_scalar (d : doc) : sres (scalar CS) :=
  b <- de_array (scalar_len G) d ;; custom (deserialize_scalar G b).

(** oprf.rs:40-54. *)
Definition sd_oprf_client (x : OprfClient CS) : doc := DMap [("blind"%string, sd_scalar (oprf_blind x))].
Definition dd_oprf_client (d : doc) : sres (OprfClient CS) :=
  d1 <- de_struct1 "blind" d ;; b <- dd_scalar d1 ;; Ok (mkOprfClient b).
(** oprf.rs:58-72. *)
Definition sd_oprf_server (x : OprfServer CS) : doc := DMap [("sk"%string, sd_scalar (oprf_sk x))].
Definition dd_oprf_server (d : doc) : sres (OprfServer CS) :=
  d1 <- de_struct1 "sk" d ;; b <- dd_scalar d1 ;; Ok (mkOprfServer b).
(** voprf.rs:38-54. *)
Definition sd_voprf_client (x : VoprfClient CS) : doc :=
  DMap [("blind"%string, sd_scalar (voprf_blind x)); ("blinded_element"%string, sd_elem (voprf_blinded_element x))].
Definition dd_voprf_client (d : doc) : sres (VoprfClient CS) :=
  '(d1, d2) <- de_struct2 "blind" "blinded_element" d ;;
  b <- dd_scalar d1 ;; e <- dd_elem d2 ;; Ok (mkVoprfClient b e).
(** voprf.rs:58-74. *)
Definition sd_voprf_server (x : VoprfServer CS) : doc :=
  DMap [("sk"%string, sd_scalar (voprf_sk x)); ("pk"%string, sd_elem (voprf_pk x))].
Definition dd_voprf_server (d : doc) : sres (VoprfServer CS) :=
  '(d1, d2) <- de_struct2 "sk" "pk" d ;;
  b <- dd_scalar d1 ;; e <- dd_elem d2 ;; Ok (mkVoprfServer b e).
(** poprf.rs:38-54. *)
Definition sd_poprf_client (x : PoprfClient CS) : doc :=
  DMap [("blind"%string, sd_scalar (poprf_blind x)); ("blinded_element"%string, sd_elem (poprf_blinded_element x))].
Definition dd_poprf_client (d : doc) : sres (PoprfClient CS) :=
  '(d1, d2) <- de_struct2 "blind" "blinded_element" d ;;
  b <- dd_scalar d1 ;; e <- dd_elem d2 ;; Ok (mkPoprfClient b e).
(** poprf.rs:58-74. *)
Definition sd_poprf_server (x : PoprfServer CS) : doc :=
  DMap [("sk"%string, sd_scalar (poprf_sk x)); ("pk"%string, sd_elem (poprf_pk x))].
Definition dd_poprf_server (d : doc) : sres (PoprfServer CS) :=
  '(d1, d2) <- de_struct2 "sk" "pk" d ;;
  b <- dd_scalar d1 ;; e <- dd_elem d2 ;; Ok (mkPoprfServer b e).
(** common.rs:120-136. *)
Definition sd_proof (x : Proof CS) : doc :=
  DMap [("c_scalar"%string, sd_scalar (c_scalar x)); ("s_scalar"%string, sd_scalar (s_scalar x))].
Definition dd_proof (d : doc) : sres (Proof CS) :=
  '(d1, d2) <- de_struct2 "c_scalar" "s_scalar" d ;;
  c <- dd_scalar d1 ;; s <- dd_scalar d2 ;; Ok (mkProof c s).
(** common.rs:72-85, 89-102 and 106-116; poprf.rs:538-551: newtypes. *)
Definition sd_blinded (x : BlindedElement CS) : doc := sd_elem (blinded_value x).
Definition dd_blinded (d : doc) : sres (BlindedElement CS) := e <- dd_elem d ;; Ok (mkBlinded e).
Definition sd_evaluation (x : EvaluationElement CS) : doc := sd_elem (evaluation_value x).
Definition dd_evaluation (d : doc) : sres (EvaluationElement CS) := e <- dd_elem d ;; Ok (mkEvaluation e).
Definition sd_prepared (x : PreparedEvaluationElement CS) : doc := sd_evaluation (prepared_value x).
Definition dd_prepared (d : doc) : sres (PreparedEvaluationElement CS) :=
  e <- dd_evaluation d ;; Ok (mkPrepared e).
Definition sd_tweak (x : PoprfPreparedTweak CS) : doc := sd_scalar (tweak_value x).
Definition dd_tweak (d : doc) : sres (PoprfPreparedTweak CS) := s <- dd_scalar d ;; Ok (mkPreparedTweak s).

End Serde.
