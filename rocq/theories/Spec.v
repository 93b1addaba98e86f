(** * Spec: RFC 9497, written from the RFC and not from the code.

    The functions below transcribe the pseudo-code of RFC 9497 (and the
    [I2OSP] of RFC 8017) over an abstract prime-order group.  They do not use
    any definition of the model of the crate: only the operations of the
    [CipherSuite] record, the field inverse and the two hash functions that
    [SuiteLaws] names. *)
From Verif Require Export Laws.

(** RFC 8017, section 4.1: the big-endian encoding of [x] on [xLen] bytes. *)
Fixpoint I2OSP (x : N) (xLen : nat) : bytes :=
  match xLen with
  | O => []
  | S n => I2OSP (x / 256) n ++ [match Byte.of_N (x mod 256) with Some b => b | None => x00 end]
  end.

(** RFC 9497, section 3.1: the mode identifiers. *)
Definition modeOPRF : N := 0.
Definition modeVOPRF : N := 1.
Definition modePOPRF : N := 2.

(** A string, its length and itself: [I2OSP(len(x), 2) || x]. *)
Definition lv (x : bytes) : bytes := I2OSP (N.of_nat (length x)) 2 ++ x.

Definition str (s : String.string) : bytes := String.list_byte_of_string s.
Arguments str s%string.

Section Spec.
Context {CS : CipherSuite} (L : SuiteLaws CS).
Local Notation G := (CSGroup CS).
Local Notation Hash := (digest (CSHash CS)).
Local Notation GL := (group_laws L).
Local Notation "P [+] Q" := (elem_add G P Q) (at level 50, left associativity).
Local Notation "k [*] P" := (elem_mul G P k) (at level 40).
Local Notation Ser := (serialize_elem G).

(** RFC 9497, section 3.1, CreateContextString. *)
Definition contextString (mode : N) : bytes := str "OPRFV1-" ++ I2OSP mode 1 ++ str "-" ++ ID CS.

(** RFC 9497, section 4: the tags of HashToGroup and HashToScalar. *)
Definition H2G (mode : N) (x : bytes) : elem CS :=
  HashToGroup L x (str "HashToGroup-" ++ contextString mode).
Definition H2S (mode : N) (x : bytes) : scalar CS :=
  HashToScalar L x (str "HashToScalar-" ++ contextString mode).

(** RFC 9497, section 3.2.1: the candidate secret key for one counter value
    and the key chosen by DeriveKeyPair (the first non-zero candidate). *)
Definition key_candidate (mode : N) (seed info : bytes) (counter : N) : scalar CS :=
  HashToScalar L (seed ++ lv info ++ I2OSP counter 1) (str "DeriveKeyPair" ++ contextString mode).

Definition DerivedKey (mode : N) (seed info : bytes) (sk : scalar CS) : Prop :=
  exists counter : N, (counter <= 255)%N /\
    sk = key_candidate mode seed info counter /\ sk <> zero_scalar G /\
    forall earlier : N, (earlier < counter)%N ->
      key_candidate mode seed info earlier = zero_scalar G.

Definition NoDerivedKey (mode : N) (seed info : bytes) : Prop :=
  forall counter : N, (counter <= 255)%N ->
    key_candidate mode seed info counter = zero_scalar G.

(** RFC 9497, sections 3.3.1 and 3.3.2: Finalize on an unblinded element and
    the function the protocol computes (OPRF and VOPRF). *)
Definition FinalizeHash (input : bytes) (N0 : elem CS) : bytes :=
  Hash (lv input ++ lv (Ser N0) ++ str "Finalize").
Definition PRF (mode : N) (sk : scalar CS) (input : bytes) : bytes :=
  FinalizeHash input (sk [*] H2G mode input).

(** RFC 9497, section 3.3.3: the tweak of POPRF, Finalize and the function. *)
Definition info_scalar (info : bytes) : scalar CS :=
  H2S modePOPRF (str "Info" ++ lv info).
Definition tweaked_scalar (sk : scalar CS) (info : bytes) : scalar CS :=
  scalar_add G sk (info_scalar info).
Definition tweaked_element (pk : elem CS) (info : bytes) : elem CS :=
  info_scalar info [*] base_elem G [+] pk.
Definition FinalizeHashInfo (input info : bytes) (N0 : elem CS) : bytes :=
  Hash (lv input ++ lv info ++ lv (Ser N0) ++ str "Finalize").
Definition POPRF (sk : scalar CS) (input info : bytes) : bytes :=
  FinalizeHashInfo input info (s_inv GL (tweaked_scalar sk info) [*] H2G modePOPRF input).

(** RFC 9497, section 2.2.1: ComputeComposites (the slow, public version). *)
Definition proof_seed (mode : N) (B : elem CS) : bytes :=
  Hash (lv (Ser B) ++ lv (str "Seed-" ++ contextString mode)).
Definition weight (mode : N) (seed : bytes) (i : nat) (Ci Di : elem CS) : scalar CS :=
  H2S mode (lv seed ++ I2OSP (N.of_nat i) 2 ++ lv (Ser Ci) ++ lv (Ser Di) ++ str "Composite").
Fixpoint weights_from (mode : N) (seed : bytes) (i : nat) (CD : list (elem CS * elem CS))
  : list (scalar CS) :=
  match CD with
  | [] => []
  | (Ci, Di) :: rest => weight mode seed i Ci Di :: weights_from mode seed (S i) rest
  end.
Definition weights (mode : N) (B : elem CS) (C D : list (elem CS)) : list (scalar CS) :=
  weights_from mode (proof_seed mode B) 0 (combine C D).
(** The linear combination of elements with weights. *)
Fixpoint lincomb (ws : list (scalar CS)) (Ps : list (elem CS)) : elem CS :=
  match ws, Ps with
  | w :: ws, P :: Ps => w [*] P [+] lincomb ws Ps
  | _, _ => identity_elem G
  end.
Definition compositeM (mode : N) (B : elem CS) (C D : list (elem CS)) : elem CS :=
  lincomb (weights mode B C D) C.
Definition compositeZ (mode : N) (B : elem CS) (C D : list (elem CS)) : elem CS :=
  lincomb (weights mode B C D) D.

(** RFC 9497, sections 2.2.1 and 2.2.2: the Fiat-Shamir challenge. *)
Definition challenge (mode : N) (B M Z t2 t3 : elem CS) : scalar CS :=
  H2S mode (lv (Ser B) ++ lv (Ser M) ++ lv (Ser Z) ++ lv (Ser t2) ++ lv (Ser t3)
            ++ str "Challenge").

(** RFC 9497, section 2.2.1: GenerateProof with random scalar [r]. *)
Definition GenerateProof (mode : N) (k : scalar CS) (A B : elem CS) (C D : list (elem CS))
    (r : scalar CS) : scalar CS * scalar CS :=
  let M := compositeM mode B C D in
  let Z := compositeZ mode B C D in
  let c := challenge mode B M Z (r [*] A) (r [*] M) in
  (c, scalar_sub G r (scalar_mul G c k)).

(** RFC 9497, section 2.2.2: VerifyProof. *)
Definition VerifyProof (mode : N) (A B : elem CS) (C D : list (elem CS))
    (c s : scalar CS) : Prop :=
  let M := compositeM mode B C D in
  let Z := compositeZ mode B C D in
  challenge mode B M Z (s [*] A [+] c [*] B) (s [*] M [+] c [*] Z) = c.

End Spec.
