(** * PropSerialization: byte encodings (C23, C24). *)
From Verif Require Import Oprf Voprf Poprf SerializationFacts Spec OprfFacts VoprfFacts PoprfFacts Zq.
From Verif Require Import PropCorrectness.
Open Scope N_scope.

(** ** C23 *)

(** [ser] and [de] round-trip on the values satisfying [ok], every encoding
    has the advertised length, and different values (all of them, not only
    those satisfying [ok]) have different encodings. *)
Definition round_trips {T} (ser : T -> bytes) (de : bytes -> res T) (n : N) (ok : T -> Prop) : Prop :=
  (forall x, ok x -> de (ser x) = Ok x) /\
  (forall x, len (ser x) = n) /\
  (forall x y, ser x = ser y -> x = y).

Theorem C23_round_trip :
  forall (CS : CipherSuite) (L : SuiteLaws CS),
  let G := CSGroup CS in
  let nz := fun s : scalar CS => s <> zero_scalar G in
  let ni := fun e : elem CS => e <> identity_elem G in
  round_trips (oprf_client_serialize CS) (oprf_client_deserialize CS) (OprfClientLen CS) (fun x => nz (oprf_blind x)) /\
  round_trips (voprf_client_serialize CS) (voprf_client_deserialize CS) (VoprfClientLen CS)
    (fun x => nz (voprf_blind x) /\ ni (voprf_blinded_element x)) /\
  round_trips (poprf_client_serialize CS) (poprf_client_deserialize CS) (PoprfClientLen CS)
    (fun x => nz (poprf_blind x) /\ ni (poprf_blinded_element x)) /\
  round_trips (oprf_server_serialize CS) (oprf_server_deserialize CS) (OprfServerLen CS) (fun x => nz (oprf_sk x)) /\
  round_trips (voprf_server_serialize CS) (voprf_server_deserialize CS) (VoprfServerLen CS)
    (fun x => nz (voprf_sk x) /\ ni (voprf_pk x)) /\
  round_trips (poprf_server_serialize CS) (poprf_server_deserialize CS) (PoprfServerLen CS)
    (fun x => nz (poprf_sk x) /\ ni (poprf_pk x)) /\
  round_trips (proof_serialize CS) (proof_deserialize CS) (ProofLen CS)
    (fun x => nz (c_scalar x) /\ nz (s_scalar x)) /\
  round_trips (blinded_serialize CS) (blinded_deserialize CS) (BlindedElementLen CS) (fun x => ni (blinded_value x)) /\
  round_trips (evaluation_serialize CS) (evaluation_deserialize CS) (EvaluationElementLen CS) (fun x => ni (evaluation_value x)).
Proof.
  intros CS L G nz ni.
  set (Ns := scalar_len G). set (Ne := elem_len G).
  assert (Hs : forall s : scalar CS, len (serialize_scalar G s) = Ns) by apply (serialize_scalar_len _ (group_laws L)).
  assert (He : forall e : elem CS, len (serialize_elem G e) = Ne) by apply (serialize_elem_len _ (group_laws L)).
  assert (Ds : forall s rest, nz s -> de_scalar CS (serialize_scalar G s ++ rest) = Ok (s, rest))
    by apply (de_scalar_app (group_laws L)).
  assert (De : forall e rest, ni e -> de_elem CS (serialize_elem G e ++ rest) = Ok (e, rest))
    by apply (de_elem_app (group_laws L)).
  assert (Ds0 : forall s, nz s -> de_scalar CS (serialize_scalar G s) = Ok (s, []))
    by (intros s H; rewrite <- (app_nil_r (serialize_scalar G s)); auto).
  assert (De0 : forall e, ni e -> de_elem CS (serialize_elem G e) = Ok (e, []))
    by (intros s H; rewrite <- (app_nil_r (serialize_elem G s)); auto).
  assert (Is : forall s s', serialize_scalar G s = serialize_scalar G s' -> s = s')
    by apply (serialize_scalar_inj (group_laws L)).
  assert (Ie : forall e e', serialize_elem G e = serialize_elem G e' -> e = e')
    by apply (serialize_elem_inj (group_laws L)).
  assert (Lss : forall s s', length (serialize_scalar G s) = length (serialize_scalar G s')).
  { intros s s'. pose proof (Hs s). pose proof (Hs s'). unfold len in *. lia. }
  split; [|split; [|split; [|split; [|split; [|split; [|split; [|split]]]]]]];
    unfold round_trips, oprf_client_serialize, oprf_client_deserialize, voprf_client_serialize,
      voprf_client_deserialize, poprf_client_serialize, poprf_client_deserialize, oprf_server_serialize,
      oprf_server_deserialize, voprf_server_serialize, voprf_server_deserialize, poprf_server_serialize,
      poprf_server_deserialize, proof_serialize, proof_deserialize, blinded_serialize, blinded_deserialize,
      evaluation_serialize, evaluation_deserialize; fold G.
  - split; [|split].
    + intros [a] H. cbn in *. rewrite Ds0 by auto. reflexivity.
    + intros [a]. apply Hs.
    + intros [a] [b] H. cbn in H. f_equal. auto.
  - split; [|split].
    + intros [a b] [H1 H2]. cbn in *. rewrite Ds by auto. cbn [bind]. rewrite De0 by auto. reflexivity.
    + intros [a b]. rewrite len_app, Hs, He. reflexivity.
    + intros [a b] [a' b'] H. cbn in H. apply app_inj_len in H as [H1 H2]; auto.
      f_equal; auto.
  - split; [|split].
    + intros [a b] [H1 H2]. cbn in *. rewrite Ds by auto. cbn [bind]. rewrite De0 by auto. reflexivity.
    + intros [a b]. rewrite len_app, Hs, He. reflexivity.
    + intros [a b] [a' b'] H. cbn in H. apply app_inj_len in H as [H1 H2]; auto.
      f_equal; auto.
  - split; [|split].
    + intros [a] H. cbn in *. rewrite Ds0 by auto. reflexivity.
    + intros [a]. apply Hs.
    + intros [a] [b] H. cbn in H. f_equal. auto.
  - split; [|split].
    + intros [a b] [H1 H2]. cbn in *. rewrite Ds by auto. cbn [bind]. rewrite De0 by auto. reflexivity.
    + intros [a b]. rewrite len_app, Hs, He. reflexivity.
    + intros [a b] [a' b'] H. cbn in H. apply app_inj_len in H as [H1 H2]; auto.
      f_equal; auto.
  - split; [|split].
    + intros [a b] [H1 H2]. cbn in *. rewrite Ds by auto. cbn [bind]. rewrite De0 by auto. reflexivity.
    + intros [a b]. rewrite len_app, Hs, He. reflexivity.
    + intros [a b] [a' b'] H. cbn in H. apply app_inj_len in H as [H1 H2]; auto.
      f_equal; auto.
  - split; [|split].
    + intros [a b] [H1 H2]. cbn in *. rewrite Ds by auto. cbn [bind]. rewrite Ds0 by auto. reflexivity.
    + intros [a b]. rewrite len_app, !Hs. reflexivity.
    + intros [a b] [a' b'] H. cbn in H. apply app_inj_len in H as [H1 H2]; auto.
      f_equal; auto.
  - split; [|split].
    + intros [a] H. cbn in *. rewrite De0 by auto. reflexivity.
    + intros [a]. apply He.
    + intros [a] [b] H. cbn in H. f_equal. auto.
  - split; [|split].
    + intros [a] H. cbn in *. rewrite De0 by auto. reflexivity.
    + intros [a]. apply He.
    + intros [a] [b] H. cbn in H. f_equal. auto.
Qed.

(** Without the condition the round trip fails, and fails cleanly: a zero
    scalar or identity element is written but not read back.  In particular a
    valid proof with [c = 0] or [s = 0] cannot be transmitted. *)
Theorem C23_zero_fields_rejected :
  forall (CS : CipherSuite) (L : SuiteLaws CS),
  let G := CSGroup CS in
  let z := zero_scalar G in
  let o := identity_elem G in
  (forall p : Proof CS, c_scalar p = z \/ s_scalar p = z ->
     proof_deserialize CS (proof_serialize CS p) = Err EDeserialization) /\
  (forall c : VoprfClient CS, voprf_blind c = z \/ voprf_blinded_element c = o ->
     voprf_client_deserialize CS (voprf_client_serialize CS c) = Err EDeserialization) /\
  (forall c : PoprfClient CS, poprf_blind c = z \/ poprf_blinded_element c = o ->
     poprf_client_deserialize CS (poprf_client_serialize CS c) = Err EDeserialization) /\
  (forall s : VoprfServer CS, voprf_sk s = z \/ voprf_pk s = o ->
     voprf_server_deserialize CS (voprf_server_serialize CS s) = Err EDeserialization) /\
  (forall s : PoprfServer CS, poprf_sk s = z \/ poprf_pk s = o ->
     poprf_server_deserialize CS (poprf_server_serialize CS s) = Err EDeserialization) /\
  oprf_client_deserialize CS (oprf_client_serialize CS (mkOprfClient z)) = Err EDeserialization /\
  oprf_server_deserialize CS (oprf_server_serialize CS (mkOprfServer z)) = Err EDeserialization /\
  blinded_deserialize CS (blinded_serialize CS (mkBlinded o)) = Err EDeserialization /\
  evaluation_deserialize CS (evaluation_serialize CS (mkEvaluation o)) = Err EDeserialization.
Proof.
  intros CS L G z o.
  assert (Zs : forall rest, de_scalar CS (serialize_scalar G z ++ rest) = Err EDeserialization)
    by apply (de_scalar_zero (group_laws L)).
  assert (Ze : forall rest, de_elem CS (serialize_elem G o ++ rest) = Err EDeserialization)
    by apply (de_elem_identity (group_laws L)).
  assert (Zs0 : de_scalar CS (serialize_scalar G z) = Err EDeserialization)
    by (rewrite <- (app_nil_r (serialize_scalar G z)); auto).
  assert (Ze0 : de_elem CS (serialize_elem G o) = Err EDeserialization)
    by (rewrite <- (app_nil_r (serialize_elem G o)); auto).
  assert (Hes : forall a, a = z \/ de_scalar CS (serialize_scalar G a) = Ok (a, []) ).
  { intros a. destruct (scalar_eq_dec (group_laws L) a z); auto. right.
    rewrite <- (app_nil_r (serialize_scalar G a)). now apply (de_scalar_app (group_laws L)). }
  assert (Hesr : forall a rest, a = z \/ de_scalar CS (serialize_scalar G a ++ rest) = Ok (a, rest)).
  { intros a rest. destruct (scalar_eq_dec (group_laws L) a z); auto. right.
    now apply (de_scalar_app (group_laws L)). }
  split; [|split; [|split; [|split; [|split; [|split; [|split; [|split]]]]]]].
  - intros [a b] H. unfold proof_deserialize, proof_serialize. cbn in *. fold G.
    destruct (Hesr a (serialize_scalar G b)) as [->|E]; [now rewrite Zs|].
    destruct H as [->| ->]; [now rewrite Zs|]. rewrite E. cbn [bind]. now rewrite Zs0.
  - intros [a b] H. unfold voprf_client_deserialize, voprf_client_serialize. cbn in *. fold G.
    destruct (Hesr a (serialize_elem G b)) as [->|E]; [now rewrite Zs|].
    destruct H as [->| ->]; [now rewrite Zs|]. rewrite E. cbn [bind]. now rewrite Ze0.
  - intros [a b] H. unfold poprf_client_deserialize, poprf_client_serialize. cbn in *. fold G.
    destruct (Hesr a (serialize_elem G b)) as [->|E]; [now rewrite Zs|].
    destruct H as [->| ->]; [now rewrite Zs|]. rewrite E. cbn [bind]. now rewrite Ze0.
  - intros [a b] H. unfold voprf_server_deserialize, voprf_server_serialize. cbn in *. fold G.
    destruct (Hesr a (serialize_elem G b)) as [->|E]; [now rewrite Zs|].
    destruct H as [->| ->]; [now rewrite Zs|]. rewrite E. cbn [bind]. now rewrite Ze0.
  - intros [a b] H. unfold poprf_server_deserialize, poprf_server_serialize. cbn in *. fold G.
    destruct (Hesr a (serialize_elem G b)) as [->|E]; [now rewrite Zs|].
    destruct H as [->| ->]; [now rewrite Zs|]. rewrite E. cbn [bind]. now rewrite Ze0.
  - unfold oprf_client_deserialize, oprf_client_serialize. cbn [oprf_blind]. fold G. now rewrite Zs0.
  - unfold oprf_server_deserialize, oprf_server_serialize. cbn [oprf_sk]. fold G. now rewrite Zs0.
  - unfold blinded_deserialize, blinded_serialize. cbn [blinded_value]. fold G. now rewrite Ze0.
  - unfold evaluation_deserialize, evaluation_serialize. cbn [evaluation_value]. fold G. now rewrite Ze0.
Qed.

Example C23_case :
  ex_scalar 42 <> zero_scalar (CSGroup TS) /\ ex_elem 7 <> identity_elem (CSGroup TS) /\
  exists p : Proof TS, c_scalar p = zero_scalar (CSGroup TS) /\ s_scalar p <> zero_scalar (CSGroup TS).
Proof.
  split; [apply ex_neq; vm_compute; reflexivity|].
  split; [apply ex_neq; vm_compute; reflexivity|].
  exists (mkProof (zero_scalar (CSGroup TS)) (ex_scalar 5)).
  split; [reflexivity|]. apply ex_neq. vm_compute. reflexivity.
Qed.

(** ** C24 *)

(** Total (a value satisfying [ok], or [Error::Deserialization], nothing
    else), short strings are refused, and the bytes after the advertised
    length do not matter. *)
Definition total_and_safe {T} (de : bytes -> res T) (n : N) (ok : T -> Prop) : Prop :=
  (forall b, (exists x, de b = Ok x /\ ok x) \/ de b = Err EDeserialization) /\
  (forall b, len b < n -> de b = Err EDeserialization) /\
  (forall b extra, n <= len b -> de (b ++ extra) = de b).

(** One-field and two-field readers. *)
Section Readers.
Context {CS : CipherSuite} (L : SuiteLaws CS).
Local Notation G := (CSGroup CS).

Definition reader_spec {A} (rd : bytes -> res (A * bytes)) (n : N) (ok : A -> Prop) : Prop :=
  forall b, (len b < n /\ rd b = Err EDeserialization) \/
    exists front back, b = front ++ back /\ len front = n /\
      ((exists a, ok a /\ forall rest, rd (front ++ rest) = Ok (a, rest)) \/
       (forall rest, rd (front ++ rest) = Err EDeserialization)).

Lemma de_scalar_reader : reader_spec (de_scalar CS) (scalar_len G) (fun s => s <> zero_scalar G).
Proof.
  intros b. unfold de_scalar. destruct (take_ext_cases b (scalar_len G)) as [[Hl ->]|(f & r & E & Hl & _)].
  - now left.
  - right. exists f, r. split; auto. split; auto.
    pose proof (deserialize_scalar_safe _ (group_laws L) f) as Hs.
    destruct (deserialize_scalar G f) as [s|e| |] eqn:Ed; try contradiction.
    + left. exists s. split; auto. intros rest. rewrite <- Hl, take_ext_app. cbn [ok_or bind]. now rewrite Ed.
    + right. intros rest. rewrite <- Hl, take_ext_app. cbn [ok_or bind]. rewrite Ed. now subst.
Qed.

Lemma de_elem_reader : reader_spec (de_elem CS) (elem_len G) (fun e => e <> identity_elem G).
Proof.
  intros b. unfold de_elem. destruct (take_ext_cases b (elem_len G)) as [[Hl ->]|(f & r & E & Hl & _)].
  - now left.
  - right. exists f, r. split; auto. split; auto.
    pose proof (deserialize_elem_safe _ (group_laws L) f) as Hs.
    destruct (deserialize_elem G f) as [s|e| |] eqn:Ed; try contradiction.
    + left. exists s. split; auto. intros rest. rewrite <- Hl, take_ext_app. cbn [ok_or bind]. now rewrite Ed.
    + right. intros rest. rewrite <- Hl, take_ext_app. cbn [ok_or bind]. rewrite Ed. now subst.
Qed.
End Readers.

Lemma reader1 {A T} rd n (okA : A -> Prop) (mk : A -> T) (ok : T -> Prop) :
  reader_spec rd n okA -> (forall a, okA a -> ok (mk a)) ->
  total_and_safe (fun input => '(a, _) <- rd input ;; Ok (mk a)) n ok.
Proof.
  intros Hr Hok. split; [|split].
  - intros b. destruct (Hr b) as [[_ ->]|(f & r & -> & _ & [(a & Ha & E)|E])]; auto; rewrite E; cbn [bind]; eauto.
  - intros b Hl. destruct (Hr b) as [[_ ->]|(f & r & -> & Hf & _)]; auto.
    rewrite len_app in Hl. lia.
  - intros b extra Hl. destruct (Hr b) as [[Hl' _]|(f & r & -> & Hf & [(a & Ha & E)|E])]; [lia| |];
      rewrite <- app_assoc, !E; reflexivity.
Qed.

Lemma reader2 {A B T} rdA rdB n m (okA : A -> Prop) (okB : B -> Prop) (mk : A -> B -> T) (ok : T -> Prop) :
  reader_spec rdA n okA -> reader_spec rdB m okB ->
  (forall a b, okA a -> okB b -> ok (mk a b)) ->
  total_and_safe (fun input => '(a, input) <- rdA input ;; '(b, _) <- rdB input ;; Ok (mk a b)) (n + m) ok.
Proof.
  intros Hr Hr' Hok. split; [|split].
  - intros b. destruct (Hr b) as [[_ ->]|(f & r & -> & _ & [(a & Ha & E)|E])]; auto; rewrite E; cbn [bind]; auto.
    destruct (Hr' r) as [[_ ->]|(f' & r' & -> & _ & [(a' & Ha' & E')|E'])]; auto; rewrite E'; cbn [bind]; eauto.
  - intros b Hl. destruct (Hr b) as [[_ ->]|(f & r & -> & Hf & [(a & Ha & E)|E])]; auto; rewrite E; cbn [bind]; auto.
    destruct (Hr' r) as [[_ ->]|(f' & r' & -> & Hf' & _)]; auto.
    rewrite !len_app in Hl. lia.
  - intros b extra Hl. destruct (Hr b) as [[Hl' _]|(f & r & -> & Hf & [(a & Ha & E)|E])]; [lia| |];
      rewrite <- app_assoc, !E; cbn [bind]; auto.
    destruct (Hr' r) as [[Hl' _]|(f' & r' & -> & Hf' & [(a' & Ha' & E')|E'])];
      [rewrite len_app in Hl; lia| |]; rewrite <- app_assoc, !E'; reflexivity.
Qed.

Theorem C24_total_and_safe :
  forall (CS : CipherSuite) (L : SuiteLaws CS),
  let G := CSGroup CS in
  let nz := fun s : scalar CS => s <> zero_scalar G in
  let ni := fun e : elem CS => e <> identity_elem G in
  total_and_safe (oprf_client_deserialize CS) (OprfClientLen CS) (fun x => nz (oprf_blind x)) /\
  total_and_safe (voprf_client_deserialize CS) (VoprfClientLen CS)
    (fun x => nz (voprf_blind x) /\ ni (voprf_blinded_element x)) /\
  total_and_safe (poprf_client_deserialize CS) (PoprfClientLen CS)
    (fun x => nz (poprf_blind x) /\ ni (poprf_blinded_element x)) /\
  total_and_safe (oprf_server_deserialize CS) (OprfServerLen CS) (fun x => nz (oprf_sk x)) /\
  total_and_safe (voprf_server_deserialize CS) (VoprfServerLen CS) (fun x => nz (voprf_sk x) /\ ni (voprf_pk x)) /\
  total_and_safe (poprf_server_deserialize CS) (PoprfServerLen CS) (fun x => nz (poprf_sk x) /\ ni (poprf_pk x)) /\
  total_and_safe (proof_deserialize CS) (ProofLen CS) (fun x => nz (c_scalar x) /\ nz (s_scalar x)) /\
  total_and_safe (blinded_deserialize CS) (BlindedElementLen CS) (fun x => ni (blinded_value x)) /\
  total_and_safe (evaluation_deserialize CS) (EvaluationElementLen CS) (fun x => ni (evaluation_value x)).
Proof.
  intros CS L G nz ni.
  pose proof (de_scalar_reader L) as Hs. pose proof (de_elem_reader L) as He.
  split; [|split; [|split; [|split; [|split; [|split; [|split; [|split]]]]]]].
  - exact (reader1 _ _ _ (@mkOprfClient CS) _ Hs (fun a H => H)).
  - exact (reader2 _ _ _ _ _ _ (@mkVoprfClient CS) _ Hs He (fun a b H H' => conj H H')).
  - exact (reader2 _ _ _ _ _ _ (@mkPoprfClient CS) _ Hs He (fun a b H H' => conj H H')).
  - exact (reader1 _ _ _ (@mkOprfServer CS) _ Hs (fun a H => H)).
  - exact (reader2 _ _ _ _ _ _ (@mkVoprfServer CS) _ Hs He (fun a b H H' => conj H H')).
  - exact (reader2 _ _ _ _ _ _ (@mkPoprfServer CS) _ Hs He (fun a b H H' => conj H H')).
  - exact (reader2 _ _ _ _ _ _ (@mkProof CS) _ Hs Hs (fun a b H H' => conj H H')).
  - exact (reader1 _ _ _ (@mkBlinded CS) _ He (fun a H => H)).
  - exact (reader1 _ _ _ (@mkEvaluation CS) _ He (fun a H => H)).
Qed.

(** [new_with_key] takes the whole slice: it is the group's own decoder. *)
Theorem C24_new_with_key_safe :
  forall (CS : CipherSuite) (L : SuiteLaws CS) (key : bytes),
  let G := CSGroup CS in
  ((exists s, oprf_server_new_with_key CS key = Ok s /\ oprf_sk s <> zero_scalar G) \/
   oprf_server_new_with_key CS key = Err EDeserialization) /\
  ((exists s, voprf_server_new_with_key CS key = Ok s /\ voprf_sk s <> zero_scalar G) \/
   voprf_server_new_with_key CS key = Err EDeserialization) /\
  ((exists s, poprf_server_new_with_key CS key = Ok s /\ poprf_sk s <> zero_scalar G) \/
   poprf_server_new_with_key CS key = Err EDeserialization).
Proof.
  intros CS L key G.
  unfold oprf_server_new_with_key, voprf_server_new_with_key, poprf_server_new_with_key. fold G.
  pose proof (deserialize_scalar_safe _ (group_laws L) key) as H. fold G in H.
  destruct (deserialize_scalar G key) as [s|e| |]; try contradiction; cbn [bind].
  - split; [|split]; left; eexists; (split; [reflexivity|]); exact H.
  - subst. auto.
Qed.

Example C24_case :
  voprf_client_deserialize TS [x05; x07; xff] = Ok (mkVoprfClient (ex_scalar 5) (ex_elem 7)) /\
  voprf_client_deserialize TS [x05] = Err EDeserialization /\
  proof_deserialize TS [x00; x01] = Err EDeserialization.
Proof.
  assert (H5 : serialize_scalar (CSGroup TS) (ex_scalar 5) = [x05]) by (vm_compute; reflexivity).
  assert (H7 : serialize_elem (CSGroup TS) (ex_elem 7) = [x07]) by (vm_compute; reflexivity).
  assert (R : forall T (r : res T),
            match r with Err EDeserialization => true | _ => false end = true -> r = Err EDeserialization)
    by (intros T [ | [] | | ]; congruence).
  split; [|split; apply R; vm_compute; reflexivity].
  unfold voprf_client_deserialize.
  change [x05; x07; xff] with ([x05] ++ [x07] ++ [xff]). rewrite <- H5, <- H7.
  rewrite (de_scalar_app (group_laws TL)) by (apply ex_neq; vm_compute; reflexivity). cbn [bind].
  rewrite (de_elem_app (group_laws TL)) by (apply ex_neq; vm_compute; reflexivity). reflexivity.
Qed.

(** ** C41 *)

(** The wire format: which bytes of an encoding are which field.  [Ns] and
    [Ne] are the advertised lengths of a scalar and of an element; the
    encodings are, in this order and with nothing else,
    - OprfClient: blind; VoprfClient and PoprfClient: blind, blinded element;
    - OprfServer: private key; VoprfServer and PoprfServer: private key,
      public key (RFC 9497's SerializeScalar and SerializeElement);
    - Proof: c, s (RFC 9497, section 2.1);
    - BlindedElement, EvaluationElement: the element. *)
Definition fields {T} (ser : T -> bytes) (widths : list N) (parts : T -> list bytes) : Prop :=
  forall x, map len (parts x) = widths /\
    forall i, firstn (length (nth i (parts x) []))
                (skipn (length (concat (firstn i (parts x)))) (ser x)) = nth i (parts x) [] /\
    length (ser x) = length (concat (parts x)).

Lemma fields_concat {T} (ser : T -> bytes) widths parts :
  (forall x, map len (parts x) = widths) -> (forall x, ser x = concat (parts x)) -> fields ser widths parts.
Proof.
  intros Hw Hc x. split; [apply Hw|]. intros i. split; [|now rewrite Hc].
  rewrite Hc. generalize (parts x). clear. intros ps. revert i.
  induction ps as [|p ps IH]; intros [|i]; cbn; auto.
  - rewrite firstn_app, Nat.sub_diag, firstn_all. cbn. apply app_nil_r.
  - rewrite skipn_app, app_length, skipn_all2 by lia. cbn.
    replace (length p + length (concat (firstn i ps)) - length p)%nat
      with (length (concat (firstn i ps))) by lia. apply IH.
Qed.

Theorem C41_wire_format :
  forall (CS : CipherSuite) (L : SuiteLaws CS),
  let G := CSGroup CS in
  let Ns := scalar_len G in
  let Ne := elem_len G in
  let S := serialize_scalar G in
  let E := serialize_elem G in
  fields (oprf_client_serialize CS) [Ns] (fun x => [S (oprf_blind x)]) /\
  fields (voprf_client_serialize CS) [Ns; Ne] (fun x => [S (voprf_blind x); E (voprf_blinded_element x)]) /\
  fields (poprf_client_serialize CS) [Ns; Ne] (fun x => [S (poprf_blind x); E (poprf_blinded_element x)]) /\
  fields (oprf_server_serialize CS) [Ns] (fun x => [S (oprf_sk x)]) /\
  fields (voprf_server_serialize CS) [Ns; Ne] (fun x => [S (voprf_sk x); E (voprf_pk x)]) /\
  fields (poprf_server_serialize CS) [Ns; Ne] (fun x => [S (poprf_sk x); E (poprf_pk x)]) /\
  fields (proof_serialize CS) [Ns; Ns] (fun x => [S (c_scalar x); S (s_scalar x)]) /\
  fields (blinded_serialize CS) [Ne] (fun x => [E (blinded_value x)]) /\
  fields (evaluation_serialize CS) [Ne] (fun x => [E (evaluation_value x)]).
Proof.
  intros CS L G Ns Ne S E.
  assert (Hs : forall s, len (S s) = Ns) by apply (serialize_scalar_len _ (group_laws L)).
  assert (He : forall e, len (E e) = Ne) by apply (serialize_elem_len _ (group_laws L)).
  repeat match goal with |- _ /\ _ => split end; apply fields_concat; intros x; cbn [map concat];
    rewrite ?Hs, ?He, ?app_nil_r; reflexivity.
Qed.

Example C41_case :
  proof_serialize TS (mkProof (ex_scalar 5) (ex_scalar 9)) = [x05; x09] /\
  voprf_client_serialize TS (mkVoprfClient (ex_scalar 3) (ex_elem 7)) = [x03; x07].
Proof. split; vm_compute; reflexivity. Qed.
