(** * PropSerde: dropped values and serde (C35, C36). *)
From Verif Require Import Oprf Voprf Poprf Drop Serde SerializationFacts Spec Zq.
From Verif Require Import PropCorrectness PropSerialization.
Open Scope N_scope.

(** ** C35 *)

(** What the [Zeroize] implementations of the two back ends do: scalars
    become zero, elements the identity, and both are encoded as zero
    bytes.  [RistrettoFacts] and [EllipticCurveFacts] derive this for the
    implementations in the crate. *)
Record ZeroizeLaws (G : Group) : Prop := {
  zeroized_scalar : forall s, zeroize_scalar G s = zero_scalar G;
  zeroized_elem : forall e, zeroize_elem G e = identity_elem G;
  zero_scalar_bytes : serialize_scalar G (zero_scalar G) = repeat x00 (N.to_nat (scalar_len G));
  identity_bytes : serialize_elem G (identity_elem G) = repeat x00 (N.to_nat (elem_len G))
}.

(** All dropped values of one type are one and the same value, and it is
    written as [n] zero bytes. *)
Definition wiped {T} (drop : T -> T) (ser : T -> bytes) (n : N) : Prop :=
  (forall x y, drop x = drop y) /\ forall x, ser (drop x) = repeat x00 (N.to_nat n).

Theorem C35_dropped_values_are_wiped :
  forall (CS : CipherSuite), ZeroizeLaws (CSGroup CS) ->
  let G := CSGroup CS in
  let Ns := scalar_len G in
  let Ne := elem_len G in
  wiped (drop_oprf_client CS) (oprf_client_serialize CS) Ns /\
  wiped (drop_oprf_server CS) (oprf_server_serialize CS) Ns /\
  wiped (drop_voprf_client CS) (voprf_client_serialize CS) (Ns + Ne) /\
  wiped (drop_voprf_server CS) (voprf_server_serialize CS) (Ns + Ne) /\
  wiped (drop_poprf_client CS) (poprf_client_serialize CS) (Ns + Ne) /\
  wiped (drop_poprf_server CS) (poprf_server_serialize CS) (Ns + Ne) /\
  wiped (drop_proof CS) (proof_serialize CS) (Ns + Ns) /\
  wiped (drop_blinded CS) (blinded_serialize CS) Ne /\
  wiped (drop_evaluation CS) (evaluation_serialize CS) Ne /\
  wiped (drop_prepared CS) (fun x => evaluation_serialize CS (prepared_value x)) Ne /\
  wiped (drop_tweak CS) (fun x => serialize_scalar G (tweak_value x)) Ns.
Proof.
  intros CS [Zs Ze Bs Be] G Ns Ne. subst G. unfold wiped.
  unfold drop_oprf_client, drop_oprf_server, drop_voprf_client, drop_voprf_server, drop_poprf_client,
    drop_poprf_server, drop_proof, drop_blinded, drop_prepared, drop_evaluation, drop_tweak,
    oprf_client_serialize, oprf_server_serialize, voprf_client_serialize, voprf_server_serialize,
    poprf_client_serialize, poprf_server_serialize, proof_serialize, blinded_serialize, evaluation_serialize.
  repeat split; intros; cbn; rewrite ?Zs, ?Ze, ?Bs, ?Be; unfold Ns, Ne; rewrite ?N2Nat.inj_add, ?repeat_app;
    reflexivity.
Qed.

(** The suite over Z/251 obeys the laws, and dropping changes the bytes of a
    non-trivial value. *)
Lemma Zq_zeroize : ZeroizeLaws (CSGroup TS).
Proof. split; try reflexivity. Qed.

Example C35_case :
  drop_voprf_client TS (mkVoprfClient (ex_scalar 7) (ex_elem 9)) <> mkVoprfClient (ex_scalar 7) (ex_elem 9) /\
  voprf_client_serialize TS (mkVoprfClient (ex_scalar 7) (ex_elem 9)) <> repeat x00 2.
Proof. split; intros E; [apply (f_equal (voprf_client_serialize TS)) in E|]; vm_compute in E; discriminate. Qed.

(** ** C36 *)

Lemma de_u8_ser b : de_u8 (ser_u8 b) = Ok b.
Proof.
  unfold de_u8, ser_u8. pose proof (Byte.to_N_bounded b) as Hb.
  replace ((0 <=? Z.of_N (Byte.to_N b)) && (Z.of_N (Byte.to_N b) <=? 255))%Z with true.
  - rewrite N2Z.id, Byte.of_to_N. reflexivity.
  - symmetry. rewrite andb_true_iff, !Z.leb_le. lia.
Qed.

Lemma de_items_ser b : de_items (map ser_u8 b) = Ok b.
Proof. induction b as [|x b IH]; [reflexivity|]. cbn [map de_items]. rewrite de_u8_ser. cbn [bind]. now rewrite IH. Qed.

Lemma de_array_ser n b : len b = n -> de_array n (ser_array b) = Ok b.
Proof.
  intros <-. unfold de_array, ser_array. unfold len. rewrite map_length, N.eqb_refl. apply de_items_ser.
Qed.

Lemma de_u8_cases d : de_u8 d = serr \/ exists b, de_u8 d = Ok b.
Proof.
  destruct d as [n| | |]; cbn; auto. destruct ((0 <=? n) && (n <=? 255))%Z; auto.
  destruct (Byte.of_N (Z.to_N n)); cbn; eauto.
Qed.

Lemma de_items_cases l : de_items l = serr \/ exists b, de_items l = Ok b /\ length b = length l.
Proof.
  induction l as [|d l IH]; cbn [de_items]; [right; exists []; auto|].
  destruct (de_u8_cases d) as [E|(b & E)]; rewrite E; cbn [bind]; auto.
  destruct IH as [E'|(bs & E' & Hl)]; rewrite E'; cbn [bind]; auto.
  right. exists (b :: bs). cbn. auto.
Qed.

Lemma de_array_cases n d : de_array n d = serr \/ exists b, de_array n d = Ok b /\ len b = n.
Proof.
  destruct d as [|l| |]; cbn; auto. destruct (N.eqb_spec (len l) n) as [E|E]; auto.
  destruct (de_items_cases l) as [E'|(b & E' & Hl)]; auto. right. exists b. split; auto.
  unfold len in *. now rewrite Hl.
Qed.

Section Fields.
Context {CS : CipherSuite} (L : SuiteLaws CS).
Local Notation G := (CSGroup CS).
Local Notation GL := (group_laws L).

Lemma dd_scalar_ser s : s <> zero_scalar G -> dd_scalar CS (sd_scalar CS s) = Ok s.
Proof.
  intros H. unfold dd_scalar, sd_scalar. rewrite de_array_ser by apply (serialize_scalar_len _ GL).
  cbn [bind]. now rewrite (deserialize_serialize_scalar _ GL).
Qed.
Lemma dd_scalar_zero : dd_scalar CS (sd_scalar CS (zero_scalar G)) = serr.
Proof.
  unfold dd_scalar, sd_scalar. rewrite de_array_ser by apply (serialize_scalar_len _ GL).
  cbn [bind]. now rewrite (deserialize_zero _ GL).
Qed.
Lemma dd_elem_ser e : e <> identity_elem G -> dd_elem CS (sd_elem CS e) = Ok e.
Proof.
  intros H. unfold dd_elem, sd_elem. rewrite de_array_ser by apply (serialize_elem_len _ GL).
  cbn [bind]. now rewrite (deserialize_serialize_elem _ GL).
Qed.
Lemma dd_elem_identity : dd_elem CS (sd_elem CS (identity_elem G)) = serr.
Proof.
  unfold dd_elem, sd_elem. rewrite de_array_ser by apply (serialize_elem_len _ GL).
  cbn [bind]. now rewrite (deserialize_identity _ GL).
Qed.
Lemma dd_scalar_cases d : dd_scalar CS d = serr \/ exists s, dd_scalar CS d = Ok s /\ s <> zero_scalar G.
Proof.
  unfold dd_scalar. destruct (de_array_cases (scalar_len G) d) as [->|(b & -> & _)]; cbn [bind]; auto.
  pose proof (deserialize_scalar_safe _ GL b) as H. unfold custom.
  destruct (deserialize_scalar G b); cbn; try contradiction; eauto.
Qed.
Lemma dd_elem_cases d : dd_elem CS d = serr \/ exists e, dd_elem CS d = Ok e /\ e <> identity_elem G.
Proof.
  unfold dd_elem. destruct (de_array_cases (elem_len G) d) as [->|(b & -> & _)]; cbn [bind]; auto.
  pose proof (deserialize_elem_safe _ GL b) as H. unfold custom.
  destruct (deserialize_elem G b); cbn; try contradiction; eauto.
Qed.
End Fields.

Lemma entry_cases n l : entry n l = serr \/ exists d, entry n l = Ok d.
Proof. unfold entry. destruct (filter _ l) as [|[k d] [|]]; eauto. Qed.
Lemma de_struct1_cases n d : de_struct1 n d = serr \/ exists d1, de_struct1 n d = Ok d1.
Proof. destruct d as [|[|d1 [|]]|l|]; cbn; eauto. apply entry_cases. Qed.
Lemma de_struct2_cases n m d : de_struct2 n m d = serr \/ exists d1 d2, de_struct2 n m d = Ok (d1, d2).
Proof.
  destruct d as [|[|d1 [|d2 [|]]]|l|]; cbn; eauto.
  destruct (entry_cases n l) as [E|(d1 & E)]; rewrite E; cbn [bind]; auto.
  destruct (entry_cases m l) as [E'|(d2 & E')]; rewrite E'; cbn [bind]; eauto.
Qed.

(** [ser] and [de] round-trip on the values with property [ok]; the other
    values are not read back; every document is rejected or gives a value
    with [ok], never a panic. *)
Definition validated {T} (ser : T -> doc) (de : doc -> sres T) (ok : T -> Prop) : Prop :=
  (forall x, ok x -> de (ser x) = Ok x) /\
  (forall x, ~ ok x -> de (ser x) = serr) /\
  (forall d, match de d with Ok x => ok x | Err _ => True | Panic | Diverge => False end).

Theorem C36_serde_validates :
  forall (CS : CipherSuite) (L : SuiteLaws CS),
  let G := CSGroup CS in
  let nz := fun s : scalar CS => s <> zero_scalar G in
  let ni := fun e : elem CS => e <> identity_elem G in
  validated (sd_oprf_client CS) (dd_oprf_client CS) (fun x => nz (oprf_blind x)) /\
  validated (sd_oprf_server CS) (dd_oprf_server CS) (fun x => nz (oprf_sk x)) /\
  validated (sd_voprf_client CS) (dd_voprf_client CS)
    (fun x => nz (voprf_blind x) /\ ni (voprf_blinded_element x)) /\
  validated (sd_voprf_server CS) (dd_voprf_server CS) (fun x => nz (voprf_sk x) /\ ni (voprf_pk x)) /\
  validated (sd_poprf_client CS) (dd_poprf_client CS)
    (fun x => nz (poprf_blind x) /\ ni (poprf_blinded_element x)) /\
  validated (sd_poprf_server CS) (dd_poprf_server CS) (fun x => nz (poprf_sk x) /\ ni (poprf_pk x)) /\
  validated (sd_proof CS) (dd_proof CS) (fun x => nz (c_scalar x) /\ nz (s_scalar x)) /\
  validated (sd_blinded CS) (dd_blinded CS) (fun x => ni (blinded_value x)) /\
  validated (sd_evaluation CS) (dd_evaluation CS) (fun x => ni (evaluation_value x)) /\
  validated (sd_prepared CS) (dd_prepared CS) (fun x => ni (evaluation_value (prepared_value x))) /\
  validated (sd_tweak CS) (dd_tweak CS) (fun x => nz (tweak_value x)).
Proof.
  intros CS L G nz ni.
  assert (S1 : forall s, nz s -> dd_scalar CS (sd_scalar CS s) = Ok s) by apply (dd_scalar_ser L).
  assert (S2 : forall s, ~ nz s -> dd_scalar CS (sd_scalar CS s) = serr).
  { intros s H. destruct (scalar_eq_dec (group_laws L) s (zero_scalar G)) as [->|Hs]; [|now elim H].
    apply (dd_scalar_zero L). }
  assert (S3 : forall d, dd_scalar CS d = serr \/ exists s, dd_scalar CS d = Ok s /\ nz s) by apply (dd_scalar_cases L).
  assert (E1 : forall e, ni e -> dd_elem CS (sd_elem CS e) = Ok e) by apply (dd_elem_ser L).
  assert (E2 : forall e, ~ ni e -> dd_elem CS (sd_elem CS e) = serr).
  { intros e H. destruct (elem_eq_dec (group_laws L) e (identity_elem G)) as [->|He]; [|now elim H].
    apply (dd_elem_identity L). }
  assert (E3 : forall d, dd_elem CS d = serr \/ exists e, dd_elem CS d = Ok e /\ ni e) by apply (dd_elem_cases L).
  assert (Ds : forall s, nz s \/ ~ nz s).
  { intros s. destruct (scalar_eq_dec (group_laws L) s (zero_scalar G)) as [->|Hs]; [right|left]; unfold nz; tauto. }
  (* one scalar *)
  assert (V1 : forall T (mk : scalar CS -> T) (pr : T -> scalar CS) name,
    (forall x, mk (pr x) = x) -> (forall s, pr (mk s) = s) ->
    validated (fun x => DMap [(name, sd_scalar CS (pr x))])
      (fun d => d1 <- de_struct1 name d ;; b <- dd_scalar CS d1 ;; Ok (mk b)) (fun x => nz (pr x))).
  { intros T mk pr name H1 H2. repeat split.
    - intros x Hx. cbn [de_struct1 entry filter fst]. unfold entry. cbn [filter fst].
      rewrite String.eqb_refl. cbn [bind]. rewrite S1 by auto. cbn [bind]. now rewrite H1.
    - intros x Hx. cbn [de_struct1]. unfold entry. cbn [filter fst]. rewrite String.eqb_refl. cbn [bind].
      now rewrite S2 by auto.
    - intros d. destruct (de_struct1_cases name d) as [E|(d1 & E)]; rewrite E; cbn [bind]; auto. exact I.
      destruct (S3 d1) as [->|(s & -> & Hs)]; cbn [bind]; [exact I|]. now rewrite H2. }
  (* two fields *)
  assert (V2 : forall T A B (dd1 : doc -> sres A) (dd2 : doc -> sres B) (sd1 : A -> doc) (sd2 : B -> doc)
      (ok1 : A -> Prop) (ok2 : B -> Prop) (mk : A -> B -> T) (p1 : T -> A) (p2 : T -> B) n1 n2,
    (forall a, ok1 a -> dd1 (sd1 a) = Ok a) -> (forall a, ~ ok1 a -> dd1 (sd1 a) = serr) ->
    (forall d, dd1 d = serr \/ exists a, dd1 d = Ok a /\ ok1 a) ->
    (forall b, ok2 b -> dd2 (sd2 b) = Ok b) -> (forall b, ~ ok2 b -> dd2 (sd2 b) = serr) ->
    (forall d, dd2 d = serr \/ exists b, dd2 d = Ok b /\ ok2 b) ->
    (forall a, ok1 a \/ ~ ok1 a) ->
    (forall x, mk (p1 x) (p2 x) = x) -> (forall a b, p1 (mk a b) = a) -> (forall a b, p2 (mk a b) = b) ->
    String.eqb n1 n2 = false -> String.eqb n2 n1 = false ->
    validated (fun x => DMap [(n1, sd1 (p1 x)); (n2, sd2 (p2 x))])
      (fun d => '(d1, d2) <- de_struct2 n1 n2 d ;; a <- dd1 d1 ;; b <- dd2 d2 ;; Ok (mk a b))
      (fun x => ok1 (p1 x) /\ ok2 (p2 x))).
  { intros T A B dd1 dd2 sd1 sd2 ok1 ok2 mk p1 p2 n1 n2 A1 A2 A3 B1 B2 B3 D1 H1 H2 H3 N1 N2.
    assert (Hget : forall x, de_struct2 n1 n2 (DMap [(n1, sd1 (p1 x)); (n2, sd2 (p2 x))])
                   = Ok (sd1 (p1 x), sd2 (p2 x))).
    { intros x. cbn [de_struct2]. unfold entry. cbn [filter fst]. rewrite !String.eqb_refl, N1, N2. reflexivity. }
    repeat split.
    - intros x [Ha Hb]. rewrite Hget. cbn [bind]. rewrite A1 by auto. cbn [bind]. rewrite B1 by auto. cbn [bind].
      now rewrite H1.
    - intros x Hx. rewrite Hget. cbn [bind].
      destruct (D1 (p1 x)) as [Ha|Ha]; [|now rewrite A2 by auto].
      rewrite A1 by auto. cbn [bind]. rewrite B2; [reflexivity|tauto].
    - intros d. destruct (de_struct2_cases n1 n2 d) as [E|(d1 & d2 & E)]; rewrite E; cbn [bind]; [exact I|].
      destruct (A3 d1) as [->|(a & -> & Ha)]; cbn [bind]; [exact I|].
      destruct (B3 d2) as [->|(b & -> & Hb)]; cbn [bind]; [exact I|]. now rewrite H2, H3. }
  (* newtypes *)
  assert (V3 : forall T A (dd : doc -> sres A) (sd : A -> doc) (ok : A -> Prop) (mk : A -> T) (pr : T -> A),
    (forall a, ok a -> dd (sd a) = Ok a) -> (forall a, ~ ok a -> dd (sd a) = serr) ->
    (forall d, dd d = serr \/ exists a, dd d = Ok a /\ ok a) ->
    (forall x, mk (pr x) = x) -> (forall s, pr (mk s) = s) ->
    validated (fun x => sd (pr x)) (fun d => a <- dd d ;; Ok (mk a)) (fun x => ok (pr x))).
  { intros T A dd sd ok mk pr A1 A2 A3 H1 H2. repeat split.
    - intros x Hx. rewrite A1 by auto. cbn [bind]. now rewrite H1.
    - intros x Hx. now rewrite A2 by auto.
    - intros d. destruct (A3 d) as [->|(a & -> & Ha)]; cbn [bind]; [exact I|]. now rewrite H2. }
  split; [|split; [|split; [|split; [|split; [|split; [|split; [|split; [|split; [|split]]]]]]]]].
  - apply (V1 _ mkOprfClient oprf_blind); auto. now intros [].
  - apply (V1 _ mkOprfServer oprf_sk); auto. now intros [].
  - apply (V2 _ _ _ _ _ _ _ nz ni mkVoprfClient voprf_blind voprf_blinded_element); auto. now intros [].
  - apply (V2 _ _ _ _ _ _ _ nz ni mkVoprfServer voprf_sk voprf_pk); auto. now intros [].
  - apply (V2 _ _ _ _ _ _ _ nz ni mkPoprfClient poprf_blind poprf_blinded_element); auto. now intros [].
  - apply (V2 _ _ _ _ _ _ _ nz ni mkPoprfServer poprf_sk poprf_pk); auto. now intros [].
  - apply (V2 _ _ _ _ _ _ _ nz nz mkProof c_scalar s_scalar); auto. now intros [].
  - apply (V3 _ _ (dd_elem CS) (sd_elem CS) ni mkBlinded blinded_value); auto. now intros [].
  - apply (V3 _ _ (dd_elem CS) (sd_elem CS) ni mkEvaluation evaluation_value); auto. now intros [].
  - assert (Hev := V3 _ _ (dd_elem CS) (sd_elem CS) ni mkEvaluation evaluation_value E1 E2 E3
                     ltac:(now intros []) ltac:(auto)).
    destruct Hev as (P1 & P2 & P3).
    apply (V3 _ _ (dd_evaluation CS) (sd_evaluation CS) (fun e => ni (evaluation_value e)) mkPrepared prepared_value);
      auto; try (now intros []).
    intros d. specialize (P3 d). unfold dd_evaluation.
    destruct (S3 d) as [_|_]; destruct (E3 d) as [->|(e & -> & He)]; cbn; eauto.
  - apply (V3 _ _ (dd_scalar CS) (sd_scalar CS) nz mkPreparedTweak tweak_value); auto. now intros [].
Qed.

(** Serde accepts the same values as the byte encodings. *)
Definition same_values {T} (de_doc : doc -> sres T) (de_bytes : bytes -> res T) : Prop :=
  forall x, (exists d, de_doc d = Ok x) <-> (exists b, de_bytes b = Ok x).

Theorem C36_serde_and_bytes_agree :
  forall (CS : CipherSuite), SuiteLaws CS ->
  same_values (dd_oprf_client CS) (oprf_client_deserialize CS) /\
  same_values (dd_oprf_server CS) (oprf_server_deserialize CS) /\
  same_values (dd_voprf_client CS) (voprf_client_deserialize CS) /\
  same_values (dd_voprf_server CS) (voprf_server_deserialize CS) /\
  same_values (dd_poprf_client CS) (poprf_client_deserialize CS) /\
  same_values (dd_poprf_server CS) (poprf_server_deserialize CS) /\
  same_values (dd_proof CS) (proof_deserialize CS) /\
  same_values (dd_blinded CS) (blinded_deserialize CS) /\
  same_values (dd_evaluation CS) (evaluation_deserialize CS).
Proof.
  intros CS L.
  assert (Gen : forall T (sd : T -> doc) (dd : doc -> sres T) ok (ser : T -> bytes) (de : bytes -> res T) n,
    validated sd dd ok -> round_trips ser de n ok -> total_and_safe de n ok -> same_values dd de).
  { intros T sd dd ok ser de n (A1 & A2 & A3) (B1 & B2 & B3) HC x. split.
    - intros (d & Hd). specialize (A3 d). rewrite Hd in A3. eauto.
    - intros (b & Hb). exists (sd x). apply A1. destruct HC as (HC & _).
      destruct (HC b) as [(y & Hy & Hok)|Hy]; rewrite Hb in Hy; [injection Hy as <-; exact Hok|discriminate]. }
  destruct (C36_serde_validates CS L) as (a1 & a2 & a3 & a4 & a5 & a6 & a7 & a8 & a9 & _).
  destruct (C23_round_trip CS L) as (b1 & b2 & b3 & b4 & b5 & b6 & b7 & b8 & b9).
  destruct (C24_total_and_safe CS L) as (c1 & c2 & c3 & c4 & c5 & c6 & c7 & c8 & c9).
  repeat split; eapply Gen; eauto.
Qed.

(** Reading back documents whose fields are in another order, with an unknown
    field, and as a sequence; duplicate fields and numbers above 255 are
    rejected. *)
Example C36_case :
  let one := fun z => DSeq [DNum z] in
  let is_ok := fun r : sres (VoprfClient TS) => match r with Ok _ => true | _ => false end in
  is_ok (dd_voprf_client TS (sd_voprf_client TS (mkVoprfClient (ex_scalar 7) (ex_elem 9)))) = true /\
  is_ok (dd_voprf_client TS (DMap [("blinded_element"%string, one 9%Z); ("x"%string, DOther); ("blind"%string, one 7%Z)])) = true /\
  is_ok (dd_voprf_client TS (DSeq [one 7%Z; one 9%Z])) = true /\
  is_ok (dd_voprf_client TS (DSeq [one 7%Z; one 0%Z])) = false /\
  is_ok (dd_voprf_client TS (DSeq [one 256%Z; one 9%Z])) = false /\
  is_ok (dd_voprf_client TS (DMap [("blind"%string, one 7%Z); ("blind"%string, one 7%Z); ("blinded_element"%string, one 9%Z)])) = false.
Proof. vm_compute. repeat split. Qed.
