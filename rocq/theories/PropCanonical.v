(** * PropCanonical: C43, which byte strings stand for a value.

    [deserialize] reads a prefix of its input (C24).  With ristretto255 the
    prefix it accepts is always the one [serialize] writes: each value has one
    encoding.  With the elliptic-curve suites this holds for scalars, but an
    element can also be written in the SEC1 "compact" form, so a message can
    be rewritten on the wire into another string that is read as the same
    message. *)
From Verif Require Import Oprf Voprf Poprf Serialization SerializationFacts.
From Verif Require Import Ristretto RistrettoFacts EllipticCurve EllipticCurveFacts Zq PropGroups.
Open Scope N_scope.

(** Every accepted input is the encoding of the value read, plus ignored
    bytes. *)
Definition canonical {A} (serialize : A -> bytes) (deserialize : bytes -> res A) : Prop :=
  forall b x, deserialize b = Ok x -> exists rest, b = serialize x ++ rest.

(** The same, except that bytes [at_] onwards, an element [e], may be written
    in the other form [alt e]. *)
Definition canonical_or {A} (serialize : A -> bytes) (deserialize : bytes -> res A)
    (other : A -> bytes -> Prop) : Prop :=
  forall b x, deserialize b = Ok x ->
  exists enc rest, b = enc ++ rest /\ (enc = serialize x \/ other x enc).

Section Readers.
Context {CS : CipherSuite} (GL : GroupLaws (CSGroup CS)).
Local Notation G := (CSGroup CS).
Context (scalars : forall b s, len b = scalar_len G -> deserialize_scalar G b = Ok s -> b = serialize_scalar G s).
Context (alt : elem CS -> bytes -> Prop)
        (elems : forall b e, len b = elem_len G -> deserialize_elem G b = Ok e ->
                             b = serialize_elem G e \/ alt e b).

Lemma de_scalar_inv b s rest : de_scalar CS b = Ok (s, rest) -> b = serialize_scalar G s ++ rest.
Proof.
  intros H. destruct (de_scalar_cases GL b) as [E|(f & r & s' & -> & Hl & Hd & _ & E)];
    rewrite E in H; [discriminate|]. injection H as <- <-. now rewrite (scalars f s').
Qed.

Lemma de_elem_inv b e rest : de_elem CS b = Ok (e, rest) ->
  exists enc, b = enc ++ rest /\ (enc = serialize_elem G e \/ alt e enc).
Proof.
  intros H. destruct (de_elem_cases GL b) as [E|(f & r & e' & -> & Hl & Hd & _ & E)];
    rewrite E in H; [discriminate|]. injection H as <- <-. exists f. split; auto.
Qed.

Lemma read_s {A} (mk : scalar CS -> A) (get : A -> scalar CS) :
  (forall s, get (mk s) = s) ->
  canonical (fun x => serialize_scalar G (get x)) (fun b => '(s, b) <- de_scalar CS b ;; Ok (mk s)).
Proof.
  intros Hg b x H. destruct (de_scalar CS b) as [[s r]|?| |] eqn:E; try discriminate.
  injection H as <-. rewrite Hg. apply de_scalar_inv in E. eauto.
Qed.

Lemma read_ss {A} (mk : scalar CS -> scalar CS -> A) (g1 g2 : A -> scalar CS) :
  (forall s t, g1 (mk s t) = s /\ g2 (mk s t) = t) ->
  canonical (fun x => serialize_scalar G (g1 x) ++ serialize_scalar G (g2 x))
    (fun b => '(s, b) <- de_scalar CS b ;; '(t, b) <- de_scalar CS b ;; Ok (mk s t)).
Proof.
  intros Hg b x H. destruct (de_scalar CS b) as [[s r]|?| |] eqn:E; try discriminate. cbn [bind] in H.
  destruct (de_scalar CS r) as [[t r']|?| |] eqn:E'; try discriminate. injection H as <-.
  destruct (Hg s t) as [-> ->]. apply de_scalar_inv in E, E'. exists r'. rewrite <- app_assoc. congruence.
Qed.

Lemma read_e {A} (mk : elem CS -> A) (get : A -> elem CS) :
  (forall e, get (mk e) = e) ->
  canonical_or (fun x => serialize_elem G (get x)) (fun b => '(e, b) <- de_elem CS b ;; Ok (mk e))
    (fun x enc => alt (get x) enc).
Proof.
  intros Hg b x H. destruct (de_elem CS b) as [[e r]|?| |] eqn:E; try discriminate.
  injection H as <-. rewrite Hg. apply de_elem_inv in E as (enc & -> & E). eauto.
Qed.

Lemma read_se {A} (mk : scalar CS -> elem CS -> A) (g1 : A -> scalar CS) (g2 : A -> elem CS) :
  (forall s e, g1 (mk s e) = s /\ g2 (mk s e) = e) ->
  canonical_or (fun x => serialize_scalar G (g1 x) ++ serialize_elem G (g2 x))
    (fun b => '(s, b) <- de_scalar CS b ;; '(e, b) <- de_elem CS b ;; Ok (mk s e))
    (fun x enc => exists a, enc = serialize_scalar G (g1 x) ++ a /\ alt (g2 x) a).
Proof.
  intros Hg b x H. destruct (de_scalar CS b) as [[s r]|?| |] eqn:E; try discriminate. cbn [bind] in H.
  destruct (de_elem CS r) as [[e r']|?| |] eqn:E'; try discriminate. injection H as <-.
  destruct (Hg s e) as [-> ->]. apply de_scalar_inv in E. apply de_elem_inv in E' as (enc & -> & E').
  exists (serialize_scalar G s ++ enc), r'. rewrite E, app_assoc. split; [reflexivity|].
  destruct E' as [->|E']; eauto.
Qed.
End Readers.

Theorem C43_ristretto255_canonical :
  forall (D : Dalek), DalekLaws D -> forall (H : HashFn) fuel,
  let CS := RistrettoSuite D fuel H in
  canonical (oprf_client_serialize CS) (oprf_client_deserialize CS) /\
  canonical (voprf_client_serialize CS) (voprf_client_deserialize CS) /\
  canonical (poprf_client_serialize CS) (poprf_client_deserialize CS) /\
  canonical (oprf_server_serialize CS) (oprf_server_deserialize CS) /\
  canonical (voprf_server_serialize CS) (voprf_server_deserialize CS) /\
  canonical (poprf_server_serialize CS) (poprf_server_deserialize CS) /\
  canonical (proof_serialize CS) (proof_deserialize CS) /\
  canonical (blinded_serialize CS) (blinded_deserialize CS) /\
  canonical (evaluation_serialize CS) (evaluation_deserialize CS).
Proof.
  intros D DL H fuel CS.
  assert (GL : GroupLaws (CSGroup CS)) by exact (ristretto_group_laws DL fuel).
  assert (Hs : forall b s, len b = scalar_len (CSGroup CS) -> deserialize_scalar (CSGroup CS) b = Ok s ->
            b = serialize_scalar (CSGroup CS) s).
  { intros b s _ E. cbn in E. apply ristretto_scalar_ok in E as (E1 & E2 & _).
    rewrite <- (rev_involutive b). cbn [serialize_scalar CSGroup CS RistrettoSuite RistrettoGroup].
    unfold scalar_to_bytes, le_bytes. f_equal. apply be_Z_inj; [now rewrite rev_length, I2OSP_length|].
    rewrite be_Z_to_bytes; [exact E2|]. rewrite <- E2. unfold le_Z. rewrite <- E1, <- (rev_length b).
    apply be_Z_range. }
  assert (He : forall b e, len b = elem_len (CSGroup CS) -> deserialize_elem (CSGroup CS) b = Ok e ->
            b = serialize_elem (CSGroup CS) e \/ False).
  { intros b e _ E. left. cbn in E. now apply (ristretto_elem_ok DL) in E as [E _]. }
  assert (Hc : forall A (ser : A -> bytes) de other,
    (forall x enc, ~ other x enc) -> canonical_or ser de other -> canonical ser de).
  { intros A ser de other Hno Hc b x E. apply Hc in E as (enc & rest & -> & [->|E]); eauto.
    now apply Hno in E. }
  split; [|split; [|split; [|split; [|split; [|split; [|split; [|split]]]]]]].
  - exact (read_s GL Hs (@mkOprfClient CS) oprf_blind ltac:(reflexivity)).
  - refine (Hc _ _ _ _ _ (read_se GL Hs _ He (@mkVoprfClient CS) voprf_blind voprf_blinded_element ltac:(split; reflexivity))).
    now intros x enc (a & _ & []).
  - refine (Hc _ _ _ _ _ (read_se GL Hs _ He (@mkPoprfClient CS) poprf_blind poprf_blinded_element ltac:(split; reflexivity))).
    now intros x enc (a & _ & []).
  - exact (read_s GL Hs (@mkOprfServer CS) oprf_sk ltac:(reflexivity)).
  - refine (Hc _ _ _ _ _ (read_se GL Hs _ He (@mkVoprfServer CS) voprf_sk voprf_pk ltac:(split; reflexivity))).
    now intros x enc (a & _ & []).
  - refine (Hc _ _ _ _ _ (read_se GL Hs _ He (@mkPoprfServer CS) poprf_sk poprf_pk ltac:(split; reflexivity))).
    now intros x enc (a & _ & []).
  - exact (read_ss GL Hs (@mkProof CS) c_scalar s_scalar ltac:(split; reflexivity)).
  - refine (Hc _ _ _ _ _ (read_e GL _ He (@mkBlinded CS) blinded_value ltac:(reflexivity))). now intros x enc.
  - refine (Hc _ _ _ _ _ (read_e GL _ He (@mkEvaluation CS) evaluation_value ltac:(reflexivity))). now intros x enc.
Qed.

(** ** Elliptic curves *)

(** What is assumed of point decoding beyond [CurveLaws]: the point returned
    for an x coordinate has that x coordinate (and the requested parity of y),
    and the compact form, which carries no parity, is accepted for the same x
    coordinates. *)
Record DecodeLaws (C : Curve) : Prop := {
  decompress_coords : forall x odd P, length x = field_bytes C ->
    ep_decompress C x odd = Some P -> ep_coords C P = Some (x, odd);
  decompact_coords : forall x P, length x = field_bytes C ->
    ep_decompact C x = Some P -> exists odd, ep_coords C P = Some (x, odd);
  decompact_exists : forall x odd P, length x = field_bytes C ->
    ep_decompress C x odd = Some P -> exists Q, ep_decompact C x = Some Q
}.

(** The compact encoding (SEC1 tag 05) of an element. *)
Definition compact (C : Curve) (e : EPoint C) (enc : bytes) : Prop :=
  exists x odd, ep_coords C e = Some (x, odd) /\ ep_decompact C x = Some e /\ enc = x05 :: x.

Theorem C43_elliptic_curve_encodings :
  forall (C : Curve), CurveLaws C -> DecodeLaws C -> forall (H : HashFn) fuel id,
  let CS := CurveSuite C fuel id H in
  canonical (oprf_client_serialize CS) (oprf_client_deserialize CS) /\
  canonical (oprf_server_serialize CS) (oprf_server_deserialize CS) /\
  canonical (proof_serialize CS) (proof_deserialize CS) /\
  canonical_or (blinded_serialize CS) (blinded_deserialize CS)
    (fun x enc => compact C (blinded_value x) enc) /\
  canonical_or (evaluation_serialize CS) (evaluation_deserialize CS)
    (fun x enc => compact C (evaluation_value x) enc) /\
  canonical_or (voprf_client_serialize CS) (voprf_client_deserialize CS)
    (fun x enc => exists a, enc = serialize_scalar (CSGroup CS) (voprf_blind x) ++ a /\
                            compact C (voprf_blinded_element x) a) /\
  canonical_or (poprf_client_serialize CS) (poprf_client_deserialize CS)
    (fun x enc => exists a, enc = serialize_scalar (CSGroup CS) (poprf_blind x) ++ a /\
                            compact C (poprf_blinded_element x) a) /\
  canonical_or (voprf_server_serialize CS) (voprf_server_deserialize CS)
    (fun x enc => exists a, enc = serialize_scalar (CSGroup CS) (voprf_sk x) ++ a /\
                            compact C (voprf_pk x) a) /\
  canonical_or (poprf_server_serialize CS) (poprf_server_deserialize CS)
    (fun x enc => exists a, enc = serialize_scalar (CSGroup CS) (poprf_sk x) ++ a /\
                            compact C (poprf_pk x) a).
Proof.
  intros C CL DL H fuel id CS.
  assert (GL : GroupLaws (CSGroup CS)) by exact (curve_group_laws CL fuel).
  assert (Hs : forall b s, len b = scalar_len (CSGroup CS) -> deserialize_scalar (CSGroup CS) b = Ok s ->
            b = serialize_scalar (CSGroup CS) s).
  { intros b s Hl E. cbn in E, Hl. apply (ec_scalar_ok CL) in E as (_ & E & _).
    assert (Hb : length b = field_bytes C) by (unfold len in Hl; lia).
    cbn. apply be_Z_inj; [now rewrite I2OSP_length|].
    rewrite be_Z_to_bytes; [exact E|]. rewrite <- E, <- Hb. apply be_Z_range. }
  assert (Hser : forall e x odd, ep_coords C e = Some (x, odd) -> length x = field_bytes C ->
            serialize_elem (CSGroup CS) e = (if odd then x03 else x02) :: x).
  { intros e x odd Ec Hx. apply (ec_serialize_point (C := C)); auto. }
  assert (He : forall b e, len b = elem_len (CSGroup CS) -> deserialize_elem (CSGroup CS) b = Ok e ->
            b = serialize_elem (CSGroup CS) e \/ compact C e b).
  { intros b e Hl E.
    destruct (C38_curve_encodings C CL fuel) as (_ & _ & _ & _ & Hd & _).
    apply Hd in E. clear Hd. destruct E as [(x & Hx & [[-> E]|[[-> E]|[-> E]]])|(x & y & Hx & Hy & -> & E)].
    - left. symmetry. apply (Hser e x false); auto. now apply (decompress_coords C DL).
    - left. symmetry. apply (Hser e x true); auto. now apply (decompress_coords C DL).
    - right. destruct (decompact_coords C DL x e Hx E) as [odd Ho]. exists x, odd. auto.
    - exfalso. cbn in Hl. unfold len in Hl. cbn [length] in Hl. rewrite app_length in Hl.
      pose proof (field_bytes_bound C CL). lia. }
  split; [|split; [|split; [|split; [|split; [|split; [|split; [|split]]]]]]].
  - exact (read_s GL Hs (@mkOprfClient CS) oprf_blind ltac:(reflexivity)).
  - exact (read_s GL Hs (@mkOprfServer CS) oprf_sk ltac:(reflexivity)).
  - exact (read_ss GL Hs (@mkProof CS) c_scalar s_scalar ltac:(split; reflexivity)).
  - exact (read_e GL _ He (@mkBlinded CS) blinded_value ltac:(reflexivity)).
  - exact (read_e GL _ He (@mkEvaluation CS) evaluation_value ltac:(reflexivity)).
  - exact (read_se GL Hs _ He (@mkVoprfClient CS) voprf_blind voprf_blinded_element ltac:(split; reflexivity)).
  - exact (read_se GL Hs _ He (@mkPoprfClient CS) poprf_blind poprf_blinded_element ltac:(split; reflexivity)).
  - exact (read_se GL Hs _ He (@mkVoprfServer CS) voprf_sk voprf_pk ltac:(split; reflexivity)).
  - exact (read_se GL Hs _ He (@mkPoprfServer CS) poprf_sk poprf_pk ltac:(split; reflexivity)).
Qed.

(** "One value, one encoding" is false of the elliptic-curve suites: from
    any message (or reply) that is accepted, changing its first byte to 05
    gives a string that is accepted too; it is read as the message with the
    same x coordinate, whose own encoding is a different string. *)
Theorem C43_elliptic_curve_malleable :
  forall (C : Curve), CurveLaws C -> DecodeLaws C -> forall (H : HashFn) fuel id,
  let CS := CurveSuite C fuel id H in
  (forall e, blinded_deserialize CS (blinded_serialize CS e) = Ok e ->
     exists tag x e', blinded_serialize CS e = tag :: x /\
       blinded_deserialize CS (x05 :: x) = Ok e' /\
       (exists tag', blinded_serialize CS e' = tag' :: x /\ tag' <> x05) /\
       blinded_deserialize CS (blinded_serialize CS e') = Ok e') /\
  (forall e, evaluation_deserialize CS (evaluation_serialize CS e) = Ok e ->
     exists tag x e', evaluation_serialize CS e = tag :: x /\
       evaluation_deserialize CS (x05 :: x) = Ok e' /\
       (exists tag', evaluation_serialize CS e' = tag' :: x /\ tag' <> x05) /\
       evaluation_deserialize CS (evaluation_serialize CS e') = Ok e').
Proof.
  intros C CL DL H fuel id CS. assert (GL : GroupLaws (CSGroup CS)) by exact (curve_group_laws CL fuel).
  assert (Hone : forall e, (exists r, de_elem CS (serialize_elem (CSGroup CS) e) = Ok (e, r)) ->
     exists tag x e', serialize_elem (CSGroup CS) e = tag :: x /\
       de_elem CS (x05 :: x) = Ok (e', []) /\
       (exists tag', serialize_elem (CSGroup CS) e' = tag' :: x /\ tag' <> x05) /\
       de_elem CS (serialize_elem (CSGroup CS) e') = Ok (e', [])).
  { intros e [r E].
    assert (Hid : e <> identity_elem (CSGroup CS)).
    { intros ->. pose proof (de_elem_identity GL []) as E'. rewrite app_nil_r in E'. rewrite E' in E. discriminate. }
    destruct (coords_point C CL e Hid) as (x & odd & Ec & Hx & Ed).
    destruct (decompact_exists C DL x odd e Hx Ed) as [e' E'].
    destruct (decompact_coords C DL x e' Hx E') as [odd' Ec'].
    assert (Hid' : e' <> identity_elem (CSGroup CS)) by exact (decompact_point C CL x e' E').
    exists (if odd then x03 else x02), x, e'.
    split; [now apply (ec_serialize_point (C := C))|]. split; [|split].
    - unfold de_elem.
      assert (Hl : elem_len (CSGroup CS) = len (x05 :: x)) by (cbn; unfold len; cbn [length]; now rewrite Hx).
      rewrite Hl, <- (app_nil_r (x05 :: x)) at 1. rewrite take_ext_app. cbn [ok_or bind].
      destruct (C38_curve_encodings C CL fuel) as (_ & _ & _ & _ & Hd & _).
      assert (Ed' : deserialize_elem (CSGroup CS) (x05 :: x) = Ok e').
      { apply Hd. left. exists x. split; auto. }
      rewrite Ed'. reflexivity.
    - exists (if odd' then x03 else x02). split; [now apply (ec_serialize_point (C := C))|].
      destruct odd'; discriminate.
    - pose proof (de_elem_app GL e' [] Hid') as E2. now rewrite app_nil_r in E2. }
  split.
  - intros [e] E. destruct (Hone e) as (tag & x & e' & H1 & H2 & H3 & H4).
    { unfold blinded_deserialize, blinded_serialize in E. cbn [blinded_value] in E.
      destruct (de_elem _ _) as [[e1 r]|?| |]; try discriminate. cbn [bind] in E. injection E as ->. eauto. }
    exists tag, x, (mkBlinded e'). unfold blinded_deserialize, blinded_serialize. cbn [blinded_value].
    rewrite H2, H4. auto.
  - intros [e] E. destruct (Hone e) as (tag & x & e' & H1 & H2 & H3 & H4).
    { unfold evaluation_deserialize, evaluation_serialize in E. cbn [evaluation_value] in E.
      destruct (de_elem _ _) as [[e1 r]|?| |]; try discriminate. cbn [bind] in E. injection E as ->. eauto. }
    exists tag, x, (mkEvaluation e'). unfold evaluation_deserialize, evaluation_serialize. cbn [evaluation_value].
    rewrite H2, H4. auto.
Qed.

Lemma toy_decode_laws : DecodeLaws ToyCurve.
Proof.
  assert (Hd : forall q x odd P, (1 < q)%Z -> length x = 32%nat ->
    toy_decompress q x odd = Some P -> toy_coords q P = Some (x, odd)).
  { intros q x odd P Hq Hx. unfold toy_decompress, toy_coords.
    destruct (Z.ltb_spec 0 (be_Z x)) as [H0|]; [|discriminate].
    destruct (Z.ltb_spec (2 * be_Z x) q) as [H1|]; [|discriminate]. cbn [andb].
    assert (Hx' : forall y, y = be_Z x -> I2OSP (Z.to_N y) 32 = x).
    { intros y ->. apply be_Z_inj; [now rewrite I2OSP_length|]. apply be_Z_to_bytes.
      rewrite <- Hx. apply be_Z_range. }
    intros [= <-]. cbn [of_Z fval]. destruct odd; rewrite Z.mod_small by lia.
    - destruct (Z.eqb_spec (q - be_Z x) 0); [lia|]. destruct (Z.ltb_spec (2 * (q - be_Z x)) q); [lia|].
      rewrite Hx' by lia. reflexivity.
    - destruct (Z.eqb_spec (be_Z x) 0); [lia|]. destruct (Z.ltb_spec (2 * be_Z x) q); [|lia].
      rewrite Hx' by lia. reflexivity. }
  constructor; cbn [ToyCurve field_bytes ep_decompress ep_decompact ep_coords].
  - intros x odd P Hx E. apply Hd; auto. apply n_p256_32.
  - intros x P Hx E. exists false. apply Hd; auto. apply n_p256_32.
  - intros x odd P Hx E. unfold toy_decompress in *. destruct (_ && _)%bool; [eauto|discriminate].
Qed.

(** A message of the elliptic-curve model and its two encodings. *)
Example C43_case :
  let CS := CurveSuite ToyCurve 10 (str "P256-SHA256") ZqHash in
  let x := repeat x00 31 ++ [x07] in
  exists e, blinded_deserialize CS (x02 :: x) = Ok e /\ blinded_deserialize CS (x05 :: x) = Ok e /\
  blinded_serialize CS e = x02 :: x.
Proof.
  cbv zeta.
  assert (H : exists e : Fq n_p256,
    deserialize_elem (CurveGroup ToyCurve 10) (x02 :: repeat x00 31 ++ [x07]) = Ok e /\
    deserialize_elem (CurveGroup ToyCurve 10) (x05 :: repeat x00 31 ++ [x07]) = Ok e /\
    serialize_elem (CurveGroup ToyCurve 10) e = x02 :: repeat x00 31 ++ [x07]).
  { assert (E : match deserialize_elem (CurveGroup ToyCurve 10) (x02 :: repeat x00 31 ++ [x07]),
                      deserialize_elem (CurveGroup ToyCurve 10) (x05 :: repeat x00 31 ++ [x07]) with
                | Ok a, Ok b => Some (fval a =? fval b, serialize_elem (CurveGroup ToyCurve 10) a)%Z
                | _, _ => None end = Some (true, x02 :: repeat x00 31 ++ [x07])).
    { vm_compute. reflexivity. }
    destruct (deserialize_elem _ (x02 :: _)) as [a| | |]; try discriminate E.
    destruct (deserialize_elem _ (x05 :: _)) as [b| | |]; try discriminate E.
    injection E as E1 E2. apply Z.eqb_eq, Fq_eq in E1. exists a. split; [reflexivity|].
    split; [now rewrite E1|exact E2]. }
  destruct H as (e & H1 & H2 & H3).
  exists (mkBlinded (CS := CurveSuite ToyCurve 10 (str "P256-SHA256") ZqHash) e).
  assert (Hd : forall b, length b = 33%nat -> deserialize_elem (CurveGroup ToyCurve 10) b = Ok e ->
    blinded_deserialize (CurveSuite ToyCurve 10 (str "P256-SHA256") ZqHash) b
    = Ok (mkBlinded (CS := CurveSuite ToyCurve 10 (str "P256-SHA256") ZqHash) e)).
  { intros b Hb E. unfold blinded_deserialize, de_elem, take_ext.
    change (elem_len (CSGroup (CurveSuite ToyCurve 10 (str "P256-SHA256") ZqHash))) with 33.
    unfold len. rewrite Hb. change (N.of_nat 33) with 33. change (33 <? 33) with false. cbn iota.
    change (N.to_nat 33) with 33%nat. rewrite firstn_all2 by (rewrite Hb; apply Nat.le_refl).
    cbn [bind ok_or]. change (CSGroup (CurveSuite ToyCurve 10 (str "P256-SHA256") ZqHash)) with (CurveGroup ToyCurve 10).
    rewrite E. reflexivity. }
  split; [apply (Hd (x02 :: repeat x00 31 ++ [x07])); [reflexivity|exact H1]|].
  split; [apply (Hd (x05 :: repeat x00 31 ++ [x07])); [reflexivity|exact H2]|exact H3].
Qed.
