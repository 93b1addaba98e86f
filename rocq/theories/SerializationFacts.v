(** * SerializationFacts: the two field readers of serialization.rs. *)
From Verif Require Export Serialization GroupFacts BytesFacts.
Open Scope N_scope.

Lemma take_ext_app (a b : bytes) : take_ext (a ++ b) (len a) = Some (a, b).
Proof.
  unfold take_ext. rewrite len_app.
  destruct (N.ltb_spec (len a + len b) (len a)) as [Hlt|_]; [lia|].
  unfold len. rewrite Nat2N.id, firstn_app, skipn_app, Nat.sub_diag, firstn_all, skipn_all, firstn_O, app_nil_r.
  reflexivity.
Qed.

Lemma take_ext_short (a : bytes) n : len a < n -> take_ext a n = None.
Proof. intros H. unfold take_ext. destruct (N.ltb_spec (len a) n); [reflexivity|lia]. Qed.

Lemma take_ext_some (a : bytes) n front back :
  take_ext a n = Some (front, back) -> a = front ++ back /\ len front = n.
Proof.
  unfold take_ext. destruct (N.ltb_spec (len a) n) as [|Hn]; [discriminate|].
  intros E. injection E as <- <-. split; [symmetry; apply firstn_skipn|].
  unfold len in *. rewrite firstn_length. lia.
Qed.

Lemma take_ext_cases (a : bytes) n :
  (len a < n /\ take_ext a n = None) \/
  exists front back, a = front ++ back /\ len front = n /\ take_ext a n = Some (front, back).
Proof.
  destruct (take_ext a n) as [[f b]|] eqn:E.
  - right. apply take_ext_some in E as H. destruct H as [H1 H2]. eauto 10.
  - left. split; auto. unfold take_ext in E. destruct (N.ltb_spec (len a) n); [auto|discriminate].
Qed.

Section SF.
Context {CS : CipherSuite} (GL : GroupLaws (CSGroup CS)).
Local Notation G := (CSGroup CS).

Lemma de_scalar_app (s : scalar CS) rest : s <> zero_scalar G ->
  de_scalar CS (serialize_scalar G s ++ rest) = Ok (s, rest).
Proof.
  intros Hs. unfold de_scalar. rewrite <- (serialize_scalar_len _ GL s), take_ext_app.
  cbn [ok_or bind]. now rewrite (deserialize_serialize_scalar _ GL).
Qed.

Lemma de_scalar_zero rest :
  de_scalar CS (serialize_scalar G (zero_scalar G) ++ rest) = Err EDeserialization.
Proof.
  unfold de_scalar. rewrite <- (serialize_scalar_len _ GL (zero_scalar G)), take_ext_app.
  cbn [ok_or bind]. now rewrite (deserialize_zero _ GL).
Qed.

Lemma de_elem_app (e : elem CS) rest : e <> identity_elem G ->
  de_elem CS (serialize_elem G e ++ rest) = Ok (e, rest).
Proof.
  intros Hs. unfold de_elem. rewrite <- (serialize_elem_len _ GL e), take_ext_app.
  cbn [ok_or bind]. now rewrite (deserialize_serialize_elem _ GL).
Qed.

Lemma de_elem_identity rest :
  de_elem CS (serialize_elem G (identity_elem G) ++ rest) = Err EDeserialization.
Proof.
  unfold de_elem. rewrite <- (serialize_elem_len _ GL (identity_elem G)), take_ext_app.
  cbn [ok_or bind]. now rewrite (deserialize_identity _ GL).
Qed.

Lemma de_scalar_cases input :
  de_scalar CS input = Err EDeserialization \/
  exists front rest s, input = front ++ rest /\ len front = scalar_len G /\
    deserialize_scalar G front = Ok s /\ s <> zero_scalar G /\ de_scalar CS input = Ok (s, rest).
Proof.
  unfold de_scalar. destruct (take_ext_cases input (scalar_len G)) as [[_ ->]|(f & b & E & Hl & ->)].
  - now left.
  - cbn [ok_or bind]. pose proof (deserialize_scalar_safe _ GL f) as Hs.
    destruct (deserialize_scalar G f) as [s|e| |] eqn:Ed; cbn [bind] in *; try contradiction.
    + right. exists f, b, s. auto.
    + left. now subst.
Qed.

Lemma de_elem_cases input :
  de_elem CS input = Err EDeserialization \/
  exists front rest e, input = front ++ rest /\ len front = elem_len G /\
    deserialize_elem G front = Ok e /\ e <> identity_elem G /\ de_elem CS input = Ok (e, rest).
Proof.
  unfold de_elem. destruct (take_ext_cases input (elem_len G)) as [[_ ->]|(f & b & E & Hl & ->)].
  - now left.
  - cbn [ok_or bind]. pose proof (deserialize_elem_safe _ GL f) as Hs.
    destruct (deserialize_elem G f) as [s|e| |] eqn:Ed; cbn [bind] in *; try contradiction.
    + right. exists f, b, s. auto.
    + left. now subst.
Qed.

(** Reading fields does not look behind them. *)
Lemma de_scalar_trailing input v rest extra :
  de_scalar CS input = Ok (v, rest) -> de_scalar CS (input ++ extra) = Ok (v, rest ++ extra).
Proof.
  unfold de_scalar. intros H.
  destruct (take_ext_cases input (scalar_len G)) as [[_ E]|(f & b & -> & Hl & E)]; rewrite E in H;
    [discriminate|].
  rewrite <- app_assoc, <- Hl, take_ext_app. cbn [ok_or bind] in *.
  destruct (deserialize_scalar G f); try discriminate. cbn [bind] in *. now injection H as -> ->.
Qed.

Lemma de_elem_trailing input v rest extra :
  de_elem CS input = Ok (v, rest) -> de_elem CS (input ++ extra) = Ok (v, rest ++ extra).
Proof.
  unfold de_elem. intros H.
  destruct (take_ext_cases input (elem_len G)) as [[_ E]|(f & b & -> & Hl & E)]; rewrite E in H;
    [discriminate|].
  rewrite <- app_assoc, <- Hl, take_ext_app. cbn [ok_or bind] in *.
  destruct (deserialize_elem G f); try discriminate. cbn [bind] in *. now injection H as -> ->.
Qed.

Lemma de_scalar_err_trailing front rest e :
  len front = scalar_len G -> deserialize_scalar G front = Err e -> de_scalar CS (front ++ rest) = Err e.
Proof.
  intros Hl H. unfold de_scalar. rewrite <- Hl, take_ext_app. cbn [ok_or bind]. now rewrite H.
Qed.

End SF.
