(** * BytesFacts: lemmas about byte strings and length-prefixed encodings. *)
From Verif Require Export Spec Base.
Open Scope N_scope.

Lemma byte_of_N_spec n : byte_of_N n = match Byte.of_N (n mod 256) with Some b => b | None => x00 end.
Proof. reflexivity. Qed.

Lemma byte_of_N_mod n : byte_of_N (n mod 256) = byte_of_N n.
Proof. unfold byte_of_N. now rewrite N.mod_mod by lia. Qed.

Lemma u16_to_be_bytes_I2OSP n : u16_to_be_bytes n = I2OSP n 2.
Proof.
  unfold u16_to_be_bytes. simpl. now rewrite !byte_of_N_mod.
Qed.

Lemma u8_to_be_bytes_I2OSP n : u8_to_be_bytes n = I2OSP n 1.
Proof. reflexivity. Qed.

Lemma byte_of_N_small n : n < 256 -> Byte.to_N (byte_of_N n) = n.
Proof.
  intros H. unfold byte_of_N. rewrite N.mod_small by auto.
  destruct (Byte.of_N n) eqn:E.
  - now apply Byte.to_of_N.
  - apply Byte.of_N_None_iff in E. lia.
Qed.

Lemma byte_of_N_inj a b : a < 256 -> b < 256 -> byte_of_N a = byte_of_N b -> a = b.
Proof.
  intros Ha Hb H. rewrite <- (byte_of_N_small a), <- (byte_of_N_small b) by auto. now rewrite H.
Qed.

Lemma I2OSP_length x n : length (I2OSP x n) = n.
Proof.
  revert x. induction n; intros; simpl; auto. rewrite app_length, IHn. simpl. lia.
Qed.

Lemma I2OSP_inj n : forall x y, x < 256 ^ N.of_nat n -> y < 256 ^ N.of_nat n ->
  I2OSP x n = I2OSP y n -> x = y.
Proof.
  induction n; intros x y Hx Hy H.
  - simpl in *. lia.
  - rewrite Nat2N.inj_succ, N.pow_succ_r' in Hx, Hy. simpl in H.
    apply app_inj_tail in H as [H1 H2].
    apply IHn in H1; try (apply N.div_lt_upper_bound; lia).
    assert (x mod 256 = y mod 256).
    { apply byte_of_N_inj; try (apply N.mod_lt; lia).
      unfold byte_of_N. rewrite !N.mod_mod by lia. exact H2. }
    rewrite (N.div_mod x 256), (N.div_mod y 256) by lia. congruence.
Qed.

Lemma I2OSP2_inj x y : x < 65536 -> y < 65536 -> I2OSP x 2 = I2OSP y 2 -> x = y.
Proof. intros. apply (I2OSP_inj 2); auto. Qed.

Lemma app_inj_len {A} (a b c d : list A) :
  length a = length c -> a ++ b = c ++ d -> a = c /\ b = d.
Proof.
  revert c. induction a; destruct c; simpl; intros Hl H; try discriminate; auto.
  injection H as -> H. destruct (IHa c); auto. now subst.
Qed.

Lemma app_inj_len_r {A} (a b c d : list A) :
  length b = length d -> a ++ b = c ++ d -> a = c /\ b = d.
Proof.
  intros Hl H. apply app_inj_len; auto.
  apply (f_equal (@length A)) in H. rewrite !app_length in H. lia.
Qed.

(** The length-prefixed encoding can be parsed back. *)
Lemma lv_app_inj x y r s :
  len x <= 65535 -> len y <= 65535 -> lv x ++ r = lv y ++ s -> x = y /\ r = s.
Proof.
  unfold lv, len. intros Hx Hy H. rewrite <- !app_assoc in H.
  apply app_inj_len in H as [Hl H]; [|now rewrite !I2OSP_length].
  apply I2OSP2_inj in Hl; try lia.
  apply app_inj_len in H; [auto|lia].
Qed.

Lemma lv_inj x y : len x <= 65535 -> len y <= 65535 -> lv x = lv y -> x = y.
Proof.
  intros Hx Hy H. apply (lv_app_inj x y [] []); auto. now rewrite H.
Qed.

Lemma len_app {A} (a b : list A) : len (a ++ b) = len a + len b.
Proof. unfold len. rewrite app_length. lia. Qed.

Lemma len_repeat {A} (x : A) n : len (repeat x n) = N.of_nat n.
Proof. unfold len. now rewrite repeat_length. Qed.

Lemma i2osp_2_ok n : n <= 65535 -> i2osp_2 n = Ok (I2OSP n 2).
Proof.
  intros H. unfold i2osp_2, u16_max. rewrite (proj2 (N.leb_le _ _) H).
  now rewrite u16_to_be_bytes_I2OSP.
Qed.

Lemma i2osp_2_err n : 65535 < n -> i2osp_2 n = Err II2osp.
Proof.
  intros H. unfold i2osp_2, u16_max. now rewrite (proj2 (N.leb_gt _ _) H).
Qed.
