(** * XmdFacts: the expander computes expand_message_xmd of RFC 9380. *)
From Verif Require Export Xmd XmdSpec BytesFacts CommonFacts.
Open Scope N_scope.

(** What is needed of the hash: fixed, non-zero output size below 256
    (ciphersuite.rs:34, [IsLess<U256>]). *)
Record HashLaws (H : HashFn) : Prop := {
  hl_len : forall m, len (digest H m) = output_size H;
  hl_pos : 1 <= output_size H;
  hl_bound : output_size H < 256
}.

Lemma xor_bytes_strxor a : forall b, xor_bytes a b = strxor a b.
Proof.
  induction a as [|x a IH]; intros [|y b]; try reflexivity.
  cbn [strxor]. unfold xor_bytes in *. cbn [combine map]. rewrite IH. f_equal.
  unfold xor_byte, byte_of_N. rewrite N.mod_small; [reflexivity|].
  change 256 with (2 ^ 8). rewrite <- N.log2_lt_cancel || idtac.
  assert (Hb : forall z, N.log2 (Byte.to_N z) < 8).
  { intros z. pose proof (Byte.to_N_bounded z).
    destruct (N.eq_dec (Byte.to_N z) 0) as [->|Hz]; [reflexivity|].
    apply N.log2_lt_pow2; [lia|]. change (2 ^ 8) with 256. lia. }
  destruct (N.eq_dec (N.lxor (Byte.to_N x) (Byte.to_N y)) 0) as [->|Hz]; [reflexivity|].
  apply N.log2_lt_pow2; [lia|].
  eapply N.le_lt_trans; [apply N.log2_lxor|].
  apply N.max_lub_lt; apply Hb.
Qed.

Lemma repeat_zero_I2OSP n : repeat x00 n = I2OSP 0 n.
Proof.
  induction n as [|n IH]; [reflexivity|].
  cbn [I2OSP]. change (0 / 256) with 0. rewrite <- IH. change (0 mod 256) with 0. cbn.
  clear. induction n; cbn; [reflexivity|]. now f_equal.
Qed.

Section Facts.
Context (H : HashFn) (HL : HashLaws H).
Local Notation h := (digest H).

(** [domain_xmd] and [domain_update]. *)
Lemma domain_xmd_ok dsts : concat dsts <> [] -> exists d,
  domain_xmd H dsts = Ok d /\ forall s, domain_update s d = s ++ DST_prime h (concat dsts).
Proof.
  intros Hne. unfold domain_xmd.
  destruct (N.eqb_spec (len (concat dsts)) 0) as [E|E].
  { exfalso. apply Hne. destruct (concat dsts); [reflexivity|discriminate]. }
  unfold DST_prime, effective_DST, MAX_DST_LEN. fold (len (concat dsts)).
  destruct (N.ltb_spec 255 (len (concat dsts))) as [Hl|Hl].
  - eexists; split; [reflexivity|]. intros s.
    unfold domain_update, chain_update, finalize_hash, hash_new.
    rewrite chain_update_multi_concat. cbn [app]. rewrite <- app_assoc.
    unfold OVERSIZE_DST_SALT. rewrite bstr_str, u8_to_be_bytes_I2OSP. reflexivity.
  - eexists; split; [reflexivity|]. intros s.
    unfold domain_update, chain_update. rewrite chain_update_multi_concat, <- app_assoc.
    now rewrite u8_to_be_bytes_I2OSP.
Qed.

Lemma domain_xmd_empty dsts : concat dsts = [] -> domain_xmd H dsts = Err IInput.
Proof. intros E. unfold domain_xmd. now rewrite E. Qed.

Lemma xmd_b_len DST b0 i : length (xmd_b h DST b0 i) = N.to_nat (output_size H).
Proof.
  assert (Hl : forall m, length (h m) = N.to_nat (output_size H)).
  { intros m. pose proof (hl_len H HL m) as E. unfold len in E. lia. }
  destruct i; apply Hl.
Qed.

(** The bytes an expander has still to give. *)
Definition gives (DST b0 : bytes) (x : Expander) (s : bytes) : Prop :=
  exists d i o ell,
    x = mkExpander b0 (xmd_b h DST b0 i) d (N.of_nat (S i)) o (N.of_nat ell) /\
    (forall t, domain_update t d = t ++ DST_prime h DST) /\
    (S i <= ell)%nat /\ (o <= N.to_nat (output_size H))%nat /\ N.of_nat ell <= 255 /\
    s = skipn o (xmd_b h DST b0 i) ++ concat (map (xmd_b h DST b0) (seq (S i) (ell - S i))).

Lemma gives_start DST b0 d ell :
  (forall t, domain_update t d = t ++ DST_prime h DST) ->
  1 <= ell <= 255 ->
  gives DST b0 (mkExpander b0 (xmd_b h DST b0 0) d 1 0 ell)
        (concat (map (xmd_b h DST b0) (seq 0 (N.to_nat ell)))).
Proof.
  intros Hd He. exists d, 0%nat, 0%nat, (N.to_nat ell). rewrite N2Nat.id.
  repeat split; auto; try lia.
  replace (N.to_nat ell) with (S (N.to_nat ell - 1))%nat at 1 by lia. reflexivity.
Qed.

Lemma skipn_nth {A} (l : list A) o d : (o < length l)%nat ->
  skipn o l = nth o l d :: skipn (S o) l.
Proof.
  revert o. induction l as [|a l IH]; intros o Ho; cbn in Ho; [lia|].
  destruct o; [reflexivity|]. cbn [skipn nth]. rewrite IH by lia. reflexivity.
Qed.

Lemma expander_fill_gives DST b0 n : forall x s,
  gives DST b0 x s -> (n <= length s)%nat ->
  exists x', expander_fill H x n = (firstn n s, x') /\ gives DST b0 x' (skipn n s).
Proof.
  induction n as [|n IH]; intros x s Hg Hn.
  { exists x. split; [reflexivity|]. exact Hg. }
  destruct Hg as (d & i & o & ell & -> & Hd & Hi & Ho & He & ->).
  assert (Hpos := hl_pos H HL).
  destruct (Nat.eq_dec o (N.to_nat (output_size H))) as [Eo|Eo].
  - (* the block is used up *)
    subst o. rewrite skipn_all2 in Hn by (rewrite xmd_b_len; lia). cbn [app] in Hn.
    destruct (Nat.eq_dec ell (S i)) as [El|El].
    { subst ell. rewrite Nat.sub_diag in Hn. cbn in Hn. lia. }
    set (x1 := mkExpander b0 (xmd_b h DST b0 (S i)) d (N.of_nat (S (S i))) 1 (N.of_nat ell)).
    set (s1 := skipn 1 (xmd_b h DST b0 (S i)) ++ concat (map (xmd_b h DST b0) (seq (S (S i)) (ell - S (S i))))).
    assert (Hs : concat (map (xmd_b h DST b0) (seq (S i) (ell - S i)))
                 = nth 0 (xmd_b h DST b0 (S i)) x00 :: s1).
    { replace (ell - S i)%nat with (S (ell - S (S i)))%nat by lia. cbn [seq map concat].
      unfold s1. change (xmd_b h DST b0 (S i)) with (skipn 0 (xmd_b h DST b0 (S i))) at 1.
      rewrite (skipn_nth _ 0 x00) by (rewrite xmd_b_len; lia). reflexivity. }
    assert (Hg1 : gives DST b0 x1 s1).
    { exists d, (S i), 1%nat, ell. repeat split; auto; try lia. }
    destruct (IH x1 s1 Hg1) as (x' & E & Hg').
    { rewrite Hs in Hn. cbn [length] in Hn. lia. }
    exists x'. split.
    + cbn [expander_fill x_offset x_b_vals x_index x_ell x_domain x_b_0].
      rewrite xmd_b_len, Nat.eqb_refl.
      unfold expander_next. cbn [x_offset x_b_vals x_index x_ell x_domain x_b_0].
      rewrite (proj2 (N.ltb_lt _ _)) by lia.
      replace (N.of_nat (S i) + 1) with (N.of_nat (S (S i))) by lia.
      match goal with |- context [finalize_hash H ?a] =>
        replace (finalize_hash H a) with (xmd_b h DST b0 (S i)) end.
      2:{ cbn [xmd_b]. unfold finalize_hash. f_equal. rewrite Hd. unfold chain_update, hash_new. cbn [app].
          rewrite xor_bytes_strxor, <- app_assoc, u8_to_be_bytes_I2OSP. 
          replace (N.of_nat (S i) + 1) with (N.of_nat (S (S i))) by lia. reflexivity. }
      cbn [x_offset x_b_vals x_index x_ell x_domain x_b_0].
      fold x1. rewrite E. rewrite (skipn_all2 (n := N.to_nat (output_size H)) (xmd_b h DST b0 i)) by (rewrite xmd_b_len; lia). cbn [app].
      rewrite Hs. reflexivity.
    + rewrite (skipn_all2 (n := N.to_nat (output_size H)) (xmd_b h DST b0 i)) by (rewrite xmd_b_len; lia). cbn [app]. rewrite Hs. exact Hg'.
  - (* a byte of the current block *)
    assert (Ho' : (o < length (xmd_b h DST b0 i))%nat) by (rewrite xmd_b_len; lia).
    set (x1 := mkExpander b0 (xmd_b h DST b0 i) d (N.of_nat (S i)) (S o) (N.of_nat ell)).
    set (s1 := skipn (S o) (xmd_b h DST b0 i) ++ concat (map (xmd_b h DST b0) (seq (S i) (ell - S i)))).
    assert (Hs : skipn o (xmd_b h DST b0 i) ++ concat (map (xmd_b h DST b0) (seq (S i) (ell - S i)))
                 = nth o (xmd_b h DST b0 i) x00 :: s1).
    { rewrite (skipn_nth _ o x00) by auto. reflexivity. }
    assert (Hg1 : gives DST b0 x1 s1).
    { exists d, i, (S o), ell. repeat split; auto; try lia. }
    destruct (IH x1 s1 Hg1) as (x' & E & Hg').
    { rewrite Hs in Hn. cbn [length] in Hn. lia. }
    exists x'. split.
    + cbn [expander_fill x_offset x_b_vals x_index x_ell x_domain x_b_0].
      rewrite (proj2 (Nat.eqb_neq _ _)) by (rewrite xmd_b_len; auto).
      cbn [x_offset x_b_vals x_index x_ell x_domain x_b_0]. fold x1. rewrite E, Hs. reflexivity.
    + rewrite Hs. exact Hg'.
Qed.

Lemma concat_blocks_len DST b0 k n :
  length (concat (map (xmd_b h DST b0) (seq k n))) = (n * N.to_nat (output_size H))%nat.
Proof.
  revert k. induction n as [|n IH]; intros k; [reflexivity|].
  cbn [seq map concat]. rewrite app_length, IH, xmd_b_len. lia.
Qed.

Definition valid_len (n : N) : Prop := 1 <= n <= 65535 /\ xmd_ell (output_size H) n <= 255.

Lemma expand_message_ok msgs dsts n : concat dsts <> [] -> valid_len n ->
  let b0 := xmd_b0 h (block_size H) (concat msgs) (concat dsts) n in
  exists x s, expand_message H msgs dsts n = Ok x /\ gives (concat dsts) b0 x s /\
    (N.to_nat n <= length s)%nat /\
    firstn (N.to_nat n) s
    = expand_message_xmd h (output_size H) (block_size H) (concat msgs) (concat dsts) n.
Proof.
  intros Hne [Hn Hell] b0.
  destruct (domain_xmd_ok dsts Hne) as (d & Ed & Hd).
  assert (Hpos := hl_pos H HL).
  assert (Hell1 : 1 <= xmd_ell (output_size H) n).
  { unfold xmd_ell. apply N.div_le_lower_bound; lia. }
  exists (mkExpander b0 (xmd_b h (concat dsts) b0 0) d 1 0 (xmd_ell (output_size H) n)).
  exists (concat (map (xmd_b h (concat dsts) b0) (seq 0 (N.to_nat (xmd_ell (output_size H) n))))).
  split; [|split; [|split]].
  - unfold expand_message.
    rewrite (proj2 (N.eqb_neq n 0)) by lia. unfold u16_max.
    rewrite (proj2 (N.ltb_ge 65535 n)) by lia. cbn [orb].
    fold (xmd_ell (output_size H) n). rewrite (proj2 (N.ltb_ge _ _) Hell).
    rewrite Ed. cbn [bind].
    match goal with |- Ok (mkExpander ?a ?b _ _ _ _) = _ =>
      assert (E0 : a = b0); [|assert (E1 : b = xmd_b h (concat dsts) b0 0)] end.
    + unfold b0, xmd_b0, finalize_hash. f_equal. rewrite Hd.
      unfold chain_update, hash_new. rewrite chain_update_multi_concat. cbn [app].
      rewrite <- !app_assoc, repeat_zero_I2OSP, u16_to_be_bytes_I2OSP. reflexivity.
    + cbn [xmd_b]. rewrite E0. unfold finalize_hash. f_equal. rewrite Hd.
      unfold chain_update, hash_new. cbn [app]. rewrite <- app_assoc. reflexivity.
    + rewrite E1, E0. reflexivity.
  - apply gives_start; auto.
  - rewrite concat_blocks_len.
    assert (Hc : n <= xmd_ell (output_size H) n * output_size H).
    { unfold xmd_ell. pose proof (N.div_mod (n + output_size H - 1) (output_size H) ltac:(lia)) as E.
      pose proof (N.mod_lt (n + output_size H - 1) (output_size H) ltac:(lia)). lia. }
    lia.
  - reflexivity.
Qed.

(** One [fill_bytes] of exactly the announced length: the RFC's string. *)
Lemma expand_fill_ok msgs dsts n : concat dsts <> [] -> valid_len n ->
  exists x x', expand_message H msgs dsts n = Ok x /\
    expander_fill H x (N.to_nat n)
    = (expand_message_xmd h (output_size H) (block_size H) (concat msgs) (concat dsts) n, x').
Proof.
  intros Hne Hv. destruct (expand_message_ok msgs dsts n Hne Hv) as (x & s & E & Hg & Hl & <-).
  destruct (expander_fill_gives _ _ _ _ _ Hg Hl) as (x' & E' & _). exists x, x'. auto.
Qed.

(** Two fills: consecutive parts of the RFC's string. *)
Lemma expand_fill2_ok msgs dsts n m : concat dsts <> [] -> valid_len (n + m) ->
  let u := expand_message_xmd h (output_size H) (block_size H) (concat msgs) (concat dsts) (n + m) in
  exists x x1 x2, expand_message H msgs dsts (n + m) = Ok x /\
    expander_fill H x (N.to_nat n) = (firstn (N.to_nat n) u, x1) /\
    expander_fill H x1 (N.to_nat m) = (skipn (N.to_nat n) u, x2).
Proof.
  intros Hne Hv u.
  destruct (expand_message_ok msgs dsts (n + m) Hne Hv) as (x & s & E & Hg & Hl & Hu).
  destruct (expander_fill_gives _ _ (N.to_nat n) _ _ Hg ltac:(lia)) as (x1 & E1 & Hg1).
  destruct (expander_fill_gives _ _ (N.to_nat m) _ _ Hg1) as (x2 & E2 & _).
  { rewrite skipn_length. lia. }
  exists x, x1, x2. split; auto. fold u in Hu. split.
  - rewrite E1, <- Hu. rewrite firstn_firstn. do 2 f_equal. lia.
  - rewrite E2, <- Hu. f_equal. rewrite firstn_skipn_comm. do 2 f_equal. lia.
Qed.

Lemma expand_message_empty_tag msgs dsts n : concat dsts = [] ->
  expand_message H msgs dsts n = Err IInput.
Proof.
  intros E. unfold expand_message. destruct (_ || _)%bool; [reflexivity|].
  destruct (255 <? _); [reflexivity|]. now rewrite domain_xmd_empty.
Qed.

Lemma expand_message_xmd_len msg DST n : valid_len n ->
  len (expand_message_xmd h (output_size H) (block_size H) msg DST n) = n.
Proof.
  intros [Hn He]. unfold expand_message_xmd, len. rewrite firstn_length, concat_blocks_len.
  assert (Hpos := hl_pos H HL).
  assert (Hc : n <= xmd_ell (output_size H) n * output_size H).
  { unfold xmd_ell. pose proof (N.div_mod (n + output_size H - 1) (output_size H) ltac:(lia)) as E.
    pose proof (N.mod_lt (n + output_size H - 1) (output_size H) ltac:(lia)). lia. }
  lia.
Qed.

Lemma valid_len_small n : 1 <= n <= 255 -> valid_len n.
Proof.
  intros Hn. split; [lia|]. unfold xmd_ell. assert (Hpos := hl_pos H HL).
  apply N.div_le_upper_bound; [lia|]. nia.
Qed.

End Facts.
