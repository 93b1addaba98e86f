(** * Sha2: SHA-256, SHA-384 and SHA-512.

    ciphersuite.rs:23-35 takes any hash; the built-in suites use those of the
    crate sha2 (ciphersuite.rs:37-49 through [VoprfParameters::Hash]; lib.rs
    for ristretto255).  The crate is not in /repo; this file is FIPS 180-4.
    Words are numbers below 2^32 or 2^64. *)
From Verif Require Export Traits Spec.
From Verif Require Import BytesFacts.
Open Scope N_scope.

(** One hash function of the family: the size of a word in bits, the round
    constants, the initial value, the amounts of the rotations and shifts. *)
Record Sha2 : Type := {
  sh_w : N;
  sh_k : list N;
  sh_init : list N;
  sh_S0 : N * N * N;      (* rotations of Sigma 0 *)
  sh_S1 : N * N * N;
  sh_s0 : N * N * N;      (* sigma 0: two rotations and a shift *)
  sh_s1 : N * N * N;
  sh_out : nat            (* bytes of output *)
}.

Section Sha.
Context (S : Sha2).
Local Notation w := (sh_w S).
Local Notation wb := (N.to_nat (sh_w S / 8)).

(** Section 2.2.2. *)
Definition trunc (x : N) : N := N.land x (N.ones w).
Definition addw (x y : N) : N := trunc (x + y).
Definition rotr (n x : N) : N := N.lor (N.shiftr x n) (trunc (N.shiftl x (w - n))).
Definition notw (x : N) : N := N.lxor x (N.ones w).

(** Section 4.1. *)
Definition Ch (x y z : N) : N := N.lxor (N.land x y) (N.land (notw x) z).
Definition Maj (x y z : N) : N := N.lxor (N.lxor (N.land x y) (N.land x z)) (N.land y z).
Definition Sig (r : N * N * N) (x : N) : N :=
  let '(a, b, c) := r in N.lxor (N.lxor (rotr a x) (rotr b x)) (rotr c x).
Definition sig (r : N * N * N) (x : N) : N :=
  let '(a, b, c) := r in N.lxor (N.lxor (rotr a x) (rotr b x)) (N.shiftr x c).

(** Section 5.1: a one bit, zeros, and the length in bits on 8 or 16 bytes. *)
Definition pad (m : bytes) : bytes :=
  let blk := 2 * w in                               (* bytes per block *)
  let tail := w / 4 in
  let zeros := (blk - ((len m + 1 + tail) mod blk)) mod blk in
  m ++ [x80] ++ repeat x00 (N.to_nat zeros) ++ I2OSP (8 * len m) (N.to_nat tail).

(** Section 5.2: big-endian words. *)
Definition word (b : bytes) : N := fold_left (fun acc x => acc * 256 + Byte.to_N x) b 0.
Fixpoint words (n : nat) (b : bytes) : list N :=
  match n with O => [] | Datatypes.S n => word (firstn wb b) :: words n (skipn wb b) end.

(** Sections 6.2.2 and 6.4.2, step 1.  The schedule is built in reverse. *)
Fixpoint schedule (n : nat) (r : list N) : list N :=
  match n with
  | O => rev r
  | Datatypes.S n =>
      let t := addw (addw (sig (sh_s1 S) (nth 1 r 0)) (nth 6 r 0)) (addw (sig (sh_s0 S) (nth 14 r 0)) (nth 15 r 0)) in
      schedule n (t :: r)
  end.

(** Step 3. *)
Definition round (st : list N) (kw : N * N) : list N :=
  match st with
  | [a; b; c; d; e; f; g; h] =>
      let T1 := addw (addw (addw h (Sig (sh_S1 S) e)) (Ch e f g)) (addw (fst kw) (snd kw)) in
      let T2 := addw (Sig (sh_S0 S) a) (Maj a b c) in
      [addw T1 T2; a; b; c; addw d T1; e; f; g]
  | _ => st
  end.

Definition compress (h : list N) (block : bytes) : list N :=
  let W := schedule (length (sh_k S) - 16) (rev (words 16 block)) in
  let st := fold_left round (combine (sh_k S) W) h in
  map (fun '(x, y) => addw x y) (combine h st).

Fixpoint blocks (fuel : nat) (h : list N) (m : bytes) : list N :=
  match fuel, m with
  | O, _ | _, [] => h
  | Datatypes.S fuel, _ => blocks fuel (compress h (firstn (N.to_nat (2 * w)) m)) (skipn (N.to_nat (2 * w)) m)
  end.

Definition sha2 (m : bytes) : bytes :=
  let p := pad m in
  firstn (sh_out S) (concat (map (fun x => I2OSP x wb) (blocks (length p) (sh_init S) p))).
End Sha.

(** Sections 4.2.2, 5.3.3. *)
Definition K256 : list N := [
  0x428a2f98; 0x71374491; 0xb5c0fbcf; 0xe9b5dba5; 0x3956c25b; 0x59f111f1;
  0x923f82a4; 0xab1c5ed5; 0xd807aa98; 0x12835b01; 0x243185be; 0x550c7dc3;
  0x72be5d74; 0x80deb1fe; 0x9bdc06a7; 0xc19bf174; 0xe49b69c1; 0xefbe4786;
  0x0fc19dc6; 0x240ca1cc; 0x2de92c6f; 0x4a7484aa; 0x5cb0a9dc; 0x76f988da;
  0x983e5152; 0xa831c66d; 0xb00327c8; 0xbf597fc7; 0xc6e00bf3; 0xd5a79147;
  0x06ca6351; 0x14292967; 0x27b70a85; 0x2e1b2138; 0x4d2c6dfc; 0x53380d13;
  0x650a7354; 0x766a0abb; 0x81c2c92e; 0x92722c85; 0xa2bfe8a1; 0xa81a664b;
  0xc24b8b70; 0xc76c51a3; 0xd192e819; 0xd6990624; 0xf40e3585; 0x106aa070;
  0x19a4c116; 0x1e376c08; 0x2748774c; 0x34b0bcb5; 0x391c0cb3; 0x4ed8aa4a;
  0x5b9cca4f; 0x682e6ff3; 0x748f82ee; 0x78a5636f; 0x84c87814; 0x8cc70208;
  0x90befffa; 0xa4506ceb; 0xbef9a3f7; 0xc67178f2].
Definition SHA256 : Sha2 := {|
  sh_w := 32; sh_k := K256;
  sh_init := [
    0x6a09e667; 0xbb67ae85; 0x3c6ef372; 0xa54ff53a;
    0x510e527f; 0x9b05688c; 0x1f83d9ab; 0x5be0cd19];
  sh_S0 := (2, 13, 22); sh_S1 := (6, 11, 25); sh_s0 := (7, 18, 3); sh_s1 := (17, 19, 10);
  sh_out := 32
|}.

(** Sections 4.2.3, 5.3.4, 5.3.5. *)
Definition K512 : list N := [
  0x428a2f98d728ae22; 0x7137449123ef65cd; 0xb5c0fbcfec4d3b2f; 0xe9b5dba58189dbbc;
  0x3956c25bf348b538; 0x59f111f1b605d019; 0x923f82a4af194f9b; 0xab1c5ed5da6d8118;
  0xd807aa98a3030242; 0x12835b0145706fbe; 0x243185be4ee4b28c; 0x550c7dc3d5ffb4e2;
  0x72be5d74f27b896f; 0x80deb1fe3b1696b1; 0x9bdc06a725c71235; 0xc19bf174cf692694;
  0xe49b69c19ef14ad2; 0xefbe4786384f25e3; 0x0fc19dc68b8cd5b5; 0x240ca1cc77ac9c65;
  0x2de92c6f592b0275; 0x4a7484aa6ea6e483; 0x5cb0a9dcbd41fbd4; 0x76f988da831153b5;
  0x983e5152ee66dfab; 0xa831c66d2db43210; 0xb00327c898fb213f; 0xbf597fc7beef0ee4;
  0xc6e00bf33da88fc2; 0xd5a79147930aa725; 0x06ca6351e003826f; 0x142929670a0e6e70;
  0x27b70a8546d22ffc; 0x2e1b21385c26c926; 0x4d2c6dfc5ac42aed; 0x53380d139d95b3df;
  0x650a73548baf63de; 0x766a0abb3c77b2a8; 0x81c2c92e47edaee6; 0x92722c851482353b;
  0xa2bfe8a14cf10364; 0xa81a664bbc423001; 0xc24b8b70d0f89791; 0xc76c51a30654be30;
  0xd192e819d6ef5218; 0xd69906245565a910; 0xf40e35855771202a; 0x106aa07032bbd1b8;
  0x19a4c116b8d2d0c8; 0x1e376c085141ab53; 0x2748774cdf8eeb99; 0x34b0bcb5e19b48a8;
  0x391c0cb3c5c95a63; 0x4ed8aa4ae3418acb; 0x5b9cca4f7763e373; 0x682e6ff3d6b2b8a3;
  0x748f82ee5defb2fc; 0x78a5636f43172f60; 0x84c87814a1f0ab72; 0x8cc702081a6439ec;
  0x90befffa23631e28; 0xa4506cebde82bde9; 0xbef9a3f7b2c67915; 0xc67178f2e372532b;
  0xca273eceea26619c; 0xd186b8c721c0c207; 0xeada7dd6cde0eb1e; 0xf57d4f7fee6ed178;
  0x06f067aa72176fba; 0x0a637dc5a2c898a6; 0x113f9804bef90dae; 0x1b710b35131c471b;
  0x28db77f523047d84; 0x32caab7b40c72493; 0x3c9ebe0a15c9bebc; 0x431d67c49c100d4c;
  0x4cc5d4becb3e42b6; 0x597f299cfc657e2a; 0x5fcb6fab3ad6faec; 0x6c44198c4a475817].
Definition SHA512 : Sha2 := {|
  sh_w := 64; sh_k := K512;
  sh_init := [
    0x6a09e667f3bcc908; 0xbb67ae8584caa73b; 0x3c6ef372fe94f82b; 0xa54ff53a5f1d36f1;
    0x510e527fade682d1; 0x9b05688c2b3e6c1f; 0x1f83d9abfb41bd6b; 0x5be0cd19137e2179];
  sh_S0 := (28, 34, 39); sh_S1 := (14, 18, 41); sh_s0 := (1, 8, 7); sh_s1 := (19, 61, 6);
  sh_out := 64
|}.
Definition SHA384 : Sha2 := {|
  sh_w := 64; sh_k := K512;
  sh_init := [
    0xcbbb9d5dc1059ed8; 0x629a292a367cd507; 0x9159015a3070dd17; 0x152fecd8f70e5939;
    0x67332667ffc00b31; 0x8eb44a8768581511; 0xdb0c2e0d64f98fa7; 0x47b5481dbefa4fa4];
  sh_S0 := (28, 34, 39); sh_S1 := (14, 18, 41); sh_s0 := (1, 8, 7); sh_s1 := (19, 61, 6);
  sh_out := 48
|}.

(** As the crate sees them. *)
Definition hash_of (S : Sha2) : HashFn := {|
  digest := sha2 S; output_size := N.of_nat (sh_out S); block_size := 2 * sh_w S
|}.

(** The output always has the advertised length. *)
Record ShaShape (S : Sha2) : Prop := {
  shape_init : length (sh_init S) = 8%nat;
  shape_out : (sh_out S <= 8 * N.to_nat (sh_w S / 8))%nat
}.

Section Shape.
Context (S : Sha2) (H : ShaShape S).

Lemma round_length st kw : length (round S st kw) = length st.
Proof. unfold round. destruct st as [|a [|b [|c [|d [|e [|f [|g [|h [|i st]]]]]]]]]; reflexivity. Qed.

Lemma rounds_length l : forall st, length (fold_left (round S) l st) = length st.
Proof. induction l as [|kw l IH]; intros st; cbn [fold_left]; [reflexivity|]. now rewrite IH, round_length. Qed.

Lemma compress_length h b : length (compress S h b) = length h.
Proof. unfold compress. cbv zeta. rewrite map_length, combine_length, rounds_length. lia. Qed.

Lemma blocks_length fuel : forall h m, length (blocks S fuel h m) = length h.
Proof.
  induction fuel as [|fuel IH]; intros h m; [reflexivity|]. cbn [blocks]. destruct m; [reflexivity|].
  now rewrite IH, compress_length.
Qed.

Lemma sha2_length m : length (sha2 S m) = sh_out S.
Proof.
  unfold sha2. cbv zeta. rewrite firstn_length. apply Nat.min_l.
  assert (Hc : forall l, length (concat (map (fun x => I2OSP x (N.to_nat (sh_w S / 8))) l)) = (length l * N.to_nat (sh_w S / 8))%nat).
  { induction l as [|x l IH]; [reflexivity|]. cbn [map concat length]. rewrite app_length, I2OSP_length, IH. lia. }
  rewrite Hc, blocks_length, (shape_init S H). apply (shape_out S H).
Qed.
End Shape.

Lemma sha256_shape : ShaShape SHA256. Proof. split; [reflexivity|]. vm_compute. repeat constructor. Qed.
Lemma sha384_shape : ShaShape SHA384. Proof. split; [reflexivity|]. vm_compute. repeat constructor. Qed.
Lemma sha512_shape : ShaShape SHA512. Proof. split; [reflexivity|]. vm_compute. repeat constructor. Qed.

(** FIPS 180-4 examples (NIST CSRC, SHA256/384/512 of "abc", of the empty
    string, and of a two-block message). *)
Goal word (sha2 SHA256 (str "")) = 0xe3b0c44298fc1c149afbf4c8996fb92427ae41e4649b934ca495991b7852b855. vm_compute. reflexivity. Abort.
Goal word (sha2 SHA256 (str "abc")) = 0xba7816bf8f01cfea414140de5dae2223b00361a396177a9cb410ff61f20015ad. vm_compute. reflexivity. Abort.
Goal word (sha2 SHA256 (str "abcdbcdecdefdefgefghfghighijhijkijkljklmklmnlmnomnopnopq")) = 0x248d6a61d20638b8e5c026930c3e6039a33ce45964ff2167f6ecedd419db06c1. vm_compute. reflexivity. Abort.
Goal word (sha2 SHA256 (repeat "a"%byte 200)) = 0xc2a908d98f5df987ade41b5fce213067efbcc21ef2240212a41e54b5e7c28ae5. vm_compute. reflexivity. Abort.
Goal word (sha2 SHA256 (repeat "b"%byte 111)) = 0x56772b647d5a52b68f7f4b577a1f8f9f901bb20d0eebb5f1006b7d337b7e3eec. vm_compute. reflexivity. Abort.
Goal word (sha2 SHA256 (repeat "b"%byte 112)) = 0x2e00e3a07d2633eb2a2ae7a01effd634d3b07dfefe3189a24eccb50829c0d1f1. vm_compute. reflexivity. Abort.
Goal word (sha2 SHA256 (repeat "b"%byte 55)) = 0xeb2c86e932179f4ba13fe8715a26124b77d6bad290b9b4c1cc140cf633300c19. vm_compute. reflexivity. Abort.
Goal word (sha2 SHA256 (repeat "b"%byte 56)) = 0xa5fc6e203a4c2b657d0d153885932414b2ffc6a93f0f8bf8b3183315e5a7212c. vm_compute. reflexivity. Abort.
Goal word (sha2 SHA256 (repeat "b"%byte 64)) = 0xa0fab1377f49a759b57f63318262ebe89fabfc990e8e93ceac2984561482b9d4. vm_compute. reflexivity. Abort.
Goal word (sha2 SHA256 (repeat "b"%byte 128)) = 0x70ae1c5307f5250d5cb9e40742ba9613fcdf9b8d9eb6dd393330443b2d5effbd. vm_compute. reflexivity. Abort.
Goal word (sha2 SHA384 (str "")) = 0x38b060a751ac96384cd9327eb1b1e36a21fdb71114be07434c0cc7bf63f6e1da274edebfe76f65fbd51ad2f14898b95b. vm_compute. reflexivity. Abort.
Goal word (sha2 SHA384 (str "abc")) = 0xcb00753f45a35e8bb5a03d699ac65007272c32ab0eded1631a8b605a43ff5bed8086072ba1e7cc2358baeca134c825a7. vm_compute. reflexivity. Abort.
Goal word (sha2 SHA384 (str "abcdbcdecdefdefgefghfghighijhijkijkljklmklmnlmnomnopnopq")) = 0x3391fdddfc8dc7393707a65b1b4709397cf8b1d162af05abfe8f450de5f36bc6b0455a8520bc4e6f5fe95b1fe3c8452b. vm_compute. reflexivity. Abort.
Goal word (sha2 SHA384 (repeat "a"%byte 200)) = 0x0691b6e978614b67d60557b2a2cddd53406508522efa21c624dbbfa8ab6e726d5c586b489c7c09f24109a64c10211d48. vm_compute. reflexivity. Abort.
Goal word (sha2 SHA384 (repeat "b"%byte 111)) = 0xa47bc504cd628dbc1abac61dd4fb95c14a5ce395ce0a2ba23e29f065159ab694335cd8664a63cdc8a1b1ce318cf99187. vm_compute. reflexivity. Abort.
Goal word (sha2 SHA384 (repeat "b"%byte 112)) = 0xb003f8ded297822e4acefca9d46dc977eaa4ff2ce1a629baafc4eef2e7b7eaf5224fd2b83e97398bdbc36345677f45f8. vm_compute. reflexivity. Abort.
Goal word (sha2 SHA384 (repeat "b"%byte 55)) = 0xc3041812bd2621c7473047cd5d2d2c3d5116dc81f5e0e77bea448c4d263d5a09f9c1e2fabad7f560eb7c0227da0a351f. vm_compute. reflexivity. Abort.
Goal word (sha2 SHA384 (repeat "b"%byte 56)) = 0x504bd2388c018bb5703c6dd3a6fbf3938a509f3d0378413badd3c39469e4f979a7c44ef9cdcc5673ff167b73c34568e6. vm_compute. reflexivity. Abort.
Goal word (sha2 SHA384 (repeat "b"%byte 64)) = 0x68a8e9d2ab2da22e2ac8aa8f79c1746f8d0e313d3f81f5a02dcf87a7578bd7552c4b472b56278fb298fb69f3fab10c5c. vm_compute. reflexivity. Abort.
Goal word (sha2 SHA384 (repeat "b"%byte 128)) = 0x4e87a0a3cd4e53fb141ec29782a3956558246c43b7a3a7f88dad2755f58ebcc159bc6c97b5df03e815a22d3d37066e80. vm_compute. reflexivity. Abort.
Goal word (sha2 SHA512 (str "")) = 0xcf83e1357eefb8bdf1542850d66d8007d620e4050b5715dc83f4a921d36ce9ce47d0d13c5d85f2b0ff8318d2877eec2f63b931bd47417a81a538327af927da3e. vm_compute. reflexivity. Abort.
Goal word (sha2 SHA512 (str "abc")) = 0xddaf35a193617abacc417349ae20413112e6fa4e89a97ea20a9eeee64b55d39a2192992a274fc1a836ba3c23a3feebbd454d4423643ce80e2a9ac94fa54ca49f. vm_compute. reflexivity. Abort.
Goal word (sha2 SHA512 (str "abcdbcdecdefdefgefghfghighijhijkijkljklmklmnlmnomnopnopq")) = 0x204a8fc6dda82f0a0ced7beb8e08a41657c16ef468b228a8279be331a703c33596fd15c13b1b07f9aa1d3bea57789ca031ad85c7a71dd70354ec631238ca3445. vm_compute. reflexivity. Abort.
Goal word (sha2 SHA512 (repeat "a"%byte 200)) = 0x4b11459c33f52a22ee8236782714c150a3b2c60994e9acee17fe68947a3e6789f31e7668394592da7bef827cddca88c4e6f86e4df7ed1ae6cba71f3e98faee9f. vm_compute. reflexivity. Abort.
Goal word (sha2 SHA512 (repeat "b"%byte 111)) = 0x419c4a5a61a60515b115bc4c67f412b9d5e3a9b044451cccf91fd9cf917ff1488c05942ea6598d2fc40183befd85786cff8ac0bcd5fd7fff666968a198f22e21. vm_compute. reflexivity. Abort.
Goal word (sha2 SHA512 (repeat "b"%byte 112)) = 0xfd29e3caf85c0e469f0f157a3d8dad942e776c4cf8fcd1e10fc5592af6024ade7e2c163a127cee9f6053311cae50c40d682260c8f1d4d2b63608a55a66e44f1d. vm_compute. reflexivity. Abort.
Goal word (sha2 SHA512 (repeat "b"%byte 55)) = 0xa4e1b5a7c9ffac650a04549586593af8942459f3217cda55b7ef4d686bf0aae4a73fa6e113211464784a68dbf10e5f3f5fbeb239c84ae3cee35b8f69f8d76d42. vm_compute. reflexivity. Abort.
Goal word (sha2 SHA512 (repeat "b"%byte 56)) = 0xaf5fc8e26d3a65180cc5346abce4079fbe5111020163cd8787b1942f587cc991eeeb46db3594227a25debf8deb0288d419e5aa8943bfc12ceb4b0e50d3e6514f. vm_compute. reflexivity. Abort.
Goal word (sha2 SHA512 (repeat "b"%byte 64)) = 0x596d7eacfe120df2e44d09a1b45fededbd63dc14fde972b6618a67104cbd6cc9e31e819b8baf6572beec97e6cd01c106d2a3e432a5f266a5a4468a59e2e74a28. vm_compute. reflexivity. Abort.
Goal word (sha2 SHA512 (repeat "b"%byte 128)) = 0xfef679bea370b59c774dc497fa4435b9bd0e1d7f54dc24b4d0a55c16190d6e17da48c744ce7475b13565f533aab813430258db6734fb6acabc8549f9c35a7d1a. vm_compute. reflexivity. Abort.
