(** * Primes: the group orders of two built-in ciphersuites are prime.

    The orders are constants of the curve libraries: RFC 8032, section 5.1 (L,
    the order of ristretto255) and SEC 2, version 2, section 2.4 (n of
    secp256r1 = P-256).  The certificate is checked by evaluation. *)
From Coq Require Import ZArith Znumtheory List.
From Verif Require Import Pocklington PowCert CertOrders.
Import ListNotations.
Open Scope Z_scope.

Definition ell : Z := 2 ^ 252 + 27742317777372353535851937790883648493.
Definition n_p256 : Z := 0xffffffff00000000ffffffffffffffffbce6faada7179e84f3b9cac2fc632551.

Lemma certificates_ok : check_certs [] certorders = true.
Proof. vm_compute. reflexivity. Qed.

Theorem ell_prime : prime ell.
Proof. apply (certified_prime certorders _ certificates_ok). vm_compute. reflexivity. Qed.
Theorem n_p256_prime : prime n_p256.
Proof. apply (certified_prime certorders _ certificates_ok). vm_compute. reflexivity. Qed.
