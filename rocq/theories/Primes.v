(** The two secp256k1 primes and their primality, by Pocklington certificates.
    Certificates computed outside Coq; the kernel checks them by computation. *)
From Coq Require Import ZArith Znumtheory List Bool.
From Verif Require Import Fermat.
Import ListNotations.
Open Scope Z_scope.

(** p: base field of secp256k1 = scalar field of secq256k1.
    packages/Spartan-secq/src/scalar/scalar.rs:3,
    packages/secq256k1/src/lib.rs:20-21 (ORDER). *)
Definition p : Z := 0xfffffffffffffffffffffffffffffffffffffffffffffffffffffffefffffc2f.
(** n: order of secp256k1 = base field of secq256k1.
    packages/secq256k1/src/field/field_secq.rs:2. *)
Definition n : Z := 0xfffffffffffffffffffffffffffffffebaaedce6af48a03bbfd25e8cd0364141.

Lemma prime_53 : prime 53.
Proof. apply small_prime. vm_compute. reflexivity. Qed.
Lemma prime_29 : prime 29.
Proof. apply small_prime. vm_compute. reflexivity. Qed.
Lemma prime_7 : prime 7.
Proof. apply small_prime. vm_compute. reflexivity. Qed.
Lemma prime_107590001 : prime 107590001.
Proof.
  apply (pocklington 107590001 0 0 [(53, 1, 2); (29, 1, 2); (7, 1, 2)]).
  - apply Forall_cons; [exact prime_53|]. apply Forall_cons; [exact prime_29|]. apply Forall_cons; [exact prime_7|]. apply Forall_nil.
  - vm_compute. reflexivity.
Qed.
Lemma prime_20113 : prime 20113.
Proof. apply small_prime. vm_compute. reflexivity. Qed.
Lemma prime_1206781 : prime 1206781.
Proof.
  apply (pocklington 1206781 0 0 [(20113, 1, 2)]).
  - apply Forall_cons; [exact prime_20113|]. apply Forall_nil.
  - vm_compute. reflexivity.
Qed.
Lemma prime_7240687 : prime 7240687.
Proof.
  apply (pocklington 7240687 0 0 [(1206781, 1, 2)]).
  - apply Forall_cons; [exact prime_1206781|]. apply Forall_nil.
  - vm_compute. reflexivity.
Qed.
Lemma prime_96557 : prime 96557.
Proof. apply small_prime. vm_compute. reflexivity. Qed.
Lemma prime_255515944373312847190720520512484175977 : prime 255515944373312847190720520512484175977.
Proof.
  apply (pocklington 255515944373312847190720520512484175977 0 0 [(107590001, 1, 2); (7240687, 1, 2); (96557, 1, 2)]).
  - apply Forall_cons; [exact prime_107590001|]. apply Forall_cons; [exact prime_7240687|]. apply Forall_cons; [exact prime_96557|]. apply Forall_nil.
  - vm_compute. reflexivity.
Qed.
Lemma prime_205115282021455665897114700593932402728804164701536103180137503955397371 : prime 205115282021455665897114700593932402728804164701536103180137503955397371.
Proof.
  apply (pocklington 205115282021455665897114700593932402728804164701536103180137503955397371 256 4294968274 [(255515944373312847190720520512484175977, 1, 2)]).
  - apply Forall_cons; [exact prime_255515944373312847190720520512484175977|]. apply Forall_nil.
  - vm_compute. reflexivity.
Qed.
Lemma prime_p : prime p.
Proof.
  apply (pocklington p 256 4294968273 [(205115282021455665897114700593932402728804164701536103180137503955397371, 1, 2)]).
  - apply Forall_cons; [exact prime_205115282021455665897114700593932402728804164701536103180137503955397371|]. apply Forall_nil.
  - vm_compute. reflexivity.
Qed.
Lemma prime_1871 : prime 1871.
Proof. apply small_prime. vm_compute. reflexivity. Qed.
Lemma prime_1627771 : prime 1627771.
Proof.
  apply (pocklington 1627771 0 0 [(1871, 1, 2)]).
  - apply Forall_cons; [exact prime_1871|]. apply Forall_nil.
  - vm_compute. reflexivity.
Qed.
Lemma prime_297159362677 : prime 297159362677.
Proof.
  apply (pocklington 297159362677 0 0 [(1627771, 1, 2)]).
  - apply Forall_cons; [exact prime_1627771|]. apply Forall_nil.
  - vm_compute. reflexivity.
Qed.
Lemma prime_28181 : prime 28181.
Proof. apply small_prime. vm_compute. reflexivity. Qed.
Lemma prime_545358713 : prime 545358713.
Proof.
  apply (pocklington 545358713 0 0 [(28181, 1, 2)]).
  - apply Forall_cons; [exact prime_28181|]. apply Forall_nil.
  - vm_compute. reflexivity.
Qed.
Lemma prime_29047611873442575647497758179 : prime 29047611873442575647497758179.
Proof.
  apply (pocklington 29047611873442575647497758179 0 0 [(297159362677, 1, 2); (545358713, 1, 2)]).
  - apply Forall_cons; [exact prime_297159362677|]. apply Forall_cons; [exact prime_545358713|]. apply Forall_nil.
  - vm_compute. reflexivity.
Qed.
Lemma prime_341948486974166000522343609283189 : prime 341948486974166000522343609283189.
Proof.
  apply (pocklington 341948486974166000522343609283189 0 0 [(29047611873442575647497758179, 1, 2)]).
  - apply Forall_cons; [exact prime_29047611873442575647497758179|]. apply Forall_nil.
  - vm_compute. reflexivity.
Qed.
Lemma prime_9349 : prime 9349.
Proof. apply small_prime. vm_compute. reflexivity. Qed.
Lemma prime_44706919 : prime 44706919.
Proof.
  apply (pocklington 44706919 0 0 [(9349, 1, 2)]).
  - apply Forall_cons; [exact prime_9349|]. apply Forall_nil.
  - vm_compute. reflexivity.
Qed.
Lemma prime_120233 : prime 120233.
Proof. apply small_prime. vm_compute. reflexivity. Qed.
Lemma prime_174723607534414371449 : prime 174723607534414371449.
Proof.
  apply (pocklington 174723607534414371449 0 0 [(44706919, 1, 2); (120233, 1, 2)]).
  - apply Forall_cons; [exact prime_44706919|]. apply Forall_cons; [exact prime_120233|]. apply Forall_nil.
  - vm_compute. reflexivity.
Qed.
Lemma prime_n : prime n.
Proof.
  apply (pocklington n 256 432420386565659656852420866394968145599 [(341948486974166000522343609283189, 1, 2); (174723607534414371449, 1, 2)]).
  - apply Forall_cons; [exact prime_341948486974166000522343609283189|]. apply Forall_cons; [exact prime_174723607534414371449|]. apply Forall_nil.
  - vm_compute. reflexivity.
Qed.
