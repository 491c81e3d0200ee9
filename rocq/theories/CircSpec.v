(** Vocabulary of the theorems about the circuits. *)
From Coq Require Import ZArith List Bool.
From Verif Require Import Base Primes Field Zq CurveSpec Secp.
Import ListNotations.
Local Open Scope fld_scope.

(** the circuits write the point at infinity as (0, 0) (add.circom:42-44) *)
Definition enc {K : Fld} (P : option (K * K)) : K * K := match P with None => (0, 0) | Some a => a end.

(** points of the group generated by the secp256k1 base point, and the others of
    order n *)
Definition on_secp (P : option (Fp * Fp)) : Prop := on_curve secp P = true.
Definition secp_point (P : option (Fp * Fp)) : Prop := on_secp P /\ emul n P = None.

(** the pairs of points on which Secp256k1AddComplete goes wrong *)
Definition degenerate {K : Fld} (P Q : option (K * K)) : Prop :=
  fst (enc P) <> fst (enc Q) /\ snd (enc P) + snd (enc Q) = 1.

(** the little-endian bits of an integer as field elements *)
Definition zbits (n : nat) (v : Z) : list Fp := map (fun i => fp (Z.b2z (Z.testbit v (Z.of_nat i)))) (seq 0 n).

(** the interval of scalars for which the witness generator of K() loses a carry:
    the low half of 2n - 2^256 added to s overflows 128 bits *)
Definition carry_lost (s : Z) : Prop := (2 ^ 128 - (2 * n - 2 ^ 256) mod 2 ^ 128 <= s < 2 ^ 128)%Z.

(** the one 256-bit string for which the last addition of Secp256k1Mul is a doubling *)
Definition kfree : Z := (2 * n - 2 - 2 ^ 256)%Z.

(** the multiples (u, v) of P that Secp256k1Mul adds with Secp256k1AddComplete
    when its scalar bits are those of k: three double steps and the last addition *)
Definition tail_pairs (k : Z) : list (Z * Z) :=
  let a j := (2 * Z.shiftr (2 ^ 256 + k) j + 1)%Z in
  let e j := if Z.testbit k j then 1%Z else (-1)%Z in
  [(e 3, a 4); (a 4, a 4 + e 3); (e 2, a 3); (a 3, a 3 + e 2); (e 1, a 2); (a 2, a 2 + e 1);
   (a 1, if Z.testbit k 0 then 0 else -1)]%Z.
Definition tail_ok (k : Z) (P : option (Fp * Fp)) : Prop :=
  forall u v, In (u, v) (tail_pairs k) -> ~ degenerate (emul u P) (emul v P).

(** a division that is right whenever it is defined *)
Definition division {K : Fld} (dv : K -> K -> K) : Prop := forall a b, b <> 0 -> dv a b * b = a.

(** ECDSA verification of (r, s) on message representative m for the key Q
    (SEC 1, 4.1.4) *)
Definition ecdsa_ok (Q : option (Fp * Fp)) (m r s : Z) : Prop :=
  (0 < r < n)%Z /\ (0 < s < n)%Z /\
  exists si x y, ((s * si) mod n = 1)%Z /\
    eadd (emul (m * si) base) (emul (r * si) Q) = Some (x, y) /\ (zval x mod n)%Z = r.

(** the efficient form: T = r^-1 R and U = -(m r^-1) G *)
Definition eff_T (ri : Z) (R : option (Fp * Fp)) : option (Fp * Fp) := emul ri R.
Definition eff_U (ri m : Z) : option (Fp * Fp) := emul (- (m * ri)) base.
