(** Vocabulary for the properties of the curve library: the group of the points of secq256k1
    as a vector space over the field of [p] elements, with its encoding. *)
From Coq Require Import ZArith List Bool Eqdep_dec.
From Verif Require Import Base Primes Field Zq Limb LimbSpec CurveSpec Secq HashSpec HashModel SecqModel.
Import ListNotations.
Local Open Scope Z_scope.

(** the point a point of the code stands for *)
Definition pq (P : point) : option (Fn * Fn) := option_map fq2 P.
(** points the code can hold: canonical coordinates on the curve *)
Definition good (P : point) : Prop :=
  match P with None => True | Some (x, y) => reach SECQ x /\ reach SECQ y /\ on_curve secq (Some (fq x, fq y)) = true end.

(** the powers of [g] reach every number from 1 to [q - 1] *)
Definition generates (q g : Z) : Prop := forall x, 0 < x < q -> exists i, 0 <= i < q - 1 /\ g ^ i mod q = x.
(** [z] is a primitive [2^s]-th root of unity modulo [q], and [2^s] is the largest power of two
    dividing [q - 1]: the contract of [ff::PrimeField] *)
Definition two_adic_root (q s z : Z) : Prop :=
  (q - 1) mod 2 ^ s = 0 /\ (q - 1) mod 2 ^ (s + 1) <> 0 /\
  z ^ (2 ^ s) mod q = 1 /\ z ^ (2 ^ (s - 1)) mod q <> 1.
