(** Mathematical vocabulary for polynomials; independent of the code. *)
From Coq Require Import List Arith Bool.
From Verif Require Import Base Field Vec PolyModel.
Import ListNotations.

Section Spec.
  Variable K : Fld.
  Local Open Scope fld_scope.

  (** value at [x] of the polynomial with coefficients [cs], constant term first *)
  Definition peval (cs : list K) (x : K) : K := sumn (length cs) (fun i => nth i cs 0 * fpow x i).

  (** the product over j of r_j or 1 - r_j, by the j-th most significant of the
      [length r] bits of [i] *)
  Fixpoint chi (r : list K) (i : nat) : K :=
    match r with
    | [] => 1
    | x :: t => (if Nat.testbit i (length t) then x else 1 - x) * chi t i
    end.

  (** multilinear extension of the table [Z] (of length 2^(length r)) at [r] *)
  Definition mle (Z : list K) (r : list K) : K :=
    sumn (2 ^ length r) (fun i => nth i Z 0 * chi r i).

  (** the live part of a table some of whose variables are bound *)
  Definition live (d : dense K) : list K := firstn (dlen d) (dZ d).
  (** a well-formed polynomial: as many live entries as its variables say *)
  Definition dense_ok (d : dense K) : Prop :=
    dlen d = (2 ^ dnum_vars d)%nat /\ (dlen d <= length (dZ d))%nat.

  (** zero-padding of a list of tables or values to a power of two *)
  Definition pad_pow2 (l : list K) : list K := l ++ repeat 0 (next_pow2 (length l) - length l).
End Spec.
Arguments peval {K} cs x.
Arguments chi {K} r i.
Arguments mle {K} Z r.
Arguments live {K} d.
Arguments dense_ok {K} d.
Arguments pad_pow2 {K} l.
