(** Vocabulary for the sum-check properties; independent of the code. *)
From Coq Require Import List Arith Bool.
From Verif Require Import Base Field Vec PolyModel PolySpec.
Import ListNotations.

Section Spec.
  Variable K : Fld.
  Local Open Scope fld_scope.

  (** the sum of [f] over all points of the [n]-dimensional hypercube *)
  Fixpoint hsum (n : nat) (f : list K -> K) : K :=
    match n with
    | O => f []
    | S n' => hsum n' (fun b => f (0 :: b)) + hsum n' (fun b => f (1 :: b))
    end.
  (** [f], a function of [n] variables, is a polynomial of degree at most [d] in each
      variable when the others are fixed *)
  Definition deg_each (d n : nat) (f : list K -> K) : Prop :=
    forall pre post, (length pre + S (length post) = n)%nat ->
      exists cs, (length cs <= S d)%nat /\ forall x, f (pre ++ x :: post) = peval cs x.
  (** the coefficients are not all zero *)
  Definition nonzero (cs : list K) : Prop := exists c, In c cs /\ c <> 0.
  (** [comb], a function of [m] values, is a polynomial of degree at most [d] along
      every line (the condition under which interpolation from d+1 points is exact) *)
  Definition line_deg (d m : nat) (comb : list K -> K) : Prop :=
    forall lo hi, length lo = m -> length hi = m ->
      exists cs, length cs = S d /\ forall t, comb (map2 (fun l h => l + t * (h - l)) lo hi) = peval cs t.
  (** sum over a family of tables of the combination of their entries *)
  Definition table_sum (comb : list K -> K) (n : nat) (tabs : list (list K)) : K :=
    sumn (2 ^ n) (fun i => comb (map (fun T => nth i T 0) tabs)).
End Spec.
Arguments hsum {K} n f.
Arguments deg_each {K} d n f.
Arguments nonzero {K} cs.
Arguments line_deg {K} d m comb.
Arguments table_sum {K} comb n tabs.
