(** Vocabulary for the statements about the SNARK; independent of the code. *)
From Coq Require Import List Arith.
From Verif Require Import Base.
Import ListNotations.

(** how many entries are kept for a matrix given as a list of [l] entries: the list, and for a
    single constraint at least two *)
Definition stored (nc l : nat) : nat := if Nat.eqb nc 1 then Nat.max l 2 else l.
(** the largest number of kept entries *)
Definition most_entries {T : Type} (nc : nat) (A B C : list T) : nat := list_max [stored nc (length A); stored nc (length B); stored nc (length C)].
(** an instance size the SNARK is meant for, with public parameters made for [nz] entries *)
Definition snark_size {T : Type} (nc b : nat) (A B C : list T) (nz : nat) : Prop :=
  (1 <= nc /\ Nat.log2_up nc <= 50 /\ b < 50 /\ 2 <= most_entries nc A B C /\ next_pow2 nz = next_pow2 (most_entries nc A B C) /\ Nat.log2_up nz <= 50)%nat.
