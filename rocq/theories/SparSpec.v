(** Vocabulary for the memory-checking properties; independent of the code. *)
From Coq Require Import List Arith.
From Verif Require Import Base Field Vec PolyModel PolySpec R1csModel R1csSpec.
Import ListNotations.

(** how many of the accesses before number [j] are to the address of access [j] *)
Definition earlier (accs : list nat) (j : nat) : nat := count_occ Nat.eq_dec (firstn j accs) (nth j accs 0).
(** how many accesses are to [a] *)
Definition total (accs : list nat) (a : nat) : nat := count_occ Nat.eq_dec accs a.

(** a polynomial in [k] variables is opened with [half_up k] rounds of the dot-product argument;
    the three polynomials opened for [2^m] stored entries and [2^c] rows or columns *)
Definition half_up (k : nat) : nat := k - k / 2.
Definition openings (m c : nat) : nat := half_up (3 + m) + half_up (4 + m) + half_up (S c).

Section Spec.
  Context {K : Fld}.
  (** a stored matrix with [2^x] rows and [2^y] columns *)
  Definition shape (x y : nat) (P : sparse K) : Prop := snx P = x /\ sny P = y /\ ents_ok (2 ^ x) (2 ^ y) (sM P).
  (** the largest number of stored entries *)
  Definition max_entries (Ps : list (sparse K)) : nat := list_max (map (fun P => length (sM P)) Ps).
  (** the value of the multilinear extension of the matrix at (rx, ry) *)
  Definition mat_at (P : sparse K) (rx ry : list K) : K := mle (mat_table (triples (sM P)) (2 ^ length rx) (2 ^ length ry)) (rx ++ ry).
  (** three matrices that the evaluation proof is meant for: indexed by the two points, not all
      with fewer than two entries, and public generators sized for the largest number of entries *)
  Definition mats_ok (Ps : list (sparse K)) (rx ry : list K) (nz : nat) : Prop :=
    (forall P, In P Ps -> shape (length rx) (length ry) P) /\ (1 <= Nat.max (length rx) (length ry) <= 50)%nat /\
    (2 <= max_entries Ps)%nat /\ next_pow2 nz = next_pow2 (max_entries Ps) /\ (Nat.log2_up nz <= 50)%nat.
  Local Open Scope fld_scope.
  (** records of a memory whose cell number [a] always holds [nth a mem 0]: address, value and
      number of the version *)
  Definition at_start (mem : list K) : list (nat * K * nat) := map (fun a => (a, nth a mem 0, 0%nat)) (seq 0 (length mem)).
  Definition at_end (mem : list K) (accs : list nat) : list (nat * K * nat) := map (fun a => (a, nth a mem 0, total accs a)) (seq 0 (length mem)).
  Definition reads (mem : list K) (accs : list nat) : list (nat * K * nat) :=
    map (fun j => let a := nth j accs 0%nat in (a, nth a mem 0, earlier accs j)) (seq 0 (length accs)).
  Definition writes (mem : list K) (accs : list nat) : list (nat * K * nat) :=
    map (fun j => let a := nth j accs 0%nat in (a, nth a mem 0, S (earlier accs j))) (seq 0 (length accs)).
  (** the value by which a record enters the products *)
  Definition fingerprint (g t : K) (x : K * K * K) : K := let '(a, v, s) := x in s * (g * g) + v * g + a - t.
  Definition fpr (g t : K) (x : nat * K * nat) : K := let '(a, v, s) := x in fingerprint g t (of_nat a, v, of_nat s).
End Spec.
