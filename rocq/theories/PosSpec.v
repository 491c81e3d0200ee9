(** Vocabulary of the theorems about Poseidon and Merkle trees. *)
From Coq Require Import ZArith List Bool.
From Verif Require Import Base Field.
Import ListNotations.
Local Open Scope fld_scope.

(** The Poseidon permutation of width 3 with S-box x^5 (Grassi et al.): rf/2 full
    rounds, rp partial rounds, rf/2 full rounds; round r adds the constants
    C (3r), C (3r+1), C (3r+2), applies the S-box to every element (full) or to the
    first one (partial), and multiplies by the matrix M. *)
Section Poseidon.
  Context {K : Fld}.
  Variables (C : nat -> K) (M : nat -> nat -> K).
  Definition vec3 : Type := (K * K * K)%type.
  Definition ark (r : nat) (v : vec3) : vec3 :=
    let '(a, b, c) := v in (a + C (3 * r)%nat, b + C (3 * r + 1)%nat, c + C (3 * r + 2)%nat).
  Definition quint (x : K) : K := x * x * x * x * x.
  Definition sub_all (v : vec3) : vec3 := let '(a, b, c) := v in (quint a, quint b, quint c).
  Definition sub_one (v : vec3) : vec3 := let '(a, b, c) := v in (quint a, b, c).
  Definition mix (v : vec3) : vec3 :=
    let '(a, b, c) := v in
    let row i := M i 0%nat * a + M i 1%nat * b + M i 2%nat * c in (row 0%nat, row 1%nat, row 2%nat).
  Definition is_full (half rp r : nat) : bool := (r <? half)%nat || (half + rp <=? r)%nat.
  Definition pround (half rp r : nat) (v : vec3) : vec3 :=
    mix ((if is_full half rp r then sub_all else sub_one) (ark r v)).
  (** the first n rounds *)
  Fixpoint prounds (half rp n : nat) (v : vec3) : vec3 :=
    match n with O => v | S n' => pround half rp n' (prounds half rp n' v) end.
  Definition poseidon_perm (half rp : nat) : vec3 -> vec3 := prounds half rp (half + rp + half).
  (** two-to-one hash with domain tag 3 = 2^2 - 1 *)
  Definition poseidon (half rp : nat) (x y : K) : K :=
    snd (fst (poseidon_perm half rp (1 + 1 + 1, x, y))).
End Poseidon.
Arguments vec3 : clear implicits.

(** Merkle trees *)
Section Tree.
  Context {A : Type}.
  Variable H : A -> A -> A.
  (** the node number i at height d of the perfect binary tree over the leaves *)
  Fixpoint node (leaves : nat -> A) (d i : nat) : A :=
    match d with
    | O => leaves i
    | S d' => H (node leaves d' (2 * i)) (node leaves d' (2 * i + 1))
    end.
  (** the number with the given binary digits, least significant first *)
  Fixpoint index_of (bits : list bool) : nat :=
    match bits with [] => 0%nat | b :: t => (Nat.b2n b + 2 * index_of t)%nat end.
  (** the siblings of the path from leaf number i to the node at height d above it,
      starting at height h *)
  Fixpoint siblings (leaves : nat -> A) (h : nat) (bits : list bool) : list A :=
    match bits with
    | [] => []
    | b :: t => node leaves h (if b then 2 * index_of t else 2 * index_of t + 1) :: siblings leaves (S h) t
    end.
  (** the value obtained by hashing along a path: at every level the running value
      is the right child when the digit is 1 *)
  Fixpoint path_value (h : A) (bits : list bool) (sibs : list A) : A :=
    match bits, sibs with
    | b :: bt, s :: st => path_value (if b then H s h else H h s) bt st
    | _, _ => h
    end.
  (** the inputs of the hash calls made along a path *)
  Fixpoint path_inputs (h : A) (bits : list bool) (sibs : list A) : list (A * A) :=
    match bits, sibs with
    | b :: bt, s :: st => let i := if b then (s, h) else (h, s) in i :: path_inputs (H (fst i) (snd i)) bt st
    | _, _ => []
    end.
  (** two lists of hash inputs collide: at some position they differ and hash to the same
      value.  (Collisions of H always exist when there are more pairs than values, so the
      theorems say where one is found.) *)
  Definition collide (l l' : list (A * A)) : Prop :=
    exists u v, In (u, v) (combine l l') /\ u <> v /\ H (fst u) (snd u) = H (fst v) (snd v).
End Tree.

Definition bit_of {K : Fld} (b : bool) : K := if b then 1 else 0.
