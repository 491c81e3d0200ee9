(** Common vocabulary: outcomes of a Rust call, and list helpers.
    Nothing here models a particular file of the repository except the error
    enumeration. *)
From Coq Require Import List Arith Lia Bool.
Import ListNotations.

(** The error values of packages/Spartan-secq/src/errors.rs:4-32
    ([ProofVerifyError] and [R1CSError]), in one type; and [OtherErr] for
    [io::Error] of the circom readers. *)
Inductive err : Type :=
| InternalError | DecompressionError
| NonPowerOfTwoCons | NonPowerOfTwoVars
| InvalidNumberOfInputs | InvalidNumberOfVars
| InvalidScalar | InvalidIndex
| OtherErr.

(** Outcome of a Rust call: normal return, [Err], or a panic
    (failed [assert!], [unwrap] on none, index out of range, ...). *)
Inductive res (A : Type) : Type :=
| Ok (a : A)
| Err (e : err)
| Panic.
Arguments Ok {A} a.
Arguments Err {A} e.
Arguments Panic {A}.

Definition bind {A B} (x : res A) (f : A -> res B) : res B :=
  match x with Ok a => f a | Err e => Err e | Panic => Panic end.
Notation "'do' x <- e ; f" := (bind e (fun x => f))
  (at level 200, x pattern, e at level 100, f at level 200).
Notation "'assert' b ; f" := (if (b : bool) then f else Panic)
  (at level 200, b at level 100, f at level 200).

Definition of_opt {A} (o : option A) : res A :=
  match o with Some a => Ok a | None => Panic end.

(** Indexing [v[i]]: out of range panics. *)
Definition idx {A} (l : list A) (i : nat) : res A := of_opt (nth_error l i).

Definition is_ok {A} (x : res A) : bool := match x with Ok _ => true | _ => false end.

(** [v[i] = a] on a list; no effect when out of range (callers check). *)
Fixpoint upd {A} (l : list A) (i : nat) (a : A) : list A :=
  match l, i with
  | [], _ => []
  | _ :: t, O => a :: t
  | x :: t, S i' => x :: upd t i' a
  end.

Fixpoint map2 {A B C} (f : A -> B -> C) (l : list A) (m : list B) : list C :=
  match l, m with
  | a :: l', b :: m' => f a b :: map2 f l' m'
  | _, _ => []
  end.

(** sequence of outcomes *)
Fixpoint mapM {A B} (f : A -> res B) (l : list A) : res (list B) :=
  match l with
  | [] => Ok []
  | a :: t => do b <- f a; do bs <- mapM f t; Ok (b :: bs)
  end.

(** powers of two, as in [usize::next_power_of_two] (0 and 1 give 1). *)
Definition next_pow2 (n : nat) : nat := Nat.pow 2 (Nat.log2_up n).
Definition is_pow2 (n : nat) : bool := Nat.eqb n (next_pow2 n).
