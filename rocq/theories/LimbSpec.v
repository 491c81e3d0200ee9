(** Specification vocabulary for the limb arithmetic: what an API user sees. *)
From Coq Require Import ZArith List.
From Verif Require Import Base Limb.
Import ListNotations.
Local Open Scope Z_scope.

(** a machine word, a byte string *)
Definition u64 (x : Z) : Prop := 0 <= x < B64.
Definition bytes_ok (bs : list Z) : Prop := Forall (fun b => 0 <= b < 256) bs.

(** the canonical integer of an element: the little-endian value of the bytes
    that [to_bytes] returns *)
Definition fint (P : params) (a : fe) : Z := of_le (to_bytes P a).
(* conversion should unfold [fint] before anything below it *)
Strategy expand [fint].

(** the integer of a list of 64-bit words, least significant first *)
Fixpoint of_words (ws : list Z) : Z :=
  match ws with [] => 0 | w :: t => w + B64 * of_words t end.

(** Elements a program can obtain through the public constructors and operations. *)
Inductive reach (P : params) : fe -> Prop :=
| reach_zero : reach P zero
| reach_one : reach P (one P)
| reach_from_bytes bs a : length bs = 32%nat -> bytes_ok bs -> from_bytes P bs = Some a -> reach P a
| reach_wide bs : length bs = 64%nat -> bytes_ok bs -> reach P (from_bytes_wide P bs)
| reach_raw a b c d : u64 a -> u64 b -> u64 c -> u64 d -> reach P (from_raw P a b c d)
| reach_u64 v : u64 v -> reach P (from_u64 P v)
| reach_random a b c d e f g h : u64 a -> u64 b -> u64 c -> u64 d -> u64 e -> u64 f -> u64 g -> u64 h ->
    reach P (random P a b c d e f g h)
| reach_deser bs a : bytes_ok bs -> visit_seq P bs = Ok a -> reach P a
| reach_add a b : reach P a -> reach P b -> reach P (add P a b)
| reach_sub a b : reach P a -> reach P b -> reach P (sub P a b)
| reach_mul a b : reach P a -> reach P b -> reach P (mul P a b)
| reach_neg a : reach P a -> reach P (neg P a)
| reach_square a : reach P a -> reach P (square P a)
| reach_double a : reach P a -> reach P (double P a)
| reach_pow a e : reach P a -> Forall u64 e -> reach P (pow P a e).

(** contract of the big-integer modular inverse (crate num-bigint-dig) *)
Definition modinv_ok (q : Z) (f : Z -> option Z) : Prop :=
  forall x, 0 <= x < q ->
    match f x with
    | Some v => 0 <= v < q /\ (x * v) mod q = 1
    | None => x = 0
    end.

(** contract of the square root of crate k256 on canonical integers *)
Definition ksqrt_ok (q : Z) (f : Z -> option Z) : Prop :=
  forall x, 0 <= x < q ->
    match f x with
    | Some v => 0 <= v < q /\ (v * v) mod q = x
    | None => forall y, (y * y) mod q <> x
    end.
