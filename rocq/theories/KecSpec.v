(** Keccak-f[1600] and Keccak-256 as in FIPS 202 (sections 3.2 and 4, with the
    original Keccak padding and no domain suffix), and Ethereum addresses. *)
From Coq Require Import ZArith List Bool Arith.
Import ListNotations.

(** a state: the bit with coordinates x < 5, y < 5, z < 64 *)
Definition kstate : Type := nat -> nat -> nat -> bool.

(** 3.2.1 *)
Definition kC (A : kstate) (x z : nat) : bool :=
  xorb (A x 0 z) (xorb (A x 1 z) (xorb (A x 2 z) (xorb (A x 3 z) (A x 4 z)))).
Definition kD (A : kstate) (x z : nat) : bool := xorb (kC A ((x + 4) mod 5) z) (kC A ((x + 1) mod 5) ((z + 63) mod 64)).
Definition k_theta (A : kstate) : kstate := fun x y z => xorb (A x y z) (kD A x z).

(** 3.2.2: starting from (1, 0), step t rotates the lane by (t+1)(t+2)/2 and moves to
    (y, 2x+3y) *)
Fixpoint rho_at (fuel t x y X Y : nat) : nat :=
  match fuel with
  | O => 0
  | S f => if (x =? X) && (y =? Y) then (t + 1) * (t + 2) / 2 else rho_at f (t + 1) y ((2 * x + 3 * y) mod 5) X Y
  end.
Definition rho_offset (x y : nat) : nat := rho_at 24 0 1 0 x y.
Definition k_rho (A : kstate) : kstate := fun x y z => A x y ((z + (64 - rho_offset x y mod 64)) mod 64).

(** 3.2.3 *)
Definition k_pi (A : kstate) : kstate := fun x y z => A ((x + 3 * y) mod 5) x z.

(** 3.2.4 *)
Definition k_chi (A : kstate) : kstate := fun x y z =>
  xorb (A x y z) (andb (xorb (A ((x + 1) mod 5) y z) true) (A ((x + 2) mod 5) y z)).

(** 3.2.5: the linear feedback shift register and the round constants *)
Definition lfsr_step (R : list bool) : list bool :=
  let R := false :: R in
  let b := nth 8 R false in
  firstn 8 (map (fun i => if (i =? 0) || (i =? 4) || (i =? 5) || (i =? 6) then xorb (nth i R false) b else nth i R false) (seq 0 9)).
Definition k_rc (t : nat) : bool := nth 0 (Nat.iter (t mod 255) lfsr_step [true; false; false; false; false; false; false; false]) false.
Definition k_RC (r z : nat) : bool := existsb (fun j => (z =? 2 ^ j - 1) && k_rc (j + 7 * r)) (seq 0 7).
Definition k_iota (r : nat) (A : kstate) : kstate := fun x y z =>
  if (x =? 0) && (y =? 0) then xorb (A x y z) (k_RC r z) else A x y z.

Definition k_round (r : nat) (A : kstate) : kstate := k_iota r (k_chi (k_pi (k_rho (k_theta A)))).
Fixpoint k_rounds (n : nat) (A : kstate) : kstate := match n with O => A | S n' => k_round n' (k_rounds n' A) end.
Definition keccak_f : kstate -> kstate := k_rounds 24.

(** 3.1.2: strings as states *)
Definition of_string (S : list bool) : kstate := fun x y z => nth (64 * (5 * y + x) + z) S false.
Definition to_string (n : nat) (A : kstate) : list bool := map (fun i => A ((i / 64) mod 5) (i / 320) (i mod 64)) (seq 0 n).

(** the sponge with rate 1088 and padding 10*1 on a message that fits in one block,
    256 bits of output *)
Definition keccak256 (m : list bool) : list bool :=
  let padded := m ++ [true] ++ repeat false (1088 - 2 - length m) ++ [true] in
  to_string 256 (keccak_f (of_string (padded ++ repeat false 512))).

(** bytes: the bits of a byte string are those of its bytes, least significant first *)
Definition byte_bits (b : Z) : list bool := map (fun j => Z.testbit b (Z.of_nat j)) (seq 0 8).
Fixpoint bits_num (l : list bool) : Z := match l with [] => 0 | b :: t => Z.b2z b + 2 * bits_num t end.
Definition bytes_of_bits (n : nat) (l : list bool) : list Z := map (fun i => bits_num (firstn 8 (skipn (8 * i) l))) (seq 0 n).
(** big-endian numbers *)
Definition be_bytes (n : nat) (v : Z) : list Z := map (fun i => (v / 256 ^ Z.of_nat (n - 1 - i)) mod 256)%Z (seq 0 n).
Definition be_num (l : list Z) : Z := fold_left (fun a b => 256 * a + b)%Z l 0%Z.

(** the address of the key (X, Y): the last 20 bytes of the Keccak-256 digest of the 64
    big-endian key bytes *)
Definition eth_address (X Y : Z) : Z :=
  be_num (skipn 12 (bytes_of_bits 32 (keccak256 (flat_map byte_bits (be_bytes 32 X ++ be_bytes 32 Y))))).
