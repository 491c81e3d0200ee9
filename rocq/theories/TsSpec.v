(** Vocabulary of the theorems about the TypeScript library. *)
From Coq Require Import ZArith List Bool.
From Verif Require Import Base Primes Field Zq CurveSpec Secp CircSpec TsModel.
Import ListNotations.
Local Open Scope Z_scope.

(** big-endian numbers: the value of a byte string, and the string of k bytes of a value *)
Fixpoint be_value (b : list Z) : Z :=
  match b with [] => 0 | x :: t => x * 256 ^ Z.of_nat (length t) + be_value t end.
Fixpoint be_string (k : nat) (v : Z) : list Z :=
  match k with O => [] | S k' => (v / 256 ^ Z.of_nat k') mod 256 :: be_string k' v end.
Definition is_bytes (b : list Z) : Prop := Forall (fun x => 0 <= x < 256) b.
Definition u256 (v : Z) : Prop := 0 <= v < 2 ^ 256.

(** the values that fit the wire format *)
Definition cpi_fits (c : circuit_pub) : Prop :=
  u256 (cp_root c) /\ u256 (cp_Tx c) /\ u256 (cp_Ty c) /\ u256 (cp_Ux c) /\ u256 (cp_Uy c).
Definition pi_fits (x : public_input) : Prop := u256 (pi_r x) /\ 0 <= pi_rV x < 256 /\ cpi_fits (pi_circuit x).
(** the wire format *)
Definition cpi_wire (c : circuit_pub) : list Z :=
  be_string 32 (cp_root c) ++ be_string 32 (cp_Tx c) ++ be_string 32 (cp_Ty c) ++ be_string 32 (cp_Ux c) ++ be_string 32 (cp_Uy c).
Definition pi_wire (x : public_input) : list Z :=
  be_string 32 (pi_r x) ++ be_string 1 (pi_rV x) ++ cpi_wire (pi_circuit x) ++ pi_msgHash x.

(** the point R that (r, v) stands for: its x-coordinate is r modulo p and its
    y-coordinate is odd exactly when v - 27 is *)
Definition nonce_point (r v : Z) (R : Fp * Fp) : Prop :=
  on_secp (Some R) /\ zval (fst R) = r mod p /\ Z.odd (zval (snd R)) = Z.odd (v - 27).
(** T = r^-1 R and U = -(m r^-1) G (CircSpec.v) are affine points with the given coordinates *)
Definition eff_inputs (r v m Tx Ty Ux Uy : Z) : Prop :=
  exists R ri T U, nonce_point r v R /\ (r * ri) mod n = 1 /\
    eff_T ri (Some R) = Some T /\ eff_U ri m = Some U /\
    Tx = zval (fst T) /\ Ty = zval (snd T) /\ Ux = zval (fst U) /\ Uy = zval (snd U).
(** the public input is consistent *)
Definition eff_of (x : public_input) : Prop :=
  eff_inputs (pi_r x) (pi_rV x) (be_value (pi_msgHash x))
    (cp_Tx (pi_circuit x)) (cp_Ty (pi_circuit x)) (cp_Ux (pi_circuit x)) (cp_Uy (pi_circuit x)).
