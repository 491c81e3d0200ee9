(** Vocabulary of the theorems about serialization: the values whose lengths and numbers
    are below [word], the number of values of a [usize].  Every value of the Rust types
    satisfies this; lists and natural numbers in the model are unbounded. *)
From Coq Require Import ZArith List Bool.
From Verif Require Import Base Primes Field Zq R1csModel CommitModel SigmaModel SumModel NizkModel.
Import ListNotations.
Local Open Scope Z_scope.

Section BinSpec.
  Context {G : Mod Fp} {E : Enc G}.
  Variable word : Z.
  Definition small (k : nat) : Prop := Z.of_nat k < word.
  Definition short {A} (l : list A) : Prop := small (length l).
  Definition zk_fits (x : zkproof E) : Prop :=
    short (zk_polys x) /\ short (zk_evals x) /\ short (zk_proofs x) /\ Forall (fun d => short (dp_z d)) (zk_proofs x).
  Definition nizk_fits (x : nizk E) : Prop :=
    let y := nz_proof x in
    short (rp_comm_vars y) /\ zk_fits (rp_sc1 y) /\ zk_fits (rp_sc2 y) /\
    short (bp_L (lp_bullet (rp_eval y))) /\ short (bp_R (lp_bullet (rp_eval y))) /\ short (nz_rx x) /\ short (nz_ry x).
  Definition sparse_fits (x : sparse Fp) : Prop :=
    small (snx x) /\ small (sny x) /\ short (sM x) /\ Forall (fun e => small (erow e) /\ small (ecol e)) (sM x).
  Definition instance_fits (x : instance Fp (list nat)) : Prop :=
    small (rc_cons (inst x)) /\ small (rc_vars (inst x)) /\ small (rc_inputs (inst x)) /\
    sparse_fits (rc_A (inst x)) /\ sparse_fits (rc_B (inst x)) /\ sparse_fits (rc_C (inst x)) /\
    short (idigest x) /\ Forall (fun b => (b < 256)%nat) (idigest x).
End BinSpec.
(** the bytes of a point: fewer than [word], and parsing gives the point back *)
Definition point_codec {G : Mod Fp} {E : Enc G} (word : Z) (point_bytes : E -> list Z) (point_parse : list Z -> option E) : Prop :=
  forall P, point_parse (point_bytes P) = Some P /\ Z.of_nat (length (point_bytes P)) < word.
