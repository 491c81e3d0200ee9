(** Vocabulary for the statements about the whole proof system. *)
From Coq Require Import String List Arith Bool.
From Verif Require Import Base Field Vec PolySpec R1csModel CommitModel SigmaModel CommitSpec SumModel NizkModel.
Import ListNotations.

Section NizkSpec.
  Context {K : Fld} {G : Mod K} {E : Enc G}.
  Local Open Scope fld_scope.
  (** proofs that consist of the encoding of the identity and of zeros *)
  Definition zero_dp (n : nat) : dproof E := let o := compress E g0 in MkDP o o (repeat 0 n) 0 0.
  Definition zero_zk (rounds n : nat) : zkproof E :=
    let o := compress E g0 in MkZK (repeat o rounds) (repeat o rounds) (repeat (zero_dp n) rounds).
  (** for [a] rounds over the constraints and [S b] over the variables; the commitment [Cry] and the two points are free *)
  Definition forged_nizk (a b : nat) (Cry : E) (rx ry : list K) : nizk E :=
    let o := compress E g0 in
    MkNizk (MkRP (repeat o (2 ^ (b / 2))) (zero_zk a 4) (o, o, o, o) (MkKP o 0 0) (MkPP o o o (0, 0, 0, 0, 0)) (MkEP o 0)
      (zero_zk (S b) 3) Cry (forged (b - b / 2)) (MkEP o 0)) rx ry.
  (** the same proof with another commitment to, and another proof of, the evaluation of the witness *)
  Definition with_eval (pf : nizk E) (c : E) (l : lproof E) : nizk E :=
    let p := nz_proof pf in
    MkNizk (MkRP (rp_comm_vars p) (rp_sc1 p) (rp_claims p) (rp_pok p) (rp_prod p) (rp_eq1 p) (rp_sc2 p) c l (rp_eq2 p)) (nz_rx pf) (nz_ry pf).
  Definition with_comm_ry (pf : nizk E) (c : E) : nizk E := with_eval pf c (rp_eval (nz_proof pf)).
  (** the same proof with another last scalar in the evaluation proof *)
  Definition with_z2 (pf : nizk E) (z : K) : nizk E :=
    let l := rp_eval (nz_proof pf) in
    with_eval pf (rp_comm_ry (nz_proof pf)) (MkLP (lp_bullet l) (lp_delta l) (lp_beta l) (lp_z1 l) z).
End NizkSpec.
