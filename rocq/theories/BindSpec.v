(** Vocabulary for the statements about what a transcript determines: the points a prover
    sends before it is challenged on them. *)
From Coq Require Import String List Arith Bool.
From Verif Require Import Base Field Vec CommitModel SigmaModel SumModel NizkModel.
Import ListNotations.

Section BindSpec.
  Context {K : Fld} {G : Mod K} {E : Enc G}.
  Definition dp_points (p : dproof E) : E * E := (dp_delta p, dp_beta p).
  Definition pp_points (p : pproof E) : E * E * E := (pp_alpha p, pp_beta p, pp_delta p).
  (** every round sends a commitment to its polynomial, one to its value, and the two points of its
      dot-product proof *)
  Definition zk_points (p : zkproof E) : list E * list E * list (E * E) :=
    (zk_polys p, zk_evals p, map dp_points (firstn (length (zk_polys p)) (zk_proofs p))).
  (** the points of the logarithmic proof; of [R] only as many as there are in [L] *)
  Definition lp_points (p : lproof E) : list E * list E * E * E :=
    (bp_L (lp_bullet p), firstn (length (bp_L (lp_bullet p))) (bp_R (lp_bullet p)), lp_delta p, lp_beta p).
  Definition nizk_points (p : nizk E) :=
    let q := nz_proof p in
    (rp_comm_vars q, zk_points (rp_sc1 q), rp_claims q, (kp_alpha (rp_pok q), pp_points (rp_prod q), ep_alpha (rp_eq1 q)),
     zk_points (rp_sc2 q), (rp_comm_ry q, lp_points (rp_eval q), ep_alpha (rp_eq2 q))).
End BindSpec.
