(** The conditions under which the NIZK verifier accepts: what a well-formed proof is, and
    the equations between points that it checks.  Each list [.._eqs] has, for every equation
    checked, one side minus the other.  [cs] are the challenges in the order in which the
    verifier draws them. *)
From Coq Require Import String List Arith Bool.
From Verif Require Import Base ListAux Field Vec PolyModel PolySpec R1csModel R1csSpec CommitModel SigmaModel CommitSpec SumModel NizkModel EvalSpec AgmSpec.
Import ListNotations.

Section Equations.
  Context {K : Fld} {G : Mod K} {E : Enc G}.
  Local Open Scope fld_scope.
  (** * form *)
  Definition decodes (e : E) : Prop := decompress E e <> None.
  Definition dp_wf (n : nat) (pf : dproof E) : Prop := length (dp_z pf) = n /\ decodes (dp_delta pf) /\ decodes (dp_beta pf).
  (** [n] rounds; more dot-product proofs than rounds are ignored *)
  Definition zk_wf (n d : nat) (pf : zkproof E) : Prop :=
    length (zk_polys pf) = n /\ length (zk_evals pf) = n /\ (n <= length (zk_proofs pf))%nat /\
    Forall decodes (zk_polys pf) /\ Forall decodes (zk_evals pf) /\ Forall (dp_wf (d + 1)) (firstn n (zk_proofs pf)).
  (** [k] halvings *)
  Definition lp_wf (k : nat) (pf : lproof E) : Prop :=
    length (bp_L (lp_bullet pf)) = k /\ Forall decodes (bp_L (lp_bullet pf)) /\ Forall decodes (bp_R (lp_bullet pf)) /\
    decodes (lp_delta pf) /\ decodes (lp_beta pf).
  (** the challenges that replace the variables in [n] rounds, each the first of four *)
  Fixpoint round_point (n : nat) (cs : list K) : list K :=
    match n with O => [] | S n' => nth 0 cs 0 :: round_point n' (skipn 4 cs) end.
  Definition nizk_wf (a b : nat) (I : r1cs K) (input : list K) (pf : nizk E) (cs : list K) : Prop :=
    let p := nz_proof pf in let k := (b - b / 2)%nat in
    let '(Az, Bz, Cz, Pr) := rp_claims p in
    let cs1 := skipn (a + 4 * a) cs in let cs2 := skipn (6 + 4 * S b) cs1 in
    length input = rc_inputs I /\ (1 <= a)%nat /\ (k < 32)%nat /\
    (2 ^ (b / 2) <= length (rp_comm_vars p))%nat /\ Forall decodes (rp_comm_vars p) /\
    zk_wf a 3 (rp_sc1 p) /\ zk_wf (S b) 2 (rp_sc2 p) /\ lp_wf k (rp_eval p) /\
    (decodes Az /\ decodes Bz /\ decodes Cz /\ decodes Pr) /\
    (decodes (kp_alpha (rp_pok p)) /\ decodes (pp_alpha (rp_prod p)) /\ decodes (pp_beta (rp_prod p)) /\ decodes (pp_delta (rp_prod p)) /\
     decodes (ep_alpha (rp_eq1 p)) /\ decodes (ep_alpha (rp_eq2 p)) /\ decodes (rp_comm_ry p)) /\
    (forall u, In u (firstn k (skipn 1 cs2)) -> u <> 0) /\
    nz_rx pf = round_point a (skipn a cs) /\ nz_ry pf = round_point (S b) (skipn 6 cs1).

  (** * equations *)
  Definition minus (P Q : G) : G := gadd P (gopp Q).

  Definition kp_eqs (c : K) (pf : kproof E) (g : gens G) (C : E) : list G :=
    [minus (gadd (gmul c (point C)) (point (kp_alpha pf))) (ped1 g (kp_z1 pf) (kp_z2 pf))].
  Definition ep_eqs (c : K) (pf : eproof E) (g : gens G) (P1 P2 : G) : list G :=
    [minus (gadd (gmul c (minus P1 P2)) (point (ep_alpha pf))) (gmul (ep_z pf) (gh g))].
  Definition pp_eqs (c : K) (pf : pproof E) (g : gens G) (X Y Z : E) : list G :=
    let '(z1, z2, z3, z4, z5) := pp_z pf in
    [minus (gadd (point (pp_alpha pf)) (gmul c (point X))) (ped1 g z1 z2);
     minus (gadd (point (pp_beta pf)) (gmul c (point Y))) (ped1 g z3 z4);
     minus (gadd (point (pp_delta pf)) (gmul c (point Z))) (gadd (gmul z3 (point X)) (gmul z5 (gh g)))].
  Definition dp_eqs (c : K) (pf : dproof E) (g1 gN : gens G) (a : list K) (PX PY : G) : list G :=
    [minus (gadd (gmul c PX) (point (dp_delta pf))) (ped gN (dp_z pf) (dp_zdelta pf));
     minus (gadd (gmul c PY) (point (dp_beta pf))) (ped1 g1 (dot (dp_z pf) a) (dp_zbeta pf))].
  (** the rounds of a sum-check: the claim before the round and the value after it, combined
      with two challenges *)
  Fixpoint zk_eqs (cs : list K) (polys evals : list E) (proofs : list (dproof E)) (claim : G) (d : nat) (g1 gN : gens G) : list G :=
    match polys, evals, proofs with
    | P :: polys', e :: evals', pf :: proofs' =>
        dp_eqs (nth 3 cs 0) pf g1 gN (zk_vector (d + 1) (nth 0 cs 0) (nth 1 cs 0) (nth 2 cs 0)) (point P)
          (gadd (gmul (nth 1 cs 0) claim) (gmul (nth 2 cs 0) (point e))) ++
        zk_eqs (skipn 4 cs) polys' evals' proofs' (point e) d g1 gN
    | _, _, _ => []
    end.
  (** the logarithmic proof: [sval us i] is the product of the challenges, each inverted
      if the bit of [i] is zero (CommitSpec.v) *)
  Definition lp_eqs (r : K) (us : list K) (c : K) (pf : lproof E) (g : dgens G) (a : list K) (PX PY : G) : list G :=
    let s := tab (length a) (sval us) in
    let Gamma := gadd (lincomb (map (fun u => u * u) us) (map point (bp_L (lp_bullet pf))))
      (gadd (lincomb (map (fun u => finv u * finv u) us) (map point (bp_R (lp_bullet pf)))) (gadd PX (gmul r PY))) in
    [minus (gadd (gmul (dot a s) (gadd (gmul c Gamma) (point (lp_beta pf)))) (point (lp_delta pf)))
       (gadd (gmul (lp_z1 pf) (gadd (lincomb s (gG (dgN g))) (gmul (dot a s) (gmul r (nth 0 (gG (dg1 g)) g0))))) (gmul (lp_z2 pf) (gh (dg1 g))))].

  (** the whole proof, for [2^a] constraints and [2^b] variables: [a] challenges tau; the first
      sum-check; the three proofs about its claims; three challenges; the second sum-check; the
      opening of the witness commitment; the last equality *)
  Definition nizk_eqs (a b : nat) (I : r1cs K) (input : list K) (g : r1csgens G) (pf : nizk E) (cs : list K) : list G :=
    let p := nz_proof pf in let rx := nz_rx pf in let ry := nz_ry pf in
    let k := (b - b / 2)%nat in
    let '(Az, Bz, Cz, Pr) := rp_claims p in
    let cs1 := skipn (a + 4 * a) cs in let cs2 := skipn (6 + 4 * S b) cs1 in
    let rA := nth 3 cs1 0 in let rB := nth 4 cs1 0 in let rC := nth 5 cs1 0 in
    let '(L, R) := compute_factored_evals (tl ry) in
    let val M := mle (mat_table (triples (sM M)) (2 ^ a) (2 ^ S b)) (rx ++ ry) in
    let inp := mle ([1] ++ input ++ repeat 0 (2 ^ b - length input - 1)) (tl ry) in
    zk_eqs (skipn a cs) (zk_polys (rp_sc1 p)) (zk_evals (rp_sc1 p)) (zk_proofs (rp_sc1 p)) g0 3 (rg1 g) (rg4 g) ++
    kp_eqs (nth 0 cs1 0) (rp_pok p) (rg1 g) Cz ++
    pp_eqs (nth 1 cs1 0) (rp_prod p) (rg1 g) Az Bz Pr ++
    ep_eqs (nth 2 cs1 0) (rp_eq1 p) (rg1 g) (gmul (mle (eq_evals (firstn a cs)) rx) (minus (point Pr) (point Cz))) (point (last (zk_evals (rp_sc1 p)) Pr)) ++
    zk_eqs (skipn 6 cs1) (zk_polys (rp_sc2 p)) (zk_evals (rp_sc2 p)) (zk_proofs (rp_sc2 p))
      (lincomb [rA; rB; rC] [point Az; point Bz; point Cz]) 2 (rg1 g) (rg3 g) ++
    lp_eqs (nth 0 cs2 0) (firstn k (skipn 1 cs2)) (nth (1 + k) cs2 0) (rp_eval p) (rgpc g) R (lincomb L (map point (rp_comm_vars p))) (point (rp_comm_ry p)) ++
    ep_eqs (nth (2 + k) cs2 0) (rp_eq2 p) (rg1 g)
      (gmul (rA * val (rc_A I) + rB * val (rc_B I) + rC * val (rc_C I))
        (gadd (gmul (1 - nth 0 ry 0) (point (rp_comm_ry p))) (gmul (nth 0 ry 0) (ped1 (rg1 g) inp 0))))
      (point (last (zk_evals (rp_sc2 p)) Pr)).
End Equations.
