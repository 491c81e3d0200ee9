(** Model of the SNARK of packages/Spartan-secq/src/lib.rs and of the commitment to an
    instance in packages/Spartan-secq/src/r1csinstance.rs. *)
From Coq Require Import String List Arith Bool.
From Verif Require Import Base Field Vec MathModel PolyModel CommitModel SigmaModel SumModel R1csModel NizkModel SparModel.
Import ListNotations.

Section Snark.
  Context {K : Fld} {G : Mod K} {E : Enc G}.
  Variable H : log E -> K.
  Local Open Scope fld_scope.

  (** r1csinstance.rs:29-47 *)
  Definition cgens_new (num_cons num_vars num_inputs nz : nat) (stream : nat -> G) : res (@sgens K G) :=
    assert (Nat.ltb num_inputs num_vars);
    do x <- log_2 num_cons;
    do y <- log_2 (2 * num_vars);
    sgens_new x y nz 3 stream.
  (** r1csinstance.rs:49-55 *)
  Record rcomm : Type := MkRC { cm_cons : nat; cm_vars : nat; cm_inputs : nat; cm_comm : @scomm K G E }.
  (** r1csinstance.rs:57-64 *)
  Definition app_rcomm (c : rcomm) (tr : log E) : log E :=
    app_scomm (cm_comm c) (MNat "num_inputs" (cm_inputs c) :: MNat "num_vars" (cm_vars c) :: MNat "num_cons" (cm_cons c) :: tr).
  (** r1csinstance.rs:304-318 *)
  Definition r1cs_commit (I : r1cs K) (g : @sgens K G) : res (rcomm * @mdense K) :=
    do c <- multi_commit H [rc_A I; rc_B I; rc_C I] g;
    let '(comm, d) := c in
    Ok (MkRC (rc_cons I) (rc_vars I) (rc_inputs I) comm, d).

  (** lib.rs:280-283 *)
  Record snarkgens : Type := MkSnG { sn_sat : r1csgens G; sn_eval : @sgens K G }.
  (** lib.rs:285-310; [ssat] and [seval] are the points derived from the two labels; the number
      of constraints is used as given, the number of variables is padded *)
  Definition snarkgens_new (num_cons num_vars num_inputs nz : nat) (ssat seval : nat -> G) : res snarkgens :=
    let nvp := pad_vars num_vars num_inputs in
    do g1 <- r1csgens_new nvp ssat;
    do g2 <- cgens_new num_cons nvp num_inputs nz seval;
    Ok (MkSnG g1 g2).
  (** lib.rs:314-318 *)
  Record snark : Type := MkSnark { sn_proof : r1csproof E; sn_evals : K * K * K; sn_evalproof : @sproof K G E }.
  (** lib.rs:325-338 *)
  Definition snark_encode (I : instance K (list nat)) (g : snarkgens) : res (rcomm * @mdense K) := r1cs_commit (inst I) (sn_eval g).
  (** lib.rs:340-421; serialising the two proofs to print their lengths is left out: it has no
      effect and, by C61, cannot fail *)
  Definition snark_prove (I : instance K (list nat)) (comm : rcomm) (d : @mdense K) (vars input : list K) (g : snarkgens) (seed : K) (tr : log E)
    : res (snark * log E) :=
    let tape := tape_new "proof" seed in
    let tr := proto "Spartan SNARK proof" tr in
    let tr := app_rcomm comm tr in
    do pv <- (if Nat.ltb (length vars) (rc_vars (inst I)) then assignment_pad vars (rc_vars (inst I)) else Ok vars);
    do p <- r1cs_prove H (inst I) pv input (sn_sat g) tr tape;
    let '(pf, rx, ry, tr, tape) := p in
    do evals <- r1cs_evaluate (inst I) rx ry;
    let '(eA, eB, eC) := evals in
    let tr := app_scalar "Cr_claim" eC (app_scalar "Br_claim" eB (app_scalar "Ar_claim" eA tr)) in
    do q <- spar_prove H d rx ry [eA; eB; eC] (sn_eval g) tr tape;
    let '(ep, tr, _) := q in
    Ok (MkSnark pf evals ep, tr).
  (** lib.rs:424-465 *)
  Definition snark_verify (pf : snark) (comm : rcomm) (input : list K) (tr : log E) (g : snarkgens) : res (log E) :=
    let tr := proto "Spartan SNARK proof" tr in
    let tr := app_rcomm comm tr in
    assert (Nat.eqb (length input) (cm_inputs comm));
    do v <- r1cs_verify H (sn_proof pf) (cm_vars comm) (cm_cons comm) input (sn_evals pf) tr (sn_sat g);
    let '(rx, ry, tr) := v in
    let '(eA, eB, eC) := sn_evals pf in
    let tr := app_scalar "Cr_claim" eC (app_scalar "Br_claim" eB (app_scalar "Ar_claim" eA tr)) in
    spar_verify H (sn_evalproof pf) (cm_comm comm) rx ry [eA; eB; eC] (sn_eval g) tr.
End Snark.
