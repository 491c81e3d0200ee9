(** Model of packages/Spartan-secq/src/r1csproof.rs, of [NIZK] in lib.rs and of
    [SparsePolynomial] in sparse_mlpoly.rs. *)
From Coq Require Import String List Arith Bool.
From Verif Require Import Base Field Vec MathModel PolyModel R1csModel CommitModel SigmaModel SumModel.
Import ListNotations.

Section Nizk.
  Context {K : Fld} {G : Mod K} {E : Enc G}.
  Variable H : log E -> K.
  Local Open Scope fld_scope.
  Local Notation cmp := (CommitModel.compress E).

  (** * SparsePolynomial: sparse_mlpoly.rs:1563-1607.  [Z] lists (idx, val). *)
  Fixpoint sp_chi (a : list bool) (r : list K) (acc : K) : K :=
    match a, r with
    | b :: a', x :: r' => sp_chi a' r' (acc * (if b then x else 1 - x))
    | _, _ => acc
    end.
  (** sparse_mlpoly.rs:1583-1594 *)
  Definition compute_chi (a : list bool) (r : list K) : res K :=
    assert (Nat.eqb (length a) (length r)); Ok (sp_chi a r 1).
  (** sparse_mlpoly.rs:1597-1606 *)
  Definition sp_evaluate (num_vars : nat) (Z : list (nat * K)) (r : list K) : res K :=
    assert (Nat.eqb num_vars (length r));
    do vs <- mapM (fun '(i, v) => do c <- compute_chi (get_bits i (length r)) r; Ok (c * v)) Z;
    Ok (fsum vs).

  (** * r1csproof.rs:40-44 and 61-64, flattened *)
  Record r1csgens : Type := MkRG { rg1 : gens G; rg3 : gens G; rg4 : gens G; rgpc : dgens G }.
  (** r1csproof.rs:48-58 and 67-72; the label is the generator stream *)
  Definition r1csgens_new (num_vars : nat) (stream : nat -> G) : res r1csgens :=
    do l <- log_2 num_vars;
    do pc <- pcgens_new l stream;
    Ok (MkRG (dg1 pc) (gens_new 3 stream) (gens_new 4 stream) pc).

  (** r1csproof.rs:22-38 *)
  Record r1csproof : Type := MkRP {
    rp_comm_vars : list E; rp_sc1 : zkproof E; rp_claims : E * E * E * E; rp_pok : kproof E; rp_prod : pproof E;
    rp_eq1 : eproof E; rp_sc2 : zkproof E; rp_comm_ry : E; rp_eval : lproof E; rp_eq2 : eproof E }.

  (** r1csproof.rs:76-109 *)
  Definition prove_phase_one (num_rounds : nat) (tau Az Bz Cz : dense K) (g : r1csgens) (tr tape : log E) :=
    prove_cubic_additive H 0 0 num_rounds tau Az Bz Cz (fun a b c d => a * (b * c - d)) (rg1 g) (rg4 g) tr tape.
  (** r1csproof.rs:111-137 *)
  Definition prove_phase_two (num_rounds : nat) (claim blind : K) (z abc : dense K) (g : r1csgens) (tr tape : log E) :=
    prove_quad H claim blind num_rounds z abc (fun a b => a * b) (rg1 g) (rg3 g) tr tape.
  (** r1csproof.rs:175-183 *)
  Definition full_z (vars input : list K) : list K :=
    vars ++ [1] ++ input ++ repeat 0 (length vars - length input - 1).

  (** r1csproof.rs:143-348; the results are the proof, rx, ry, the transcript and the tape *)
  Definition r1cs_prove (I : r1cs K) (vars input : list K) (g : r1csgens) (tr tape : log E)
    : res (r1csproof * list K * list K * log E * log E) :=
    let tr := proto "R1CS proof" tr in
    assert (Nat.ltb (length input) (length vars));
    let tr := app_scalars "input" input tr in
    do poly_vars <- dense_new vars;
    do c <- poly_commit H poly_vars (rgpc g) (Some tape);
    let '(comm_vars, blinds_vars, tp) := c in
    do tape <- of_opt tp;
    let tr := app_commitment "poly_commitment" comm_vars tr in
    let z := full_z vars input in
    do num_rounds_x <- log_2 (rc_cons I);
    do num_rounds_y <- log_2 (length z);
    let '(tau, tr) := challenges H "challenge_tau" num_rounds_x tr in
    do poly_tau <- dense_new (eq_evals tau);
    do m <- r1cs_multiply_vec I (rc_cons I) (length z) z;
    let '(poly_Az, poly_Bz, poly_Cz) := m in
    do p1 <- prove_phase_one num_rounds_x poly_tau poly_Az poly_Bz poly_Cz g tr tape;
    let '(sc1, rx, ps1, fin1, blind_postsc1, tr, tape) := p1 in
    assert (forallb (fun p => Nat.eqb (dlen p) 1) ps1);
    do tau_claim <- idx fin1 0; do Az <- idx fin1 1; do Bz <- idx fin1 2; do Cz <- idx fin1 3;
    let '(Az_blind, tape) := random_scalar H "Az_blind" tape in
    let '(Bz_blind, tape) := random_scalar H "Bz_blind" tape in
    let '(Cz_blind, tape) := random_scalar H "Cz_blind" tape in
    let '(prod_blind, tape) := random_scalar H "prod_Az_Bz_blind" tape in
    do k <- kp_prove H (rg1 g) tr tape Cz Cz_blind;
    let '(pok, comm_Cz, tr, tape) := k in
    do q <- pp_prove H (rg1 g) tr tape Az Az_blind Bz Bz_blind (Az * Bz) prod_blind;
    let '(prod, comm_Az, comm_Bz, comm_prod, tr, tape) := q in
    let tr := app_point "comm_Az_claim" comm_Az tr in
    let tr := app_point "comm_Bz_claim" comm_Bz tr in
    let tr := app_point "comm_Cz_claim" comm_Cz tr in
    let tr := app_point "comm_prod_Az_Bz_claims" comm_prod tr in
    let blind_expected1 := tau_claim * (prod_blind - Cz_blind) in
    let claim_post1 := (Az * Bz - Cz) * tau_claim in
    do e1 <- ep_prove H (rg1 g) tr tape claim_post1 blind_expected1 claim_post1 blind_postsc1;
    let '(eq1, _, _, tr, tape) := e1 in
    let '(r_A, tr) := challenge H "challenege_Az" tr in
    let '(r_B, tr) := challenge H "challenege_Bz" tr in
    let '(r_C, tr) := challenge H "challenege_Cz" tr in
    let claim2 := r_A * Az + r_B * Bz + r_C * Cz in
    let blind2 := r_A * Az_blind + r_B * Bz_blind + r_C * Cz_blind in
    do t <- r1cs_eval_table I (rc_cons I) (length z) (eq_evals rx);
    let '(eA, eB, eC) := t in
    assert (Nat.eqb (length eA) (length eB));
    assert (Nat.eqb (length eA) (length eC));
    let abc := map2 fadd (map2 (fun a b => r_A * a + r_B * b) eA eB) (map (fmul r_C) eC) in
    do zp <- dense_new z; do abcp <- dense_new abc;
    do p2 <- prove_phase_two num_rounds_y claim2 blind2 zp abcp g tr tape;
    let '(sc2, ry, _, fin2, blind_postsc2, tr, tape) := p2 in
    assert (Nat.leb 1 (length ry));
    do eval_vars <- dense_evaluate poly_vars (tl ry);
    let '(blind_eval, tape) := random_scalar H "blind_eval" tape in
    do pe <- pe_prove H poly_vars (Some blinds_vars) (tl ry) eval_vars (Some blind_eval) (rgpc g) tr tape;
    let '(evalpf, comm_ry, tr, tape) := pe in
    do ry0 <- idx ry 0;
    do c0 <- idx fin2 0; do c1 <- idx fin2 1;
    let blind_evalZ := (1 - ry0) * blind_eval in
    let blind_expected2 := c1 * blind_evalZ in
    let claim_post2 := c0 * c1 in
    do e2 <- ep_prove H (dg1 (rgpc g)) tr tape claim_post2 blind_expected2 claim_post2 blind_postsc2;
    let '(eq2, _, _, tr, tape) := e2 in
    Ok (MkRP comm_vars sc1 (comm_Az, comm_Bz, comm_Cz, comm_prod) pok prod eq1 sc2 comm_ry evalpf eq2, rx, ry, tr, tape).

  (** r1csproof.rs:454-464: the constant and the inputs as a sparse polynomial *)
  Definition input_entries (input : list K) : list (nat * K) :=
    (0%nat, 1) :: map2 (fun i x => (i + 1, x)%nat) (seq 0 (length input)) input.

  (** r1csproof.rs:350-495; [?] turns every error into the error result *)
  Definition r1cs_verify (pf : r1csproof) (num_vars num_cons : nat) (input : list K) (evals : K * K * K) (tr : log E) (g : r1csgens)
    : res (list K * list K * log E) :=
    let tr := proto "R1CS proof" tr in
    let tr := app_scalars "input" input tr in
    let tr := app_commitment "poly_commitment" (rp_comm_vars pf) tr in
    do num_rounds_x <- log_2 num_cons;
    do num_rounds_y <- log_2 (2 * num_vars)%nat;
    let '(tau, tr) := challenges H "challenge_tau" num_rounds_x tr in
    do claim1 <- commit1 0 0 (rg1 g);
    do v1 <- zk_verify H (rp_sc1 pf) (cmp claim1) num_rounds_x 3 (rg1 g) (rg4 g) tr;
    let '(comm_post1, rx, tr) := v1 in
    let '(comm_Az, comm_Bz, comm_Cz, comm_prod) := rp_claims pf in
    do tr <- kp_verify H (rp_pok pf) (rg1 g) tr comm_Cz;
    do tr <- pp_verify H (rp_prod pf) (rg1 g) tr comm_Az comm_Bz comm_prod;
    let tr := app_point "comm_Az_claim" comm_Az tr in
    let tr := app_point "comm_Bz_claim" comm_Bz tr in
    let tr := app_point "comm_Cz_claim" comm_Cz tr in
    let tr := app_point "comm_prod_Az_Bz_claims" comm_prod tr in
    assert (Nat.leb (length rx) (length tau));
    let taus := fprod (map2 (fun x t => x * t + (1 - x) * (1 - t)) rx tau) in
    do Pp <- unpack comm_prod; do Pc <- unpack comm_Cz;
    let expected1 := cmp (gmul taus (gadd Pp (gopp Pc))) in
    do tr <- ep_verify H (rp_eq1 pf) (rg1 g) tr expected1 comm_post1;
    let '(r_A, tr) := challenge H "challenege_Az" tr in
    let '(r_B, tr) := challenge H "challenege_Bz" tr in
    let '(r_C, tr) := challenge H "challenege_Cz" tr in
    do Pa <- unpack comm_Az; do Pb <- unpack comm_Bz; do Pc <- unpack comm_Cz;
    do claim2 <- msm [r_A; r_B; r_C] [Pa; Pb; Pc];
    do v2 <- zk_verify H (rp_sc2 pf) (cmp claim2) num_rounds_y 2 (rg1 g) (rg3 g) tr;
    let '(comm_post2, ry, tr) := v2 in
    assert (Nat.leb 1 (length ry));
    do tr <- pe_verify H (rp_eval pf) (rgpc g) tr (tl ry) (rp_comm_ry pf) (rp_comm_vars pf);
    do ln <- log_2 num_vars;
    do input_eval <- sp_evaluate ln (input_entries input) (tl ry);
    do ry0 <- idx ry 0;
    do Pv <- unpack (rp_comm_ry pf);
    do Pi <- commit1 input_eval 0 (dg1 (rgpc g));
    do commZ <- msm [1 - ry0; ry0] [Pv; Pi];
    let '(eA, eB, eC) := evals in
    let expected2 := cmp (gmul (r_A * eA + r_B * eB + r_C * eC) commZ) in
    do tr <- ep_verify H (rp_eq2 pf) (rg1 g) tr expected2 comm_post2;
    Ok (rx, ry, tr).

  (** * lib.rs:475-487: NIZKGens::new (num_cons is not used) *)
  Definition nizkgens_new (num_vars num_inputs : nat) (stream : nat -> G) : res r1csgens :=
    r1csgens_new (pad_vars num_vars num_inputs) stream.
  (** lib.rs:490-494 *)
  Record nizk : Type := MkNizk { nz_proof : r1csproof; nz_rx : list K; nz_ry : list K }.
  (** lib.rs:502-547; the digest is a byte string; [seed] is what the system's random
      generator returns to [RandomTape::new] *)
  Definition nizk_prove (I : instance K (list nat)) (vars input : list K) (g : r1csgens) (seed : K) (tr : log E) : res (nizk * log E) :=
    let tape := tape_new "proof" seed in
    let tr := proto "Spartan NIZK proof" tr in
    let tr := MRaw "R1CSInstanceDigest" (idigest I) :: tr in
    do pv <- (if Nat.ltb (length vars) (rc_vars (inst I)) then assignment_pad vars (rc_vars (inst I)) else Ok vars);
    do p <- r1cs_prove (inst I) pv input g tr tape;
    let '(pf, rx, ry, tr, _) := p in
    Ok (MkNizk pf rx ry, tr).
  (** equality of scalar vectors ([assert_eq!] on [Vec<Scalar>]) *)
  Fixpoint veqb (a b : list K) : bool :=
    match a, b with
    | [], [] => true
    | x :: a', y :: b' => feqb x y && veqb a' b'
    | _, _ => false
    end.
  (** lib.rs:550-587 *)
  Definition nizk_verify (pf : nizk) (I : instance K (list nat)) (input : list K) (tr : log E) (g : r1csgens) : res (log E) :=
    let tr := proto "Spartan NIZK proof" tr in
    let tr := MRaw "R1CSInstanceDigest" (idigest I) :: tr in
    do evals <- r1cs_evaluate (inst I) (nz_rx pf) (nz_ry pf);
    assert (Nat.eqb (length input) (rc_inputs (inst I)));
    do v <- r1cs_verify (nz_proof pf) (rc_vars (inst I)) (rc_cons (inst I)) input evals tr g;
    let '(rx, ry, tr) := v in
    assert (veqb rx (nz_rx pf));
    assert (veqb ry (nz_ry pf));
    Ok tr.
End Nizk.
Arguments r1csproof {K G} E.
Arguments r1csgens {K} G.
Arguments nizk {K G} E.
