(** Model of packages/Spartan-secq/src/nizk/mod.rs: the sigma protocols and the
    logarithmic dot-product proof; and of nizk/bullet.rs. *)
From Coq Require Import String List Arith Bool.
From Verif Require Import Base Field Vec MathModel PolyModel CommitModel.
Import ListNotations.

Section Sigma.
  Context {K : Fld} {G : Mod K} {E : Enc G}.
  Variable H : log E -> K.
  Local Open Scope fld_scope.
  Local Notation cmp := (compress E).

  (** * KnowledgeProof: nizk/mod.rs:16-21 *)
  Record kproof : Type := MkKP { kp_alpha : E; kp_z1 : K; kp_z2 : K }.
  (** nizk/mod.rs:28-53 *)
  Definition kp_prove (g : gens G) (tr tape : log E) (x r : K) : res (kproof * E * log E * log E) :=
    let tr := proto "knowledge proof" tr in
    let '(t1, tape) := random_scalar H "t1" tape in
    let '(t2, tape) := random_scalar H "t2" tape in
    do C <- commit1 x r g; let C := cmp C in
    let tr := app_point "C" C tr in
    do alpha <- commit1 t1 t2 g; let alpha := cmp alpha in
    let tr := app_point "alpha" alpha tr in
    let '(c, tr) := challenge H "c" tr in
    Ok (MkKP alpha (x * c + t1) (r * c + t2), C, tr, tape).
  (** nizk/mod.rs:55-75 *)
  Definition kp_verify (pf : kproof) (g : gens G) (tr : log E) (C : E) : res (log E) :=
    let tr := proto "knowledge proof" tr in
    let tr := app_point "C" C tr in
    let tr := app_point "alpha" (kp_alpha pf) tr in
    let '(c, tr) := challenge H "c" tr in
    do l <- commit1 (kp_z1 pf) (kp_z2 pf) g;
    do Cg <- unpack C;
    do al <- unpack (kp_alpha pf);
    if eeqb E (cmp l) (cmp (gadd (gmul c Cg) al)) then Ok tr else Err InternalError.

  (** * EqualityProof: nizk/mod.rs:78-82 *)
  Record eproof : Type := MkEP { ep_alpha : E; ep_z : K }.
  (** nizk/mod.rs:89-117 *)
  Definition ep_prove (g : gens G) (tr tape : log E) (v1 s1 v2 s2 : K) : res (eproof * E * E * log E * log E) :=
    let tr := proto "equality proof" tr in
    let '(r, tape) := random_scalar H "r" tape in
    do C1 <- commit1 v1 s1 g; let C1 := cmp C1 in
    let tr := app_point "C1" C1 tr in
    do C2 <- commit1 v2 s2 g; let C2 := cmp C2 in
    let tr := app_point "C2" C2 tr in
    let alpha := cmp (gmul r (gh g)) in
    let tr := app_point "alpha" alpha tr in
    let '(c, tr) := challenge H "c" tr in
    Ok (MkEP alpha (c * (s1 - s2) + r), C1, C2, tr, tape).
  (** nizk/mod.rs:119-144 *)
  Definition ep_verify (pf : eproof) (g : gens G) (tr : log E) (C1 C2 : E) : res (log E) :=
    let tr := proto "equality proof" tr in
    let tr := app_point "C1" C1 tr in
    let tr := app_point "C2" C2 tr in
    let tr := app_point "alpha" (ep_alpha pf) tr in
    let '(c, tr) := challenge H "c" tr in
    do g1 <- unpack C1; do g2 <- unpack C2;
    let C := gadd g1 (gopp g2) in
    do al <- unpack (ep_alpha pf);
    let rhs := cmp (gadd (gmul c C) al) in
    let lhs := cmp (gmul (ep_z pf) (gh g)) in
    if eeqb E lhs rhs then Ok tr else Err InternalError.

  (** * ProductProof: nizk/mod.rs:147-153; [z: [Scalar; 5]] as a tuple *)
  Record pproof : Type := MkPP { pp_alpha : E; pp_beta : E; pp_delta : E; pp_z : K * K * K * K * K }.
  (** nizk/mod.rs:160-230 *)
  Definition pp_prove (g : gens G) (tr tape : log E) (x rX y rY z rZ : K) : res (pproof * E * E * E * log E * log E) :=
    let tr := proto "product proof" tr in
    let '(b1, tape) := random_scalar H "b1" tape in
    let '(b2, tape) := random_scalar H "b2" tape in
    let '(b3, tape) := random_scalar H "b3" tape in
    let '(b4, tape) := random_scalar H "b4" tape in
    let '(b5, tape) := random_scalar H "b5" tape in
    do X <- commit1 x rX g; let X := cmp X in
    let tr := app_point "X" X tr in
    do Y <- commit1 y rY g; let Y := cmp Y in
    let tr := app_point "Y" Y tr in
    do Z <- commit1 z rZ g; let Z := cmp Z in
    let tr := app_point "Z" Z tr in
    do alpha <- commit1 b1 b2 g; let alpha := cmp alpha in
    let tr := app_point "alpha" alpha tr in
    do beta <- commit1 b3 b4 g; let beta := cmp beta in
    let tr := app_point "beta" beta tr in
    do Xg <- unpack X;
    do delta <- commit1 b3 b5 (MkGens 1 [Xg] (gh g)); let delta := cmp delta in
    let tr := app_point "delta" delta tr in
    let '(c, tr) := challenge H "c" tr in
    Ok (MkPP alpha beta delta (b1 + c * x, b2 + c * rX, b3 + c * y, b4 + c * rY, b5 + c * (rZ - rX * y)), X, Y, Z, tr, tape).
  (** nizk/mod.rs:232-244 *)
  Definition pp_check (P X : E) (c : K) (g : gens G) (z1 z2 : K) : res bool :=
    do Pg <- unpack P; do Xg <- unpack X;
    do r <- commit1 z1 z2 g;
    Ok (eeqb E (cmp (gadd Pg (gmul c Xg))) (cmp r)).
  (** nizk/mod.rs:246-290; the three checks are joined by [&&] *)
  Definition pp_verify (pf : pproof) (g : gens G) (tr : log E) (X Y Z : E) : res (log E) :=
    let tr := proto "product proof" tr in
    let tr := app_point "X" X tr in
    let tr := app_point "Y" Y tr in
    let tr := app_point "Z" Z tr in
    let tr := app_point "alpha" (pp_alpha pf) tr in
    let tr := app_point "beta" (pp_beta pf) tr in
    let tr := app_point "delta" (pp_delta pf) tr in
    let '(z1, z2, z3, z4, z5) := pp_z pf in
    let '(c, tr) := challenge H "c" tr in
    do b1 <- pp_check (pp_alpha pf) X c g z1 z2;
    if b1 then
      do b2 <- pp_check (pp_beta pf) Y c g z3 z4;
      if b2 then
        do Xg <- unpack X;
        do b3 <- pp_check (pp_delta pf) Z c (MkGens 1 [Xg] (gh g)) z3 z5;
        if b3 then Ok tr else Err InternalError
      else Err InternalError
    else Err InternalError.

  (** * DotProductProof: nizk/mod.rs:293-300 *)
  Record dproof : Type := MkDP { dp_delta : E; dp_beta : E; dp_z : list K; dp_zdelta : K; dp_zbeta : K }.
  (** nizk/mod.rs:307-310 and 435-438 *)
  Definition compute_dotproduct (a b : list K) : res K :=
    assert (Nat.eqb (length a) (length b)); Ok (dot a b).
  (** nizk/mod.rs:312-371 *)
  Definition dp_prove (g1 gN : gens G) (tr tape : log E) (x_vec : list K) (blind_x : K) (a_vec : list K) (y blind_y : K)
    : res (dproof * E * E * log E * log E) :=
    let tr := proto "dot product proof" tr in
    assert (Nat.eqb (length x_vec) (length a_vec));
    assert (Nat.eqb (gn gN) (length a_vec));
    assert (Nat.eqb (gn g1) 1);
    let '(d_vec, tape) := random_vector H "d_vec" (length x_vec) tape in
    let '(r_delta, tape) := random_scalar H "r_delta" tape in
    let '(r_beta, tape) := random_scalar H "r_beta" tape in
    do Cx <- commit x_vec blind_x gN; let Cx := cmp Cx in
    let tr := app_point "Cx" Cx tr in
    do Cy <- commit1 y blind_y g1; let Cy := cmp Cy in
    let tr := app_point "Cy" Cy tr in
    let tr := app_scalars "a" a_vec tr in
    do delta <- commit d_vec r_delta gN; let delta := cmp delta in
    let tr := app_point "delta" delta tr in
    do ad <- compute_dotproduct a_vec d_vec;
    do beta <- commit1 ad r_beta g1; let beta := cmp beta in
    let tr := app_point "beta" beta tr in
    let '(c, tr) := challenge H "c" tr in
    Ok (MkDP delta beta (map2 (fun x d => c * x + d) x_vec d_vec) (c * blind_x + r_delta) (c * blind_y + r_beta), Cx, Cy, tr, tape).
  (** nizk/mod.rs:373-405; both tests are evaluated *)
  Definition dp_verify (pf : dproof) (g1 gN : gens G) (tr : log E) (a : list K) (Cx Cy : E) : res (log E) :=
    assert (Nat.eqb (gn gN) (length a));
    assert (Nat.eqb (gn g1) 1);
    let tr := proto "dot product proof" tr in
    let tr := app_point "Cx" Cx tr in
    let tr := app_point "Cy" Cy tr in
    let tr := app_scalars "a" a tr in
    let tr := app_point "delta" (dp_delta pf) tr in
    let tr := app_point "beta" (dp_beta pf) tr in
    let '(c, tr) := challenge H "c" tr in
    do Cxg <- unpack Cx; do de <- unpack (dp_delta pf);
    do zc <- commit (dp_z pf) (dp_zdelta pf) gN;
    let b1 := geqb (gadd (gmul c Cxg) de) zc in
    do za <- compute_dotproduct (dp_z pf) a;
    do Cyg <- unpack Cy; do be <- unpack (dp_beta pf);
    do zac <- commit1 za (dp_zbeta pf) g1;
    let b2 := geqb (gadd (gmul c Cyg) be) zac in
    if b1 && b2 then Ok tr else Err InternalError.

  (** * BulletReductionProof: nizk/bullet.rs:17-20 *)
  Record bproof : Type := MkBP { bp_L : list E; bp_R : list E }.
  (** nizk/bullet.rs:257-267 *)
  Definition inner_product (a b : list K) : res K :=
    assert (Nat.eqb (length a) (length b)); Ok (dot a b).
  (** One result of the reduction: L_vec, R_vec, a[0], b[0], G[0], blind_fin, transcript *)
  Record breduced : Type := MkBR { br_L : list E; br_R : list E; br_a : K; br_b : K; br_G : G; br_blind : K; br_tr : log E }.
  (** nizk/bullet.rs:73-135: the loop, by the number [k] of halvings left; the
      vectors are halved by slicing, entries beyond the slice are never read again *)
  Fixpoint bullet_loop (k : nat) (Q Hg : G) (Gv : list G) (a b : list K) (blind_fin : K) (blinds : list (K * K)) (tr : log E)
    : res breduced :=
    match k with
    | O => do a0 <- idx a 0; do b0 <- idx b 0; do G0 <- idx Gv 0;
           Ok (MkBR [] [] a0 b0 G0 blind_fin tr)
    | S k' =>
        let n := pow2 k' in
        let a_L := firstn n a in let a_R := skipn n a in
        let b_L := firstn n b in let b_R := skipn n b in
        let G_L := firstn n Gv in let G_R := skipn n Gv in
        do c_L <- inner_product a_L b_R;
        do c_R <- inner_product a_R b_L;
        match blinds with
        | [] => Panic
        | (blind_L, blind_R) :: blinds' =>
            do L <- msm (a_L ++ [c_L] ++ [blind_L]) (G_R ++ [Q] ++ [Hg]);
            do R <- msm (a_R ++ [c_R] ++ [blind_R]) (G_L ++ [Q] ++ [Hg]);
            let tr := app_point "L" (cmp L) tr in
            let tr := app_point "R" (cmp R) tr in
            let '(u, tr) := challenge H "u" tr in
            do u_inv <- inv_unwrap u;
            let a' := map2 (fun l r => l * u + u_inv * r) a_L a_R in
            let b' := map2 (fun l r => l * u_inv + u * r) b_L b_R in
            let G' := map2 (fun l r => gadd (gmul u_inv l) (gmul u r)) G_L G_R in
            let blind' := blind_fin + blind_L * u * u + blind_R * u_inv * u_inv in
            do rest <- bullet_loop k' Q Hg G' a' b' blind' blinds' tr;
            Ok (MkBR (cmp L :: br_L rest) (cmp R :: br_R rest) (br_a rest) (br_b rest) (br_G rest) (br_blind rest) (br_tr rest))
        end
    end.
  (** nizk/bullet.rs:33-150: proof, Gamma_hat, a_hat, b_hat, g_hat, blind_fin *)
  Definition bullet_prove (tr : log E) (Q : G) (Gv : list G) (Hg : G) (a b : list K) (blind : K) (blinds : list (K * K))
    : res (bproof * G * K * K * G * K * log E) :=
    let n := length Gv in
    assert (Nat.ltb 0 n && is_pow2 n);
    do lg_n <- log_2 n;
    assert (Nat.eqb (length a) n);
    assert (Nat.eqb (length b) n);
    assert (Nat.eqb (length blinds) (2 * lg_n)%nat);
    do r <- bullet_loop lg_n Q Hg Gv a b blind blinds tr;
    do Gamma_hat <- msm [br_a r; br_a r * br_b r; br_blind r] [br_G r; Q; Hg];
    Ok (MkBP (br_L r) (br_R r), Gamma_hat, br_a r, br_b r, br_G r, br_blind r, br_tr r).
  (** [Scalar::batch_invert] on field elements: C05_batch_invert *)
  Definition batch_inv (l : list K) : res (list K * K) :=
    if feqb (fprod l) 0 then Panic else Ok (map finv l, finv (fprod l)).
  (** nizk/bullet.rs:170-176 *)
  Fixpoint bullet_challenges (LR : list (E * E)) (tr : log E) : list K * log E :=
    match LR with
    | [] => ([], tr)
    | (L, R) :: t =>
        let tr := app_point "L" L tr in
        let tr := app_point "R" R tr in
        let '(u, tr) := challenge H "u" tr in
        let '(us, tr) := bullet_challenges t tr in
        (u :: us, tr)
    end.
  (** nizk/bullet.rs:190-200; [lg_i] is the position of the top bit of [i] (below 2^32) *)
  Definition s_step (usq : list K) (lg_n : nat) (acc : res (list K)) (i : nat) : res (list K) :=
    do s <- acc;
    let lg_i := Nat.log2 i in
    let k := pow2 lg_i in
    assert (Nat.leb (1 + lg_i) lg_n);
    do u <- idx usq (lg_n - 1 - lg_i)%nat;
    do x <- idx s (i - k)%nat;
    Ok (s ++ [x * u]).
  Definition s_vector (usq : list K) (lg_n n : nat) (allinv : K) : res (list K) :=
    fold_left (s_step usq lg_n) (seq 1 (n - 1)) (Ok [allinv]).
  (** nizk/bullet.rs:155-203 *)
  Definition verification_scalars (pf : bproof) (n : nat) (tr : log E) : res (list K * list K * list K * log E) :=
    let lg_n := length (bp_L pf) in
    if Nat.leb 32 lg_n then Err InternalError
    else if negb (Nat.eqb n (pow2 lg_n)) then Err InternalError
    else
      let '(us, tr) := bullet_challenges (combine (bp_L pf) (bp_R pf)) tr in
      do bi <- batch_inv us; let '(uinv, allinv) := bi in
      assert (Nat.leb lg_n (length us));
      let usq := map (fun u => u * u) us in
      let uinvsq := map (fun u => u * u) uinv in
      do s <- s_vector usq lg_n n allinv;
      Ok (usq, uinvsq, s, tr).
  (** nizk/bullet.rs:209-249: (G_hat, Gamma_hat, a_hat).  A point that does not decode
      panics inside [decompress] (group.rs:35) *)
  Definition bullet_verify (pf : bproof) (n : nat) (a : list K) (tr : log E) (Gamma : G) (Gv : list G)
    : res (G * G * K * log E) :=
    do vs <- verification_scalars pf n tr; let '(usq, uinvsq, s, tr) := vs in
    do Ls <- mapM unpack (bp_L pf);
    do Rs <- mapM unpack (bp_R pf);
    do G_hat <- msm s Gv;
    do a_hat <- inner_product a s;
    do Gamma_hat <- msm (usq ++ uinvsq ++ [1]) (Ls ++ Rs ++ [Gamma]);
    Ok (G_hat, Gamma_hat, a_hat, tr).

  (** * DotProductProofLog: nizk/mod.rs:408-419 and 421-428 *)
  Record dgens : Type := MkDGens { dgn : nat; dgN : gens G; dg1 : gens G }.
  Definition dgens_new (n : nat) (stream : nat -> G) : res dgens :=
    do ab <- gens_split (gens_new (n + 1) stream) n;
    Ok (MkDGens n (fst ab) (snd ab)).
  Record lproof : Type := MkLP { lp_bullet : bproof; lp_delta : E; lp_beta : E; lp_z1 : K; lp_z2 : K }.
  (** nizk/mod.rs:440-524; both [r_delta] and [r_beta] use the label "r_delta" *)
  Definition lp_prove (g : dgens) (tr tape : log E) (x_vec : list K) (blind_x : K) (a_vec : list K) (y blind_y : K)
    : res (lproof * E * E * log E * log E) :=
    let tr := proto "dot product proof (log)" tr in
    let n := length x_vec in
    assert (Nat.eqb (length x_vec) (length a_vec));
    assert (Nat.eqb (dgn g) n);
    let '(d, tape) := random_scalar H "d" tape in
    let '(r_delta, tape) := random_scalar H "r_delta" tape in
    let '(r_beta, tape) := random_scalar H "r_delta" tape in
    do lg <- log_2 n;
    let '(v1, tape) := random_vector H "blinds_vec_1" (2 * lg) tape in
    let '(v2, tape) := random_vector H "blinds_vec_2" (2 * lg) tape in
    let blinds := combine v1 v2 in
    do Cx <- commit x_vec blind_x (dgN g); let Cx := cmp Cx in
    let tr := app_point "Cx" Cx tr in
    do Cy <- commit1 y blind_y (dg1 g); let Cy := cmp Cy in
    let tr := app_point "Cy" Cy tr in
    let tr := app_scalars "a" a_vec tr in
    let '(r, tr) := challenge H "r" tr in
    do g1s <- gens_scale (dg1 g) r;
    let blind_Gamma := blind_x + r * blind_y in
    do Q <- idx (gG g1s) 0;
    do br <- bullet_prove tr Q (gG (dgN g)) (gh (dgN g)) x_vec a_vec blind_Gamma blinds;
    let '(bp, _, x_hat, a_hat, g_hat, rhat, tr) := br in
    let y_hat := x_hat * a_hat in
    do delta <- commit1 d r_delta (MkGens 1 [g_hat] (gh (dg1 g))); let delta := cmp delta in
    let tr := app_point "delta" delta tr in
    do beta <- commit1 d r_beta g1s; let beta := cmp beta in
    let tr := app_point "beta" beta tr in
    let '(c, tr) := challenge H "c" tr in
    Ok (MkLP bp delta beta (d + c * y_hat) (a_hat * (c * rhat + r_beta) + r_delta), Cx, Cy, tr, tape).
  (** nizk/mod.rs:526-576: the final comparison is an [assert_eq!] *)
  Definition lp_verify (pf : lproof) (n : nat) (g : dgens) (tr : log E) (a : list K) (Cx Cy : E) : res (log E) :=
    assert (Nat.eqb (dgn g) n);
    assert (Nat.eqb (length a) n);
    let tr := proto "dot product proof (log)" tr in
    let tr := app_point "Cx" Cx tr in
    let tr := app_point "Cy" Cy tr in
    let tr := app_scalars "a" a tr in
    let '(r, tr) := challenge H "r" tr in
    do g1s <- gens_scale (dg1 g) r;
    do Cxg <- unpack Cx; do Cyg <- unpack Cy;
    let Gamma := gadd Cxg (gmul r Cyg) in
    do bv <- bullet_verify (lp_bullet pf) n a tr Gamma (gG (dgN g));
    let '(g_hat, Gamma_hat, a_hat, tr) := bv in
    let tr := app_point "delta" (lp_delta pf) tr in
    let tr := app_point "beta" (lp_beta pf) tr in
    let '(c, tr) := challenge H "c" tr in
    do be <- unpack (lp_beta pf);
    do de <- unpack (lp_delta pf);
    do Q <- idx (gG g1s) 0;
    let lhs := gadd (gmul a_hat (gadd (gmul c Gamma_hat) be)) de in
    let rhs := gadd (gmul (lp_z1 pf) (gadd g_hat (gmul a_hat Q))) (gmul (lp_z2 pf) (gh g1s)) in
    assert (eeqb E (cmp lhs) (cmp rhs));
    Ok tr.

  (** * dense_mlpoly.rs: polynomial commitments *)
  (** dense_mlpoly.rs:25-36 *)
  Definition pcgens_new (num_vars : nat) (stream : nat -> G) : res dgens :=
    dgens_new (pow2 (snd (compute_factored_lens num_vars))) stream.
  (** dense_mlpoly.rs:164-177 (the multicore version computes the same vector); division
      by zero panics *)
  Definition commit_inner (Z blinds : list K) (g : gens G) : res (list E) :=
    let L_size := length blinds in
    assert (Nat.ltb 0 L_size);
    let R_size := (length Z / L_size)%nat in
    assert (Nat.eqb (L_size * R_size) (length Z));
    mapM (fun i => do b <- idx blinds i;
                   do c <- commit (firstn R_size (skipn (R_size * i) Z)) b g; Ok (cmp c)) (seq 0 L_size).
  (** dense_mlpoly.rs:179-204; [tape] is the optional random tape *)
  Definition poly_commit (d : dense K) (g : dgens) (tape : option (log E)) : res (list E * list K * option (log E)) :=
    let n := length (dZ d) in
    let ell := dnum_vars d in
    assert (Nat.eqb n (pow2 ell));
    let '(ln, rn) := compute_factored_lens ell in
    let L_size := pow2 ln in let R_size := pow2 rn in
    assert (Nat.eqb (L_size * R_size)%nat n);
    let '(blinds, tape) := match tape with
      | Some t => let '(v, t) := random_vector H "poly_blinds" L_size t in (v, Some t)
      | None => (repeat 0 L_size, None)
      end in
    do C <- commit_inner (dZ d) blinds (dgN g);
    Ok (C, blinds, tape).
  (** dense_mlpoly.rs:290-298 *)
  Definition app_commitment (l : string) (C : list E) (tr : log E) : log E :=
    MText l "poly_commitment_end" :: rev (map (MPoint "poly_commitment_share") C) ++ MText l "poly_commitment_begin" :: tr.
  (** PolyEvalProof is a DotProductProofLog (dense_mlpoly.rs:300-303).
      dense_mlpoly.rs:310-363 *)
  Definition pe_prove (d : dense K) (blinds_opt : option (list K)) (r : list K) (Zr : K) (blind_Zr_opt : option K)
    (g : dgens) (tr tape : log E) : res (lproof * E * log E * log E) :=
    let tr := proto "polynomial evaluation proof" tr in
    assert (Nat.eqb (dnum_vars d) (length r));
    let '(ln, rn) := compute_factored_lens (length r) in
    let L_size := pow2 ln in let R_size := pow2 rn in
    let blinds := match blinds_opt with Some b => b | None => repeat 0 L_size end in
    assert (Nat.eqb (length blinds) L_size);
    let blind_Zr := match blind_Zr_opt with Some b => b | None => 0 end in
    let '(L, R) := compute_factored_evals r in
    assert (Nat.eqb (length L) L_size);
    assert (Nat.eqb (length R) R_size);
    do LZ <- dense_bound d L;
    let LZ_blind := dot blinds L in
    do p <- lp_prove g tr tape LZ LZ_blind R Zr blind_Zr;
    let '(pf, _, C_Zr, tr, tape) := p in
    Ok (pf, C_Zr, tr, tape).
  (** dense_mlpoly.rs:365-387 *)
  Definition pe_verify (pf : lproof) (g : dgens) (tr : log E) (r : list K) (C_Zr : E) (comm : list E) : res (log E) :=
    let tr := proto "polynomial evaluation proof" tr in
    let '(L, R) := compute_factored_evals r in
    do Cs <- mapM unpack comm;
    do C_LZ <- msm L Cs;
    lp_verify pf (length R) g tr R (cmp C_LZ) C_Zr.
  (** dense_mlpoly.rs:389-401 *)
  Definition pe_verify_plain (pf : lproof) (g : dgens) (tr : log E) (r : list K) (Zr : K) (comm : list E) : res (log E) :=
    do C_Zr <- commit1 Zr 0 (dg1 g);
    pe_verify pf g tr r (cmp C_Zr) comm.
End Sigma.
Arguments kproof {K G} E.
Arguments eproof {K G} E.
Arguments pproof {K G} E.
Arguments dproof {K G} E.
Arguments bproof {K G} E.
Arguments breduced {K G} E.
Arguments lproof {K G} E.
Arguments dgens {K} G.
