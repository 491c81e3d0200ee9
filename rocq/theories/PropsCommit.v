(** Properties C19-C27: commitments, the proofs of nizk/, polynomial evaluation proofs.
    [K] is any field, [G] any module over it (the group secq256k1 over its scalar
    field), [E] its point encodings and [H] any function from transcript histories to
    challenges.  [lincomb], [ped], [opens], [sval] are in CommitSpec.v, [mle] in PolySpec.v. *)
From Coq Require Import String List Arith ZArith Bool Lia.
From Verif Require Import Base Field Zq Vec MathModel PolyModel PolySpec CommitModel SigmaModel CommitSpec SigmaProofs BulletProofs LogProofs SigmaApi BindSpec BindProofs.
Import ListNotations.
Local Open Scope fld_scope.

Theorem C19_commitment_is_linear_combination : forall (K : Fld) (G : Mod K) (g : gens G) (v : list K) (b : K), gens_ok g ->
  commit v b g = if Nat.eqb (length v) (gn g) then Ok (gadd (lincomb v (gG g)) (gmul b (gh g))) else Panic.
Proof. exact @api_commit. Qed.
Print Assumptions C19_commitment_is_linear_combination.

Theorem C19_single_value : forall (K : Fld) (G : Mod K) (g : gens G) (x b : K), gens_ok g -> commit1 x b g = commit [x] b g.
Proof. exact @api_commit1. Qed.
Print Assumptions C19_single_value.

Theorem C19_homomorphic : forall (K : Fld) (G : Mod K) (g : gens G) (v w : list K) (b c : K) (cv cw : G) (s : K),
  commit v b g = Ok cv -> commit w c g = Ok cw ->
  commit (vadd v w) (b + c) g = Ok (gadd cv cw) /\ commit (map (fmul s) v) (s * b) g = Ok (gmul s cv).
Proof. exact @api_commit_hom. Qed.
Print Assumptions C19_homomorphic.

Theorem C19_perfectly_hiding : forall (K : Fld) (G : Mod K) (g : gens G) (v v' : list K) (b : K),
  (forall x, In x (gG g) -> exists k, x = gmul k (gh g)) -> length v = length v' ->
  exists b', commit v' b' g = commit v b g.
Proof. exact @api_hiding. Qed.
Print Assumptions C19_perfectly_hiding.

Theorem C19_binding : forall (K : Fld) (G : Mod K) (g : gens G) (v v' : list K) (b b' : K) (c : G),
  commit v b g = Ok c -> commit v' b' g = Ok c -> (v, b) <> (v', b') ->
  exists w t, length w = gn g /\ gadd (lincomb w (gG g)) (gmul t (gh g)) = g0 /\ (t <> 0 \/ exists i, nth i w 0 <> 0) /\
    w = map2 fsub v v' /\ t = b - b'.
Proof. exact @api_binding. Qed.
Print Assumptions C19_binding.

Example C19_case : let g := MkGens (G:=exG) 2 [fp 2; fp 5] (fp 3) in gens_ok g /\
  commit [fp 4; fp 6] (fp 7) g = Ok (fp 59) /\ commit [fp 1; fp 6] (fp 9) g = Ok (fp 59) /\ commit [fp 4] (fp 7) g = Panic /\
  commit [fp 5; fp 12] (fp 16) g = Ok (fp 118).
Proof. zqs. Qed.

(** sizes n < m with one label: the smaller set is a prefix and its blinding generator
    is message generator number n of the larger set ... *)
Theorem C20_sets_overlap : forall (K : Fld) (G : Mod K) (stream : nat -> G) (n m : nat), (n < m)%nat ->
  gens_ok (gens_new n stream) /\ gn (gens_new n stream) = n /\
  gG (gens_new n stream) = firstn n (gG (gens_new m stream)) /\
  nth_error (gG (gens_new m stream)) n = Some (gh (gens_new n stream)).
Proof. exact @api_gens_overlap. Qed.
Print Assumptions C20_sets_overlap.

(** ... so a commitment of the smaller set is a commitment of the larger one to a
    different message: the blind has become a message entry *)
Theorem C20_cross_set_opening : forall (K : Fld) (G : Mod K) (stream : nat -> G) (n m : nat) (v : list K) (b : K), (n < m)%nat -> length v = n ->
  commit v b (gens_new n stream) = commit (v ++ b :: repeat 0 (m - n - 1)) 0 (gens_new m stream).
Proof. exact @api_gens_reopen. Qed.
Print Assumptions C20_cross_set_opening.

Theorem C20_dot_product_generators : forall (K : Fld) (G : Mod K) (stream : nat -> G) (n : nat), exists g, dgens_new n stream = Ok g /\
  gens_ok (dgN g) /\ gn (dgN g) = n /\ gens_ok (dg1 g) /\ gn (dg1 g) = 1%nat /\ gh (dgN g) = gh (dg1 g) /\
  gG (dgN g) ++ gG (dg1 g) ++ [gh (dg1 g)] = tab (n + 2) stream.
Proof. exact @api_gens_split. Qed.
Print Assumptions C20_dot_product_generators.

Example C20_case : commit [fp 4] (fp 7) (gens_new 1 exStream) = Ok (fp 47) /\ commit [fp 4; fp 7; fp 0] (fp 0) (gens_new 3 exStream) = Ok (fp 47).
Proof. zqs. Qed.

(** completeness; prover and verifier end with the same transcript *)
Theorem C21_knowledge : forall (K : Fld) (G : Mod K) (E : Enc G) (H : log E -> K) (g : gens G) (tr tape : log E) (x r : K),
  gens_ok g -> gn g = 1%nat ->
  exists pf C tr' tape', kp_prove H g tr tape x r = Ok (pf, C, tr', tape') /\ opens1 g C x r /\ kp_verify H pf g tr C = Ok tr'.
Proof. exact @kp_complete. Qed.
Print Assumptions C21_knowledge.

Theorem C21_equality : forall (K : Fld) (G : Mod K) (E : Enc G) (H : log E -> K) (g : gens G) (tr tape : log E) (v s1 s2 : K),
  gens_ok g -> gn g = 1%nat ->
  exists pf C1 C2 tr' tape', ep_prove H g tr tape v s1 v s2 = Ok (pf, C1, C2, tr', tape') /\
    opens1 g C1 v s1 /\ opens1 g C2 v s2 /\ ep_verify H pf g tr C1 C2 = Ok tr'.
Proof. exact @ep_complete. Qed.
Print Assumptions C21_equality.

Theorem C21_product : forall (K : Fld) (G : Mod K) (E : Enc G) (H : log E -> K) (g : gens G) (tr tape : log E) (x rX y rY rZ : K),
  gens_ok g -> gn g = 1%nat ->
  exists pf X Y Z tr' tape', pp_prove H g tr tape x rX y rY (x * y) rZ = Ok (pf, X, Y, Z, tr', tape') /\
    opens1 g X x rX /\ opens1 g Y y rY /\ opens1 g Z (x * y) rZ /\ pp_verify H pf g tr X Y Z = Ok tr'.
Proof. exact @pp_complete. Qed.
Print Assumptions C21_product.

Example C21_case : gens_ok gens1 /\ gn gens1 = 1%nat /\
  (do p <- pp_prove exH gens1 [] [MText "dom-sep" "x"] (fp 4) (fp 9) (fp 6) (fp 2) (fp 25) (fp 1);
   let '(pf, X, Y, Z, _, _) := p in do _ <- pp_verify exH pf gens1 [] X Y Z; Ok tt) = Err InternalError /\
  is_ok (do p <- pp_prove exH gens1 [] [MText "dom-sep" "x"] (fp 4) (fp 9) (fp 6) (fp 2) (fp 24) (fp 1);
   let '(pf, X, Y, Z, _, _) := p in pp_verify exH pf gens1 [] X Y Z) = true.
Proof. zqs. Qed.

(** two accepted runs with one first message and different challenges determine the
    witness; [H] and [H'] are the oracle before and after rewinding, and the challenge of a
    run is the oracle's value on the transcript that [verify] leaves *)
Theorem C22_knowledge : forall (K : Fld) (G : Mod K) (E : Enc G) (H H' : log E -> K) (pf pf' : kproof E) (g : gens G) (tr tr1 tr2 : log E) (C : E),
  gens_ok g -> kp_alpha pf = kp_alpha pf' ->
  kp_verify H pf g tr C = Ok tr1 -> kp_verify H' pf' g tr C = Ok tr2 -> H tr1 <> H' tr2 ->
  opens1 g C (finv (H tr1 - H' tr2) * (kp_z1 pf - kp_z1 pf')) (finv (H tr1 - H' tr2) * (kp_z2 pf - kp_z2 pf')).
Proof. exact @kp_sound. Qed.
Print Assumptions C22_knowledge.

Theorem C22_equality : forall (K : Fld) (G : Mod K) (E : Enc G) (H H' : log E -> K) (pf pf' : eproof E) (g : gens G) (tr tr1 tr2 : log E) (C1 C2 : E),
  ep_alpha pf = ep_alpha pf' ->
  ep_verify H pf g tr C1 C2 = Ok tr1 -> ep_verify H' pf' g tr C1 C2 = Ok tr2 -> H tr1 <> H' tr2 ->
  exists g1 g2, decompress E C1 = Some g1 /\ decompress E C2 = Some g2 /\
    g1 = gadd g2 (gmul (finv (H tr1 - H' tr2) * (ep_z pf - ep_z pf')) (gh g)).
Proof. exact @ep_sound. Qed.
Print Assumptions C22_equality.

Theorem C22_product : forall (K : Fld) (G : Mod K) (E : Enc G) (H H' : log E -> K) (pf pf' : pproof E) (g : gens G) (tr tr1 tr2 : log E) (X Y Z : E)
    (z1 z2 z3 z4 z5 z1' z2' z3' z4' z5' : K),
  gens_ok g -> pp_alpha pf = pp_alpha pf' -> pp_beta pf = pp_beta pf' -> pp_delta pf = pp_delta pf' ->
  pp_z pf = (z1, z2, z3, z4, z5) -> pp_z pf' = (z1', z2', z3', z4', z5') ->
  pp_verify H pf g tr X Y Z = Ok tr1 -> pp_verify H' pf' g tr X Y Z = Ok tr2 -> H tr1 <> H' tr2 ->
  let e := finv (H tr1 - H' tr2) in
  let x := e * (z1 - z1') in let rX := e * (z2 - z2') in let y := e * (z3 - z3') in let rY := e * (z4 - z4') in
  opens1 g X x rX /\ opens1 g Y y rY /\ opens1 g Z (x * y) (rX * y + e * (z5 - z5')).
Proof. exact @pp_sound. Qed.
Print Assumptions C22_product.

Theorem C22_dot_product : forall (K : Fld) (G : Mod K) (E : Enc G) (H H' : log E -> K) (pf pf' : dproof E) (g1 gN : gens G) (tr tr1 tr2 : log E)
    (a : list K) (Cx Cy : E),
  gens_ok g1 -> dp_delta pf = dp_delta pf' -> dp_beta pf = dp_beta pf' ->
  dp_verify H pf g1 gN tr a Cx Cy = Ok tr1 -> dp_verify H' pf' g1 gN tr a Cx Cy = Ok tr2 -> H tr1 <> H' tr2 ->
  let e := finv (H tr1 - H' tr2) in
  let x := map (fmul e) (map2 fsub (dp_z pf) (dp_z pf')) in
  length x = length a /\ opens gN Cx x (e * (dp_zdelta pf - dp_zdelta pf')) /\
  opens1 g1 Cy (dot x a) (e * (dp_zbeta pf - dp_zbeta pf')).
Proof. exact @dp_sound. Qed.
Print Assumptions C22_dot_product.

(** the transcript an accepting verifier ends with, the one its challenge was drawn from,
    determines everything the challenge must depend on: the transcript it started with, the
    statement and the prover's first message ([pp_points], [dp_points] in BindSpec.v) *)
Theorem C22_knowledge_challenge : forall (K : Fld) (G : Mod K) (E : Enc G) (H H' : log E -> K) (pf pf' : kproof E) (g g' : gens G) (tr tr' : log E) (C C' : E) (t : log E),
  kp_verify H pf g tr C = Ok t -> kp_verify H' pf' g' tr' C' = Ok t -> tr = tr' /\ C = C' /\ kp_alpha pf = kp_alpha pf'.
Proof. exact @kp_inj. Qed.
Print Assumptions C22_knowledge_challenge.
Theorem C22_equality_challenge : forall (K : Fld) (G : Mod K) (E : Enc G) (H H' : log E -> K) (pf pf' : eproof E) (g g' : gens G) (tr tr' : log E) (C D C' D' : E) (t : log E),
  ep_verify H pf g tr C D = Ok t -> ep_verify H' pf' g' tr' C' D' = Ok t -> tr = tr' /\ C = C' /\ D = D' /\ ep_alpha pf = ep_alpha pf'.
Proof. exact @ep_inj. Qed.
Print Assumptions C22_equality_challenge.
Theorem C22_product_challenge : forall (K : Fld) (G : Mod K) (E : Enc G) (H H' : log E -> K) (pf pf' : pproof E) (g g' : gens G) (tr tr' : log E) (A B C A' B' C' : E) (t : log E),
  pp_verify H pf g tr A B C = Ok t -> pp_verify H' pf' g' tr' A' B' C' = Ok t ->
  tr = tr' /\ (A = A' /\ B = B' /\ C = C') /\ pp_points pf = pp_points pf'.
Proof. exact @pp_inj. Qed.
Print Assumptions C22_product_challenge.
Theorem C22_dot_product_challenge : forall (K : Fld) (G : Mod K) (E : Enc G) (H H' : log E -> K) (pf pf' : dproof E) (g h g' h' : gens G) (tr tr' : log E)
    (a a' : list K) (A B A' B' : E) (t : log E),
  dp_verify H pf g h tr a A B = Ok t -> dp_verify H' pf' g' h' tr' a' A' B' = Ok t ->
  tr = tr' /\ a = a' /\ (A = A' /\ B = B') /\ dp_points pf = dp_points pf'.
Proof. exact @dp_inj. Qed.
Print Assumptions C22_dot_product_challenge.

(** a commitment to 5 with blind 7 under the generators 2 and 3; challenges 1 and 2 *)
Example C22_case :
  let pf := MkKP (E:=exE) (Some (fp 5)) (fp 6) (fp 8) in let pf' := MkKP (E:=exE) (Some (fp 5)) (fp 11) (fp 15) in
  exists tr1 tr2, kp_verify (fun _ => fp 1) pf gens1 [] (Some (fp 31) : exE) = Ok tr1 /\ kp_verify (fun _ => fp 2) pf' gens1 [] (Some (fp 31) : exE) = Ok tr2 /\
    finv (fp 1 - fp 2) * (fp 6 - fp 11) = fp 5 /\ finv (fp 1 - fp 2) * (fp 8 - fp 15) = fp 7.
Proof. exact case22. Qed.

Theorem C23_dot_product_complete : forall (K : Fld) (G : Mod K) (E : Enc G) (H : log E -> K) (g1 gN : gens G) (tr tape : log E)
    (x : list K) (blind_x : K) (a : list K) (blind_y : K),
  gens_ok g1 -> gn g1 = 1%nat -> gens_ok gN -> gn gN = length x -> length a = length x ->
  exists pf Cx Cy tr' tape', dp_prove H g1 gN tr tape x blind_x a (dot x a) blind_y = Ok (pf, Cx, Cy, tr', tape') /\
    opens gN Cx x blind_x /\ opens1 g1 Cy (dot x a) blind_y /\ dp_verify H pf g1 gN tr a Cx Cy = Ok tr'.
Proof. exact @dp_complete. Qed.
Print Assumptions C23_dot_product_complete.

Example C23_case : let gN := MkGens (G:=exG) 3 [fp 7; fp 11; fp 13] (fp 3) in
  let run y := (do p <- dp_prove exH gens1 gN [] [] [fp 4; fp 9; fp 6] (fp 2) [fp 1; fp 2; fp 3] y (fp 1);
     let '(pf, Cx, Cy, _, _) := p in do _ <- dp_verify exH pf gens1 gN [] [fp 1; fp 2; fp 3] Cx Cy; Ok tt) in
  gens_ok gN /\ dot [fp 4; fp 9; fp 6] [fp 1; fp 2; fp 3] = fp 40 /\ run (fp 40) = Ok tt /\ run (fp 41) = Err InternalError.
Proof. zqs. Qed.

(** whenever the prover finishes, [verify] returns the prover's folded generator,
    commitment and vector, and the prover finishes unless one of its k challenges "u" is zero *)
Theorem C24_bullet_complete : forall (K : Fld) (G : Mod K) (E : Enc G) (H : log E -> K) (tr : log E) (Q : G) (Gv : list G) (h : G)
    (a b : list K) (blind : K) (blinds : list (K * K)) (k : nat),
  (k < 32)%nat -> length Gv = (2 ^ k)%nat -> length a = (2 ^ k)%nat -> length b = (2 ^ k)%nat -> length blinds = (2 * k)%nat ->
  (forall pf Gamma_hat a_hat b_hat g_hat blind_fin tr',
    bullet_prove H tr Q Gv h a b blind blinds = Ok (pf, Gamma_hat, a_hat, b_hat, g_hat, blind_fin, tr') ->
    Gamma_hat = gadd (gadd (gmul a_hat g_hat) (gmul (a_hat * b_hat) Q)) (gmul blind_fin h) /\
    bullet_verify H pf (2 ^ k) b tr (gadd (gadd (lincomb a Gv) (gmul (dot a b) Q)) (gmul blind h)) Gv =
      Ok (g_hat, Gamma_hat, b_hat, tr')) /\
  unless H "u" 0 k (exists r, bullet_prove H tr Q Gv h a b blind blinds = Ok r).
Proof. exact @bullet_complete. Qed.
Print Assumptions C24_bullet_complete.

Theorem C24_verification_scalars : forall (K : Fld) (G : Mod K) (E : Enc G) (H : log E -> K) (pf : bproof E) (tr : log E) (us : list K) (tr' : log E),
  (length (bp_L pf) < 32)%nat ->
  bullet_challenges H (combine (bp_L pf) (bp_R pf)) tr = (us, tr') -> length us = length (bp_L pf) -> (forall u, In u us -> u <> 0) ->
  verification_scalars H pf (2 ^ length (bp_L pf)) tr =
    Ok (map (fun u => u * u) us, map (fun u => finv u * finv u) us, tab (2 ^ length (bp_L pf)) (sval us), tr').
Proof. exact @verification_scalars_ok. Qed.
Print Assumptions C24_verification_scalars.

Example C24_case : sval [fp 2; fp 3] 0 = finv (fp 6) /\ sval [fp 2; fp 3] 1 = finv (fp 2) * fp 3 /\ sval [fp 2; fp 3] 2 = fp 2 * finv (fp 3) /\
  (do p <- bullet_prove exH [] (fp 5) [fp 7; fp 11] (fp 13) [fp 4; fp 9] [fp 6; fp 1] (fp 2) [(fp 3, fp 4); (fp 5, fp 6)];
   let '(pf, Gh, ah, bh, gh', _, _) := p in
   do v <- bullet_verify exH pf 2 [fp 6; fp 1] [] (fp 318) [fp 7; fp 11];
   let '(gh2, Gh2, bh2, _) := v in Ok (feqb Gh Gh2 && feqb bh bh2 && feqb gh' gh2)%bool) = Ok true.
Proof. zqs. Qed.

Theorem C25_log_dot_product_complete : forall (K : Fld) (G : Mod K) (E : Enc G) (H : log E -> K) (stream : nat -> G) (g : dgens G) (k : nat) (tr tape : log E)
    (x : list K) (blind_x : K) (a : list K) (blind_y : K),
  (k < 32)%nat -> length x = (2 ^ k)%nat -> length a = (2 ^ k)%nat -> dgens_new (2 ^ k) stream = Ok g ->
  (forall pf Cx Cy tr' tape', lp_prove H g tr tape x blind_x a (dot x a) blind_y = Ok (pf, Cx, Cy, tr', tape') ->
    Cx = compress E (ped (dgN g) x blind_x) /\ Cy = compress E (ped1 (dg1 g) (dot x a) blind_y) /\
    lp_verify H pf (2 ^ k) g tr a Cx Cy = Ok tr') /\
  unless H "u" 0 k (exists r, lp_prove H g tr tape x blind_x a (dot x a) blind_y = Ok r).
Proof. exact @lp_complete. Qed.
Print Assumptions C25_log_dot_product_complete.

(** with a wrong inner product the verifier aborts ([assert_eq!]) instead of returning an error *)
Example C25_case :
  let run y := (do g <- dgens_new 2 exStream; do p <- lp_prove exH g [] [] [fp 4; fp 9] (fp 2) [fp 1; fp 2] y (fp 1);
     let '(pf, Cx, Cy, _, _) := p in do _ <- lp_verify exH pf 2 g [] [fp 1; fp 2] Cx Cy; Ok tt) in
  dot [fp 4; fp 9] [fp 1; fp 2] = fp 22 /\ run (fp 22) = Ok tt /\ run (fp 23) = Panic.
Proof. zqs. Qed.

(** the final transcript determines the statement and the points of the proof that precede the last
    challenge ([lp_points] in BindSpec.v; surplus points in [R] are not among them) *)
Theorem C25_absorbed : forall (K : Fld) (G : Mod K) (E : Enc G) (H H' : log E -> K) (pf pf' : lproof E) (n : nat) (g g' : dgens G) (tr tr' : log E)
    (a a' : list K) (A B A' B' : E) (t : log E),
  lp_verify H pf n g tr a A B = Ok t -> lp_verify H' pf' n g' tr' a' A' B' = Ok t ->
  tr = tr' /\ a = a' /\ (A = A' /\ B = B') /\ lp_points pf = lp_points pf'.
Proof. exact @lp_inj. Qed.
Print Assumptions C25_absorbed.

(** for every polynomial, however it was committed: the proof of the true evaluation is
    accepted by [verify], and by [verify_plain] if its blind is zero *)
Theorem C26_evaluation_proof_complete : forall (K : Fld) (G : Mod K) (E : Enc G) (H : log E -> K) (Z r : list K) (d : dense K) (g : dgens G) (stream : nat -> G)
    (tp : option (log E)) (C : list E) (blinds : list K) (tp' : option (log E)) (bopt : option (list K)) (zopt : option K) (tr tape : log E),
  length Z = (2 ^ length r)%nat -> (length r - length r / 2 < 32)%nat ->
  dense_new Z = Ok d -> pcgens_new (length r) stream = Ok g ->
  poly_commit H d g tp = Ok (C, blinds, tp') ->
  (bopt = Some blinds \/ (bopt = None /\ tp = None)) ->
  (forall pf CZ tr' tape', pe_prove H d bopt r (mle Z r) zopt g tr tape = Ok (pf, CZ, tr', tape') ->
    CZ = compress E (ped1 (dg1 g) (mle Z r) (blind_of zopt)) /\
    pe_verify H pf g tr r CZ C = Ok tr' /\
    (blind_of zopt = 0 -> pe_verify_plain H pf g tr r (mle Z r) C = Ok tr')) /\
  unless H "u" 0 (length r - length r / 2) (exists x, pe_prove H d bopt r (mle Z r) zopt g tr tape = Ok x).
Proof. exact @pe_complete. Qed.
Print Assumptions C26_evaluation_proof_complete.

(** committing never fails *)
Theorem C26_commit_total : forall (K : Fld) (G : Mod K) (E : Enc G) (H : log E -> K) (Z : list K) (ell : nat) (g : dgens G) (stream : nat -> G) (tp : option (log E)),
  length Z = (2 ^ ell)%nat -> pcgens_new ell stream = Ok g ->
  exists blinds tp', length blinds = (2 ^ (ell / 2))%nat /\ (tp = None -> blinds = repeat 0 (2 ^ (ell / 2))) /\
  poly_commit H (MkDense ell (2 ^ ell) Z) g tp =
    Ok (map (compress E) (map2 (ped (dgN g)) (tab (length blinds) (fun j => firstn (2 ^ (ell - ell / 2)) (skipn (2 ^ (ell - ell / 2) * j) Z))) blinds), blinds, tp').
Proof. exact @poly_commit_ok. Qed.
Print Assumptions C26_commit_total.

Example C26_case :
  let Z := [fp 4; fp 9; fp 1; fp 5] in let r := [fp 2; fp 3] in
  let run v := (do g <- pcgens_new 2 exStream; do d <- dense_new Z; do c <- poly_commit exH d g (Some []); let '(C, bl, _) := c in
     do p <- pe_prove exH d (Some bl) r v (Some (fp 0)) g [] [];
     let '(pf, CZ, _, _) := p in do _ <- pe_verify exH pf g [] r CZ C; do _ <- pe_verify_plain exH pf g [] r v C; Ok tt) in
  mle Z r = fp 7 /\ run (fp 7) = Ok tt /\ run (fp 8) = Panic.
Proof. zqs. Qed.

(** C27 as stated is false.  One fixed proof, all of whose points are the identity
    and all of whose scalars are zero, is accepted for every commitment (of at least the
    expected number of decodable points), every point [r] and every claimed value,
    unless one of about [length r / 2] hash outputs is zero. *)
Theorem C27_universal_proof_refuted : forall (K : Fld) (G : Mod K) (E : Enc G) (H : log E -> K) (stream : nat -> G) (r : list K) (g : dgens G) (tr : log E) (C : list E),
  (length r - length r / 2 < 32)%nat -> pcgens_new (length r) stream = Ok g ->
  (2 ^ (length r / 2) <= length C)%nat -> (forall c, In c C -> exists X, decompress E c = Some X) ->
  (forall CZ Y, decompress E CZ = Some Y ->
    unless H "u" 0 (length r - length r / 2) (exists tr', pe_verify H (forged (length r - length r / 2)) g tr r CZ C = Ok tr')) /\
  (forall v, unless H "u" 0 (length r - length r / 2) (exists tr', pe_verify_plain H (forged (length r - length r / 2)) g tr r v C = Ok tr')).
Proof. exact @api_forged. Qed.
Print Assumptions C27_universal_proof_refuted.

Theorem C27_any_value_refuted : forall (K : Fld) (G : Mod K) (E : Enc G) (H : log E -> K) (stream : nat -> G) (Z r : list K) (g : dgens G) (d : dense K)
    (tp : option (log E)) (C : list E) (blinds : list K) (tp' : option (log E)) (tr : log E) (v : K),
  length Z = (2 ^ length r)%nat -> (length r - length r / 2 < 32)%nat ->
  dense_new Z = Ok d -> pcgens_new (length r) stream = Ok g -> poly_commit H d g tp = Ok (C, blinds, tp') ->
  exists pf, unless H "u" 0 (length r - length r / 2) (exists tr', pe_verify_plain H pf g tr r v C = Ok tr').
Proof. exact @api_forged_commitment. Qed.
Print Assumptions C27_any_value_refuted.

(** the polynomial of [C26_case] has value 7; the value 1000 is accepted *)
Example C27_case :
  let Z := [fp 4; fp 9; fp 1; fp 5] in let r := [fp 2; fp 3] in mle Z r = fp 7 /\
  (do g <- pcgens_new 2 exStream; do d <- dense_new Z; do c <- poly_commit exH d g (Some []); let '(C, bl, _) := c in
   do _ <- pe_verify_plain exH (forged 1) g [] r (fp 1000) C; Ok tt) = Ok tt /\ length (bp_L (lp_bullet (forged (E:=exE) 1))) = 1%nat /\ length (bp_R (lp_bullet (forged (E:=exE) 1))) = 2%nat.
Proof. zqs. Qed.
