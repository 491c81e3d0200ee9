(** Properties C28 and C29: the sum-check protocols.  [K], [G], [E], [H] as in
    PropsCommit.v.  [hsum], [deg_each], [nonzero] are in SumSpec.v; [peval], [mle] in
    PolySpec.v; [live p] is the list of current entries of a dense polynomial. *)
From Coq Require Import String List Arith ZArith Bool Lia.
From Verif Require Import Base Field Zq Vec MathModel PolyModel PolySpec CommitModel SigmaModel CommitSpec SigmaApi SumModel SumSpec SumApi.
Import ListNotations.
Local Open Scope fld_scope.

(** If verify accepts and returns the reduced claim [e] at the point [r], then for every
    function [f] of the stated degree with value [e] at [r], either the claimed sum is the
    true one, or in some round [i] the challenge, which the oracle computed from a history
    ending with the polynomial [p] sent by the prover, is a root of the nonzero difference
    between [p] and the true partial sum. *)
Theorem C28_soundness : forall (K : Fld) (G : Mod K) (E : Enc G) (H : log E -> K) (polys : list (list K)) (claim : K) (n d : nat) (tr : log E) (e : K) (r : list K) (tr' : log E) (f : list K -> K),
  sc_verify H polys claim n d tr = Ok (e, r, tr') -> deg_each d n f -> f r = e ->
  length r = n /\
  (hsum n f = claim \/
   exists i p ds tri before after, (i < n)%nat /\ length p = S d /\ (length ds <= S d)%nat /\ nonzero ds /\
     (forall x, peval ds x = peval p x - hsum (n - i - 1) (fun b => f (firstn i r ++ x :: b))) /\
     let hist := MChal "challenge_nextround" :: MText "poly" "UniPoly_end" :: rev (map (MScalar "coeff") p) ++ MText "poly" "UniPoly_begin" :: tri in
     tri = before ++ tr /\ tr' = after ++ hist /\ nth i r 0 = H hist /\ peval ds (nth i r 0) = 0).
Proof. exact @api_sc_sound. Qed.
Print Assumptions C28_soundness.

(** such a difference has at most [d] roots in the field *)
Theorem C28_few_bad_challenges : forall (K : Fld) (ds : list K), nonzero ds ->
  forall l, NoDup l -> (forall x, In x l -> peval ds x = 0) -> (length l < length ds)%nat.
Proof. exact @api_few_roots. Qed.
Print Assumptions C28_few_bad_challenges.

(** the sum of x*y over {0,1}^2 is 1: the honest proof is accepted with a final claim that
    is the value of x*y; the same messages for the claim 2 lead to a wrong final claim *)
Example C28_case : let f (r : list Fp) := nth 0 r 0 * nth 1 r 0 in
  let run claim := (do v <- sc_verify exH [[fp 0]; [fp 0]] claim 2 1 []; let '(e, r, _) := v in Ok (feqb e (f r))) in
  deg_each 1 2 f /\ hsum 2 f = fp 1 /\ run (fp 1) = Ok true /\ run (fp 2) = Ok false.
Proof. split; [exact case28_deg|]. zqs. Qed.

(** C29.  [2] and [3] must be nonzero in the field because the provers interpolate. *)
Theorem C29_cubic : forall (K : Fld) (G : Mod K) (E : Enc G) (H : log E -> K), (of_nat 2 : K) <> 0 -> (of_nat 3 : K) <> 0 ->
  forall (f : K -> K -> K -> K) (n : nat) (A B C : dense K) (claim : K) (tr : log E),
  (forall a a' b b' c c', exists cs, length cs = 4%nat /\ forall t, f (a + t * a') (b + t * b') (c + t * c') = peval cs t) ->
  dense_ok A -> dense_ok B -> dense_ok C -> dnum_vars A = n -> dnum_vars B = n -> dnum_vars C = n ->
  claim = sumn (2 ^ n) (fun i => f (nth i (live A) 0) (nth i (live B) 0) (nth i (live C) 0)) ->
  exists polys r tr', length r = n /\
    prove_cubic H claim n A B C f tr = Ok (polys, r, [mle (live A) r; mle (live B) r; mle (live C) r], tr') /\
    sc_verify H polys claim n 3 tr = Ok (f (mle (live A) r) (mle (live B) r) (mle (live C) r), r, tr').
Proof. exact @api_cubic. Qed.
Print Assumptions C29_cubic.

Theorem C29_cubic_batched : forall (K : Fld) (G : Mod K) (E : Enc G) (H : log E -> K), (of_nat 2 : K) <> 0 -> (of_nat 3 : K) <> 0 ->
  forall (f : K -> K -> K -> K) (n : nat) (par : list (dense K * dense K)) (C : dense K) (sq : list (dense K * dense K * dense K)) (coeffs : list K) (claim : K) (tr : log E),
  (forall a a' b b' c c', exists cs, length cs = 4%nat /\ forall t, f (a + t * a') (b + t * b') (c + t * c') = peval cs t) ->
  (dense_ok C /\ dnum_vars C = n) ->
  (forall A B, In (A, B) par -> (dense_ok A /\ dnum_vars A = n) /\ (dense_ok B /\ dnum_vars B = n)) ->
  (forall A B C, In (A, B, C) sq -> (dense_ok A /\ dnum_vars A = n) /\ (dense_ok B /\ dnum_vars B = n) /\ (dense_ok C /\ dnum_vars C = n)) ->
  (length par + length sq <= length coeffs)%nat ->
  claim = dot (map (fun '(A, B) => sumn (2 ^ n) (fun i => f (nth i (live A) 0) (nth i (live B) 0) (nth i (live C) 0))) par ++
               map (fun '(A, B, C) => sumn (2 ^ n) (fun i => f (nth i (live A) 0) (nth i (live B) 0) (nth i (live C) 0))) sq) coeffs ->
  exists polys r tr', length r = n /\
    prove_cubic_batched H claim n par C sq coeffs f tr =
      Ok (polys, r, (map (fun x => mle (live (fst x)) r) par, map (fun x => mle (live (snd x)) r) par, mle (live C) r),
          (map (fun x => mle (live (fst (fst x))) r) sq, map (fun x => mle (live (snd (fst x))) r) sq, map (fun x => mle (live (snd x)) r) sq), tr') /\
    sc_verify H polys claim n 3 tr =
      Ok (dot (map (fun '(A, B) => f (mle (live A) r) (mle (live B) r) (mle (live C) r)) par ++
               map (fun '(A, B, C) => f (mle (live A) r) (mle (live B) r) (mle (live C) r)) sq) coeffs, r, tr').
Proof. exact @api_batched. Qed.
Print Assumptions C29_cubic_batched.

(** the two zero-knowledge variants: claims are committed ([ped1] is the commitment to one value) *)
Theorem C29_zk_quad : forall (K : Fld) (G : Mod K) (E : Enc G) (H : log E -> K), (of_nat 2 : K) <> 0 ->
  forall (f : K -> K -> K) (n : nat) (A B : dense K) (claim blind : K) (g1 gN : gens G) (tr tape : log E),
  (forall a a' b b', exists cs, length cs = 3%nat /\ forall t, f (a + t * a') (b + t * b') = peval cs t) ->
  gens_ok g1 -> gn g1 = 1%nat -> gens_ok gN -> gn gN = 3%nat -> (1 <= n)%nat ->
  dense_ok A -> dense_ok B -> dnum_vars A = n -> dnum_vars B = n ->
  claim = sumn (2 ^ n) (fun i => f (nth i (live A) 0) (nth i (live B) 0)) ->
  exists pf r ps bl tr' tape', length r = n /\
    prove_quad H claim blind n A B f g1 gN tr tape = Ok (pf, r, ps, [mle (live A) r; mle (live B) r], bl, tr', tape') /\
    zk_verify H pf (CommitModel.compress E (ped1 g1 claim blind)) n 2 g1 gN tr =
      Ok (CommitModel.compress E (ped1 g1 (f (mle (live A) r) (mle (live B) r)) bl), r, tr').
Proof. exact @api_quad. Qed.
Print Assumptions C29_zk_quad.

Theorem C29_zk_cubic_additive : forall (K : Fld) (G : Mod K) (E : Enc G) (H : log E -> K), (of_nat 2 : K) <> 0 -> (of_nat 3 : K) <> 0 ->
  forall (f : K -> K -> K -> K -> K) (n : nat) (A B C D : dense K) (claim blind : K) (g1 gN : gens G) (tr tape : log E),
  (forall a a' b b' c c' e e', exists cs, length cs = 4%nat /\ forall t, f (a + t * a') (b + t * b') (c + t * c') (e + t * e') = peval cs t) ->
  gens_ok g1 -> gn g1 = 1%nat -> gens_ok gN -> gn gN = 4%nat -> (1 <= n)%nat ->
  dense_ok A -> dense_ok B -> dense_ok C -> dense_ok D -> dnum_vars A = n -> dnum_vars B = n -> dnum_vars C = n -> dnum_vars D = n ->
  claim = sumn (2 ^ n) (fun i => f (nth i (live A) 0) (nth i (live B) 0) (nth i (live C) 0) (nth i (live D) 0)) ->
  exists pf r ps bl tr' tape', length r = n /\
    prove_cubic_additive H claim blind n A B C D f g1 gN tr tape =
      Ok (pf, r, ps, [mle (live A) r; mle (live B) r; mle (live C) r; mle (live D) r], bl, tr', tape') /\
    (forall p, In p ps -> dlen p = 1%nat) /\
    zk_verify H pf (CommitModel.compress E (ped1 g1 claim blind)) n 3 g1 gN tr =
      Ok (CommitModel.compress E (ped1 g1 (f (mle (live A) r) (mle (live B) r) (mle (live C) r) (mle (live D) r)) bl), r, tr').
Proof. exact @api_additive. Qed.
Print Assumptions C29_zk_cubic_additive.

(** the combinations the code uses (product_tree.rs:186-189, r1csproof.rs:86-90 and 118-121) meet the hypotheses *)
Theorem C29_code_combinations : forall (K : Fld),
  (forall a a' b b' c c' : K, exists cs, length cs = 4%nat /\ forall t, (a + t * a') * (b + t * b') * (c + t * c') = peval cs t) /\
  (forall a a' b b' c c' e e' : K, exists cs, length cs = 4%nat /\ forall t, (a + t * a') * ((b + t * b') * (c + t * c') - (e + t * e')) = peval cs t) /\
  (forall a a' b b' : K, exists cs, length cs = 3%nat /\ forall t, (a + t * a') * (b + t * b') = peval cs t).
Proof. exact @code_combos. Qed.
Print Assumptions C29_code_combinations.

(** two-variable tables: the right claim (a sum of products) gives a final claim that is the
    product of the reported values; a wrong claim does not *)
Example C29_case : (of_nat 2 : Fp) <> 0 /\ (of_nat 3 : Fp) <> 0 /\
  let run claim := (do A <- dense_new [fp 4; fp 9; fp 1; fp 5]; do B <- dense_new [fp 2; fp 3; fp 7; fp 8]; do C <- dense_new [fp 1; fp 0; fp 1; fp 6];
    do p <- prove_cubic exH claim 2 A B C (fun a b c => a * b * c) []; let '(polys, r, fin, tr1) := p in
    do v <- sc_verify exH polys claim 2 3 []; let '(e, r', tr2) := v in
    Ok (feqb e (nth 0 fin 0 * nth 1 fin 0 * nth 2 fin 0))) in
  fp (4 * 2 * 1 + 9 * 3 * 0 + 1 * 7 * 1 + 5 * 8 * 6) = fp 255 /\ run (fp 255) = Ok true /\ run (fp 256) = Ok false.
Proof. split; [exact (proj1 two_three_fp)|]. split; [exact (proj2 two_three_fp)|]. zqs. Qed.
Example C29_zk_case :
  let g4 := MkGens (G:=exG) 4 [fp 2; fp 5; fp 7; fp 11] (fp 3) in
  (do A <- dense_new [fp 4; fp 9]; do B <- dense_new [fp 2; fp 3]; do C <- dense_new [fp 1; fp 0]; do D <- dense_new [fp 1; fp 6];
   do p <- prove_cubic_additive exH (fp (4 * (2 * 1 - 1) + 9 * (3 * 0 - 6))) (fp 5) 1 A B C D (fun a b c d => a * (b * c - d)) gens1 g4 [] [];
   let '(pf, r, ps, fin, bl, tr1, tp) := p in
   do c <- commit1 (fp (4 * (2 * 1 - 1) + 9 * (3 * 0 - 6))) (fp 5) gens1;
   do _ <- zk_verify exH pf (CommitModel.compress exE c) 1 3 gens1 g4 []; Ok tt) = Ok tt.
Proof. zqs. Qed.
