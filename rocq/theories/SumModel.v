(** Model of packages/Spartan-secq/src/sumcheck.rs.

    The Rust file repeats the same loops for two, three and four polynomials.  Here the
    polynomials of one sum-check are a list and the combining closure takes the list of
    their values; [prove_quad] and the others at the end fix the numbers.
    Simplification: the value at 3 is computed by the shared helper in the quadratic
    case too, where the code does not compute it; it has no effect there. *)
From Coq Require Import String List Arith Bool.
From Verif Require Import Base Field Vec MathModel PolyModel CommitModel SigmaModel.
Import ListNotations.

Section Sum.
  Context {K : Fld} {G : Mod K} {E : Enc G}.
  Variable H : log E -> K.
  Local Open Scope fld_scope.
  Local Notation cmp := (CommitModel.compress E).

  (** unipoly.rs:112-120 *)
  Definition app_unipoly (l : string) (p : list K) (tr : log E) : log E :=
    MText l "UniPoly_end" :: rev (map (MScalar "coeff") p) ++ MText l "UniPoly_begin" :: tr.

  (** * SumcheckInstanceProof::verify, sumcheck.rs:28-62; a proof is the list of the
      compressed round polynomials (sumcheck.rs:19-21).  Every test is an [assert_eq!]. *)
  Fixpoint sc_rounds (polys : list (list K)) (e : K) (degree_bound : nat) (tr : log E) : res (K * list K * log E) :=
    match polys with
    | [] => Ok (e, [], tr)
    | c :: polys' =>
        do poly <- PolyModel.decompress c e;
        do d <- degree poly;
        assert (Nat.eqb d degree_bound);
        do e0 <- eval_at_zero poly;
        assert (feqb (e0 + eval_at_one poly) e);
        let tr := app_unipoly "poly" poly tr in
        let '(r_i, tr) := challenge H "challenge_nextround" tr in
        do e' <- uni_evaluate poly r_i;
        do rest <- sc_rounds polys' e' degree_bound tr;
        let '(ef, r, tr) := rest in
        Ok (ef, r_i :: r, tr)
    end.
  Definition sc_verify (polys : list (list K)) (claim : K) (num_rounds degree_bound : nat) (tr : log E) : res (K * list K * log E) :=
    assert (Nat.eqb (length polys) num_rounds);
    sc_rounds polys claim degree_bound tr.

  (** * One round of the provers: the sums of the combined values with the first free
      variable set to 0, 2 and 3 (sumcheck.rs:200-229, 291-358, 458-470, 621-653) *)
  Definition points_at (ps : list (dense K)) (len i : nat) : res (list K * list K * list K) :=
    do lo <- mapM (fun p => dense_index p i) ps;
    do hi <- mapM (fun p => dense_index p (len + i)%nat) ps;
    let two := map2 (fun l h => h + h - l) lo hi in
    let three := map2 (fun t d => t + d) two (map2 (fun l h => h - l) lo hi) in
    Ok (lo, two, three).
  Definition round_points (comb : list K -> K) (ps : list (dense K)) : res (K * K * K) :=
    match ps with
    | [] => Panic
    | p :: _ =>
        let len := (dlen p / 2)%nat in
        do vs <- mapM (fun i => do q <- points_at ps len i;
                                let '(lo, two, three) := q in
                                Ok (comb lo, comb two, comb three)) (seq 0 len);
        Ok (fsum (map (fun v => fst (fst v)) vs), fsum (map (fun v => snd (fst v)) vs), fsum (map snd vs))
    end.
  Definition bind_all (ps : list (dense K)) (r : K) : res (list (dense K)) :=
    mapM (fun p => bound_poly_var_top p r) ps.

  (** sumcheck.rs:231-232 and 472-473, 655-661: from the sums to the round polynomial *)
  Definition cubic_poly (e : K) (v : K * K * K) : res (list K) :=
    let '(e0, e2, e3) := v in from_evals [e0; e - e0; e2; e3].
  Definition quad_poly (e : K) (v : K * K * K) : res (list K) :=
    let '(e0, e2, _) := v in from_evals [e0; e - e0; e2].

  (** * SumcheckInstanceProof::prove_cubic, sumcheck.rs:184-253 *)
  Fixpoint cubic_rounds (comb : list K -> K) (n : nat) (e : K) (ps : list (dense K)) (tr : log E)
    : res (list (list K) * list K * list (dense K) * log E) :=
    match n with
    | O => Ok ([], [], ps, tr)
    | S n' =>
        do v <- round_points comb ps;
        do poly <- cubic_poly e v;
        let tr := app_unipoly "poly" poly tr in
        let '(r_j, tr) := challenge H "challenge_nextround" tr in
        do ps <- bind_all ps r_j;
        do e <- uni_evaluate poly r_j;
        do cp <- PolyModel.compress poly;
        do rest <- cubic_rounds comb n' e ps tr;
        let '(polys, r, ps, tr) := rest in
        Ok (cp :: polys, r_j :: r, ps, tr)
    end.
  Definition on3 (f : K -> K -> K -> K) (l : list K) : K := match l with [a; b; c] => f a b c | _ => 0 end.
  Definition prove_cubic (claim : K) (num_rounds : nat) (A B C : dense K) (comb : K -> K -> K -> K) (tr : log E)
    : res (list (list K) * list K * list K * log E) :=
    do q <- cubic_rounds (on3 comb) num_rounds claim [A; B; C] tr;
    let '(polys, r, ps, tr) := q in
    do fin <- mapM (fun p => dense_index p 0) ps;
    Ok (polys, r, fin, tr).

  (** * prove_cubic_batched, sumcheck.rs:255-425.  [par] holds the pairs (A_i, B_i) that
      share the polynomial [C], [sq] the triples; [zip] and [izip!] stop at the shortest
      list, hence pairs and triples. *)
  Definition batch_points (comb : K -> K -> K -> K) (par : list (dense K * dense K)) (C : dense K)
    (sq : list (dense K * dense K * dense K)) : res (list (K * K * K)) :=
    do a <- mapM (fun '(A, B) => round_points (on3 comb) [A; B; C]) par;
    do b <- mapM (fun '(A, B, C) => round_points (on3 comb) [A; B; C]) sq;
    Ok (a ++ b).
  Definition combine_points (coeffs : list K) (evals : list (K * K * K)) : res (K * K * K) :=
    assert (Nat.leb (length evals) (length coeffs));
    Ok (dot (map (fun v => fst (fst v)) evals) coeffs, dot (map (fun v => snd (fst v)) evals) coeffs,
        dot (map snd evals) coeffs).
  Fixpoint batch_rounds (comb : K -> K -> K -> K) (coeffs : list K) (n : nat) (e : K)
    (par : list (dense K * dense K)) (C : dense K) (sq : list (dense K * dense K * dense K)) (tr : log E)
    : res (list (list K) * list K * (list (dense K * dense K) * dense K * list (dense K * dense K * dense K)) * log E) :=
    match n with
    | O => Ok ([], [], (par, C, sq), tr)
    | S n' =>
        do evals <- batch_points comb par C sq;
        do v <- combine_points coeffs evals;
        do poly <- cubic_poly e v;
        let tr := app_unipoly "poly" poly tr in
        let '(r_j, tr) := challenge H "challenge_nextround" tr in
        do par <- mapM (fun '(A, B) => do A <- bound_poly_var_top A r_j; do B <- bound_poly_var_top B r_j; Ok (A, B)) par;
        do C <- bound_poly_var_top C r_j;
        do sq <- mapM (fun '(A, B, C) => do A <- bound_poly_var_top A r_j; do B <- bound_poly_var_top B r_j;
                                         do C <- bound_poly_var_top C r_j; Ok (A, B, C)) sq;
        do e <- uni_evaluate poly r_j;
        do cp <- PolyModel.compress poly;
        do rest <- batch_rounds comb coeffs n' e par C sq tr;
        let '(polys, r, ps, tr) := rest in
        Ok (cp :: polys, r_j :: r, ps, tr)
    end.
  Definition prove_cubic_batched (claim : K) (num_rounds : nat) (par : list (dense K * dense K)) (C : dense K)
    (sq : list (dense K * dense K * dense K)) (coeffs : list K) (comb : K -> K -> K -> K) (tr : log E)
    : res (list (list K) * list K * (list K * list K * K) * (list K * list K * list K) * log E) :=
    do q <- batch_rounds comb coeffs num_rounds claim par C sq tr;
    let '(polys, r, (par, C, sq), tr) := q in
    do pa <- mapM (fun p => dense_index (fst p) 0) par;
    do pb <- mapM (fun p => dense_index (snd p) 0) par;
    do pc <- dense_index C 0;
    do sa <- mapM (fun p => dense_index (fst (fst p)) 0) sq;
    do sb <- mapM (fun p => dense_index (snd (fst p)) 0) sq;
    do sc <- mapM (fun p => dense_index (snd p) 0) sq;
    Ok (polys, r, (pa, pb, pc), (sa, sb, sc), tr).

  (** * ZKSumcheckInstanceProof, sumcheck.rs:66-70 *)
  Record zkproof : Type := MkZK { zk_polys : list E; zk_evals : list E; zk_proofs : list (dproof E) }.
  (** sumcheck.rs:137-159, 534-556, 725-747: the vector <(2,1,1,..), (1,r,r^2,..)>
      weighted by [w] *)
  Fixpoint powers (x : K) (cur : K) (n : nat) : list K :=
    match n with O => [] | S n' => cur :: powers x (cur * x) n' end.
  Definition zk_vector (n : nat) (r w0 w1 : K) : list K :=
    match n with
    | O => []
    | S n' => map2 (fun s e => w0 * s + w1 * e) ((1 + 1) :: repeat 1 n') (powers r 1 n)
    end.
  (** sumcheck.rs:102-177 *)
  Fixpoint zk_rounds (comm_polys comm_evals : list E) (proofs : list (dproof E)) (comm_claim : E) (degree_bound : nat)
    (g1 gN : gens G) (tr : log E) : res (list K * log E) :=
    match comm_polys with
    | [] => Ok ([], tr)
    | comm_poly :: comm_polys' =>
        let tr := app_point "comm_poly" comm_poly tr in
        let '(r_i, tr) := challenge H "challenge_nextround" tr in
        do comm_eval <- idx comm_evals 0;
        let tr := app_point "comm_claim_per_round" comm_claim tr in
        let tr := app_point "comm_eval" comm_eval tr in
        let '(w0, tr) := challenge H "combine_two_claims_to_one" tr in
        let '(w1, tr) := challenge H "combine_two_claims_to_one" tr in
        do cc <- unpack comm_claim;
        do ce <- unpack comm_eval;
        do comm_target <- msm [w0; w1] [cc; ce];
        let a := zk_vector (degree_bound + 1) r_i w0 w1 in
        do proof <- idx proofs 0;
        match dp_verify H proof g1 gN tr a comm_poly (cmp comm_target) with
        | Ok tr =>
            do rest <- zk_rounds comm_polys' (tl comm_evals) (tl proofs) comm_eval degree_bound g1 gN tr;
            let '(r, tr) := rest in
            Ok (r_i :: r, tr)
        | Err _ => Err InternalError
        | Panic => Panic
        end
    end.
  (** sumcheck.rs:85-180; the last line indexes [len - 1] *)
  Definition zk_verify (pf : zkproof) (comm_claim : E) (num_rounds degree_bound : nat) (g1 gN : gens G) (tr : log E)
    : res (E * list K * log E) :=
    assert (Nat.eqb (gn gN) (degree_bound + 1)%nat);
    assert (Nat.eqb (length (zk_polys pf)) num_rounds);
    assert (Nat.eqb (length (zk_evals pf)) num_rounds);
    do q <- zk_rounds (zk_polys pf) (zk_evals pf) (zk_proofs pf) comm_claim degree_bound g1 gN tr;
    let '(r, tr) := q in
    assert (Nat.leb 1 num_rounds);
    do ce <- idx (zk_evals pf) (num_rounds - 1);
    Ok (ce, r, tr).

  (** * prove_quad (sumcheck.rs:429-587) and prove_cubic_with_additive_term
      (sumcheck.rs:589-777): the loop, by the number of rounds left.  [blind_sc] is the
      blind of the current claim. *)
  Fixpoint zk_prove_rounds (mk : K -> K * K * K -> res (list K)) (comb : list K -> K) (g1 gN : gens G)
    (n : nat) (blinds_poly blinds_evals : list K) (claim : K) (comm_claim : E) (blind_sc : K)
    (ps : list (dense K)) (tr tape : log E)
    : res (zkproof * list K * list (dense K) * log E * log E) :=
    match n with
    | O => Ok (MkZK [] [] [], [], ps, tr, tape)
    | S n' =>
        do v <- round_points comb ps;
        do poly <- mk claim v;
        do bp <- idx blinds_poly 0;
        do cp <- commit poly bp gN; let comm_poly := cmp cp in
        let tr := app_point "comm_poly" comm_poly tr in
        let '(r_j, tr) := challenge H "challenge_nextround" tr in
        do ps <- bind_all ps r_j;
        do eval <- uni_evaluate poly r_j;
        do be <- idx blinds_evals 0;
        do ce <- commit1 eval be g1; let comm_eval := cmp ce in
        let tr := app_point "comm_claim_per_round" comm_claim tr in
        let tr := app_point "comm_eval" comm_eval tr in
        let '(w0, tr) := challenge H "combine_two_claims_to_one" tr in
        let '(w1, tr) := challenge H "combine_two_claims_to_one" tr in
        let target := w0 * claim + w1 * eval in
        do ccg <- unpack comm_claim;
        do ceg <- unpack comm_eval;
        do ct <- msm [w0; w1] [ccg; ceg];
        let blind := w0 * blind_sc + w1 * be in
        do tc <- commit1 target blind g1;
        assert (eeqb E (cmp tc) (cmp ct));
        do d <- degree poly;
        let a := zk_vector (d + 1) r_j w0 w1 in
        do p <- dp_prove H g1 gN tr tape poly bp a target blind;
        let '(proof, _, _, tr, tape) := p in
        do rest <- zk_prove_rounds mk comb g1 gN n' (tl blinds_poly) (tl blinds_evals) eval comm_eval be ps tr tape;
        let '(pf, r, ps, tr, tape) := rest in
        Ok (MkZK (comm_poly :: zk_polys pf) (comm_eval :: zk_evals pf) (proof :: zk_proofs pf), r_j :: r, ps, tr, tape)
    end.
  Definition zk_prove (mk : K -> K * K * K -> res (list K)) (comb : list K -> K) (claim blind_claim : K) (num_rounds : nat)
    (ps : list (dense K)) (g1 gN : gens G) (tr tape : log E)
    : res (zkproof * list K * list (dense K) * K * log E * log E) :=
    let '(blinds_poly, tape) := random_vector H "blinds_poly" num_rounds tape in
    let '(blinds_evals, tape) := random_vector H "blinds_evals" num_rounds tape in
    do cc <- commit1 claim blind_claim g1;
    do q <- zk_prove_rounds mk comb g1 gN num_rounds blinds_poly blinds_evals claim (cmp cc) blind_claim ps tr tape;
    let '(pf, r, ps, tr, tape) := q in
    assert (Nat.leb 1 num_rounds);
    do bl <- idx blinds_evals (num_rounds - 1);
    Ok (pf, r, ps, bl, tr, tape).

  Definition on2 (f : K -> K -> K) (l : list K) : K := match l with [a; b] => f a b | _ => 0 end.
  Definition on4 (f : K -> K -> K -> K -> K) (l : list K) : K := match l with [a; b; c; d] => f a b c d | _ => 0 end.
  (** sumcheck.rs:429-587; the second result is the list of bound polynomials, the values
      [poly[0]] the third *)
  Definition prove_quad (claim blind_claim : K) (num_rounds : nat) (A B : dense K) (comb : K -> K -> K)
    (g1 gN : gens G) (tr tape : log E) : res (zkproof * list K * list (dense K) * list K * K * log E * log E) :=
    do q <- zk_prove quad_poly (on2 comb) claim blind_claim num_rounds [A; B] g1 gN tr tape;
    let '(pf, r, ps, bl, tr, tape) := q in
    do fin <- mapM (fun p => dense_index p 0) ps;
    Ok (pf, r, ps, fin, bl, tr, tape).
  (** sumcheck.rs:589-777 *)
  Definition prove_cubic_additive (claim blind_claim : K) (num_rounds : nat) (A B C D : dense K) (comb : K -> K -> K -> K -> K)
    (g1 gN : gens G) (tr tape : log E) : res (zkproof * list K * list (dense K) * list K * K * log E * log E) :=
    do q <- zk_prove cubic_poly (on4 comb) claim blind_claim num_rounds [A; B; C; D] g1 gN tr tape;
    let '(pf, r, ps, bl, tr, tape) := q in
    do fin <- mapM (fun p => dense_index p 0) ps;
    Ok (pf, r, ps, fin, bl, tr, tape).
End Sum.
Arguments zkproof {K G} E.
