(** Model of packages/Spartan-secq/src/product_tree.rs. *)
From Coq Require Import String List Arith Bool.
From Verif Require Import Base Field Vec MathModel PolyModel CommitModel SigmaModel SumModel.
Import ListNotations.

Section Prod.
  Context {K : Fld} {G : Mod K} {E : Enc G}.
  Variable H : log E -> K.
  Local Open Scope fld_scope.

  (** * ProductCircuit: product_tree.rs:11-15 *)
  Record pcircuit : Type := MkPC { pc_left : list (dense K); pc_right : list (dense K) }.
  (** product_tree.rs:25-30: the products of the entries number lo..lo+n-1 *)
  Definition layer_products (l r : dense K) (lo n : nat) : res (list K) :=
    mapM (fun i => do x <- dense_index l i; do y <- dense_index r i; Ok (x * y)) (seq lo n).
  (** product_tree.rs:18-36 *)
  Definition compute_layer (l r : dense K) : res (dense K * dense K) :=
    let len := (dlen l + dlen r)%nat in
    do a <- layer_products l r 0 (len / 4);
    do b <- layer_products l r (len / 4) (len / 2 - len / 4);
    do a <- dense_new a;
    do b <- dense_new b;
    Ok (a, b).
  (** product_tree.rs:48-52: [n] further layers *)
  Fixpoint pc_layers (n : nat) (l r : dense K) : res (list (dense K) * list (dense K)) :=
    match n with
    | O => Ok ([l], [r])
    | S n' =>
        do q <- compute_layer l r;
        do rest <- pc_layers n' (fst q) (snd q);
        Ok (l :: fst rest, r :: snd rest)
    end.
  (** product_tree.rs:38-58.  [num_layers - 1] underflows for a table of one entry: a
      panic in a debug build; a release build would go on with 2^64 - 1 empty layers. *)
  Definition pc_new (poly : dense K) : res pcircuit :=
    do num_layers <- log_2 (dlen poly);
    do q <- dense_split poly (dlen poly / 2);
    assert (Nat.leb 1 num_layers);
    do ls <- pc_layers (num_layers - 1) (fst q) (snd q);
    Ok (MkPC (fst ls) (snd ls)).
  (** product_tree.rs:60-65 *)
  Definition pc_evaluate (c : pcircuit) : res K :=
    let len := length (pc_left c) in
    assert (Nat.leb 1 len);
    do l <- idx (pc_left c) (len - 1);
    assert (Nat.eqb (dnum_vars l) 0);
    do r <- idx (pc_right c) (len - 1);
    assert (Nat.eqb (dnum_vars r) 0);
    do x <- dense_index l 0;
    do y <- dense_index r 0;
    Ok (x * y).

  (** * DotProductCircuit: product_tree.rs:68-72 *)
  Record dcircuit : Type := MkDC { dc_left : dense K; dc_right : dense K; dc_weight : dense K }.
  (** product_tree.rs:75-83 *)
  Definition dc_new (l r w : dense K) : res dcircuit :=
    assert (Nat.eqb (dlen l) (dlen r));
    assert (Nat.eqb (dlen l) (dlen w));
    Ok (MkDC l r w).
  (** product_tree.rs:85-89 *)
  Definition dc_evaluate (c : dcircuit) : res K :=
    do vs <- mapM (fun i => do a <- dense_index (dc_left c) i; do b <- dense_index (dc_right c) i;
                            do w <- dense_index (dc_weight c) i; Ok (a * b * w)) (seq 0 (dlen (dc_left c)));
    Ok (fsum vs).
  (** product_tree.rs:91-109 *)
  Definition dc_split (c : dcircuit) : res (dcircuit * dcircuit) :=
    let i := (dlen (dc_left c) / 2)%nat in
    assert (Nat.eqb (i * 2)%nat (dlen (dc_left c)));
    do l <- dense_split (dc_left c) i;
    do r <- dense_split (dc_right c) i;
    do w <- dense_split (dc_weight c) i;
    Ok (MkDC (fst l) (fst r) (fst w), MkDC (snd l) (snd r) (snd w)).

  (** product_tree.rs:186-189 and 296-299 *)
  Definition prod3 (a b c : K) : K := a * b * c.

  (** * ProductCircuitEvalProof: product_tree.rs:114-117 and 158-160 *)
  Record layerproof : Type := MkLayer { ly_proof : list (list K); ly_claims : list K }.
  (** product_tree.rs:179-217: the layers with the given numbers, in this order.  The
      tables of a layer are bound by the sum-check; no layer is visited twice and the
      circuit is not read afterwards, so the bound tables are dropped. *)
  Fixpoint pe_prove_loop (c : pcircuit) (ids : list nat) (claim : K) (rand : list K) (tr : log E)
    : res (list layerproof * K * list K * log E) :=
    match ids with
    | [] => Ok ([], claim, rand, tr)
    | id :: ids' =>
        do l <- idx (pc_left c) id;
        do r <- idx (pc_right c) id;
        let len := (dlen l + dlen r)%nat in
        do C <- dense_new (eq_evals rand);
        assert (Nat.eqb (dlen C) (len / 2));
        do num_rounds <- log_2 (dlen C);
        do p <- prove_cubic H claim num_rounds l r C prod3 tr;
        let '(polys, rand_prod, claims, tr) := p in
        do c0 <- idx claims 0;
        do c1 <- idx claims 1;
        let tr := app_scalar "claim_prod_left" c0 tr in
        let tr := app_scalar "claim_prod_right" c1 tr in
        let '(r_layer, tr) := challenge H "challenge_r_layer" tr in
        do rest <- pe_prove_loop c ids' (c0 + r_layer * (c1 - c0)) (r_layer :: rand_prod) tr;
        let '(pfs, claim, rand, tr) := rest in
        Ok (MkLayer polys (firstn (length claims - 1) claims) :: pfs, claim, rand, tr)
    end.
  (** product_tree.rs:170-220 *)
  Definition pce_prove (c : pcircuit) (tr : log E) : res (list layerproof * K * list K * log E) :=
    do claim <- pc_evaluate c;
    pe_prove_loop c (rev (seq 0 (length (pc_left c)))) claim [] tr.
  (** product_tree.rs:240-245, 440-445 *)
  Definition eq_points (a b : list K) : K := fprod (map2 (fun x y => x * y + (1 - x) * (1 - y)) a b).
  (** product_tree.rs:233-256: the remaining layers, [i] layers having been checked *)
  Fixpoint pe_verify_loop (pfs : list layerproof) (i : nat) (claim : K) (rand : list K) (tr : log E)
    : res (K * list K * log E) :=
    match pfs with
    | [] => Ok (claim, rand, tr)
    | pf :: pfs' =>
        do v <- sc_verify H (ly_proof pf) claim i 3 tr;
        let '(claim_last, rand_prod, tr) := v in
        do c0 <- idx (ly_claims pf) 0;
        do c1 <- idx (ly_claims pf) 1;
        let tr := app_scalar "claim_prod_left" c0 tr in
        let tr := app_scalar "claim_prod_right" c1 tr in
        assert (Nat.eqb (length rand) (length rand_prod));
        assert (feqb (c0 * c1 * eq_points rand rand_prod) claim_last);
        let '(r_layer, tr) := challenge H "challenge_r_layer" tr in
        pe_verify_loop pfs' (S i) ((1 - r_layer) * c0 + r_layer * c1) (r_layer :: rand_prod) tr
    end.
  (** product_tree.rs:222-259 *)
  Definition pce_verify (pf : list layerproof) (eval : K) (len : nat) (tr : log E) : res (K * list K * log E) :=
    do num_layers <- log_2 len;
    assert (Nat.eqb (length pf) num_layers);
    pe_verify_loop pf 0 eval [] tr.

  (** * ProductCircuitEvalProofBatched: product_tree.rs:136-141 and 162-166 *)
  Record blayer : Type := MkBLayer { by_proof : list (list K); by_left : list K; by_right : list K }.
  Record pbproof : Type := MkBProof { bp_layers : list blayer; bp_dotp : list K * list K * list K }.
  (** product_tree.rs:351-354 *)
  Definition app_claims (ls rs : list K) (tr : log E) : log E :=
    fold_left (fun tr '(l, r) => app_scalar "claim_prod_right" r (app_scalar "claim_prod_left" l tr)) (combine ls rs) tr.
  (** product_tree.rs:358-362 *)
  Definition app_dotp (ls rs ws : list K) (tr : log E) : log E :=
    fold_left (fun tr '(l, r, w) => app_scalar "claim_dotp_weight" w (app_scalar "claim_dotp_right" r (app_scalar "claim_dotp_left" l tr)))
      (combine (combine ls rs) ws) tr.
  (** product_tree.rs:370-372 *)
  Definition condense (r_layer : K) (ls rs : list K) : list K := map2 (fun l r => l + r_layer * (r - l)) ls rs.
  (** product_tree.rs:279-384: the layers with the given numbers, in this order; the
      results are the layer proofs, the claims of the dot products (set at layer 0),
      the claims to verify and the point *)
  Fixpoint pb_prove_loop (cs : list pcircuit) (ds : list dcircuit) (ids : list nat) (claims rand : list K)
    (dotp : list K * list K * list K) (tr : log E)
    : res (list blayer * (list K * list K * list K) * list K * list K * log E) :=
    match ids with
    | [] => Ok ([], dotp, claims, rand, tr)
    | id :: ids' =>
        do par <- mapM (fun c => do l <- idx (pc_left c) id; do r <- idx (pc_right c) id; Ok (l, r)) cs;
        do f <- idx par 0;
        let len := (dlen (fst f) + dlen (snd f))%nat in
        do C <- dense_new (eq_evals rand);
        assert (Nat.eqb (dlen C) (len / 2));
        do num_rounds <- log_2 (dlen C);
        do extra <- (if Nat.eqb id 0 then
                       mapM (fun d => do v <- dc_evaluate d;
                                      assert (Nat.eqb (len / 2) (dlen (dc_left d)));
                                      assert (Nat.eqb (len / 2) (dlen (dc_right d)));
                                      assert (Nat.eqb (len / 2) (dlen (dc_weight d)));
                                      Ok v) ds
                     else Ok []);
        let claims := claims ++ extra in
        let sq := if Nat.eqb id 0 then map (fun d => (dc_left d, dc_right d, dc_weight d)) ds else [] in
        let '(coeffs, tr) := challenges H "rand_coeffs_next_layer" (length claims) tr in
        let claim := dot claims coeffs in
        do p <- prove_cubic_batched H claim num_rounds par C sq coeffs prod3 tr;
        let '(polys, rand_prod, (pa, pb, _), (da, db, dw), tr) := p in
        let tr := app_claims pa pb tr in
        let tr := if Nat.eqb id 0 then app_dotp da db dw tr else tr in
        let dotp := if Nat.eqb id 0 then (da, db, dw) else dotp in
        let '(r_layer, tr) := challenge H "challenge_r_layer" tr in
        do rest <- pb_prove_loop cs ds ids' (condense r_layer pa pb) (r_layer :: rand_prod) dotp tr;
        let '(ls, dotp, claims, rand, tr) := rest in
        Ok (MkBLayer polys pa pb :: ls, dotp, claims, rand, tr)
    end.
  (** product_tree.rs:263-392; the result is the proof and the point *)
  Definition pcb_prove (cs : list pcircuit) (ds : list dcircuit) (tr : log E) : res (pbproof * list K * log E) :=
    match cs with
    | [] => Panic
    | c :: _ =>
        do claims <- mapM pc_evaluate cs;
        do q <- pb_prove_loop cs ds (rev (seq 0 (length (pc_left c)))) claims [] ([], [], []) tr;
        let '(ls, dotp, _, rand, tr) := q in
        Ok (MkBProof ls dotp, rand, tr)
    end.

  (** product_tree.rs:451-464: the dot-product part of the expected claim *)
  Definition dotp_expected (coeffs : list K) (np : nat) (dotp : list K * list K * list K) : res K :=
    let '(dl, dr, dw) := dotp in
    do vs <- mapM (fun i => do l <- idx dl i; do r <- idx dr i; do w <- idx dw i; do c <- idx coeffs (i + np)%nat;
                            Ok (c * l * r * w)) (seq 0 (length dl));
    Ok (fsum vs).
  (** product_tree.rs:478-494 *)
  Definition dotp_claims (r_layer : K) (n : nat) (dotp : list K * list K * list K) : res (list K) :=
    let '(dl, dr, dw) := dotp in
    let half (l : list K) (i : nat) : res K :=
      do a <- idx l (2 * i)%nat; do b <- idx l (2 * i + 1)%nat; Ok (a + r_layer * (b - a)) in
    do vs <- mapM (fun i => do l <- half dl i; do r <- half dr i; do w <- half dw i; Ok [l; r; w]) (seq 0 (n / 2));
    Ok (concat vs).
  (** product_tree.rs:409-501: the remaining layers.  [last] is the number of the last one;
      [cd] is [claims_to_verify_dotp] *)
  Fixpoint pb_verify_loop (dotp : list K * list K * list K) (np : nat) (dotp_vec : list K) (last : nat)
    (pfs : list blayer) (i : nat) (claims rand cd : list K) (tr : log E) : res (list K * list K * list K * log E) :=
    match pfs with
    | [] => Ok (claims, cd, rand, tr)
    | pf :: pfs' =>
        let fin := Nat.eqb i last in
        let claims := if fin then claims ++ dotp_vec else claims in
        let '(coeffs, tr) := challenges H "rand_coeffs_next_layer" (length claims) tr in
        let claim := dot claims coeffs in
        do v <- sc_verify H (by_proof pf) claim i 3 tr;
        let '(claim_last, rand_prod, tr) := v in
        assert (Nat.eqb (length (by_left pf)) np);
        assert (Nat.eqb (length (by_right pf)) np);
        let tr := app_claims (by_left pf) (by_right pf) tr in
        assert (Nat.eqb (length rand) (length rand_prod));
        let eq := eq_points rand rand_prod in
        let expected := fsum (map2 (fun c p => c * p) coeffs (map2 (fun l r => l * r * eq) (by_left pf) (by_right pf))) in
        do extra <- (if fin then dotp_expected coeffs np dotp else Ok 0);
        let tr := if fin then app_dotp (fst (fst dotp)) (snd (fst dotp)) (snd dotp) tr else tr in
        assert (feqb (expected + extra) claim_last);
        let '(r_layer, tr) := challenge H "challenge_r_layer" tr in
        do cd' <- (if fin then dotp_claims r_layer (length dotp_vec) dotp else Ok []);
        pb_verify_loop dotp np dotp_vec last pfs' (S i) (condense r_layer (by_left pf) (by_right pf)) (r_layer :: rand_prod)
          (cd ++ cd') tr
    end.
  (** product_tree.rs:394-503 *)
  Definition pcb_verify (pf : pbproof) (prod_vec dotp_vec : list K) (len : nat) (tr : log E)
    : res (list K * list K * list K * log E) :=
    do num_layers <- log_2 len;
    assert (Nat.eqb (length (bp_layers pf)) num_layers);
    pb_verify_loop (bp_dotp pf) (length prod_vec) dotp_vec (num_layers - 1) (bp_layers pf) 0 prod_vec [] [] tr.
End Prod.
Arguments pcircuit K : clear implicits.
Arguments dcircuit K : clear implicits.
Arguments layerproof K : clear implicits.
Arguments blayer K : clear implicits.
Arguments pbproof K : clear implicits.
