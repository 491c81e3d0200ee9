(** Model of packages/Spartan-secq/src/sparse_mlpoly.rs: the commitment to several sparse
    matrices and the proof of their evaluations.  SparseMatPolynomial itself, its
    constructor and its evaluation are in R1csModel.v. *)
From Coq Require Import String List Arith Bool.
From Verif Require Import Base Field Vec MathModel PolyModel CommitModel SigmaModel SumModel R1csModel ProdModel.
Import ListNotations.

Section Spar.
  Context {K : Fld} {G : Mod K} {E : Enc G}.
  Variable H : log E -> K.
  Local Open Scope fld_scope.

  (** [Vec::resize] with zeros up to the next power of two (sparse_mlpoly.rs:144, 195, 776, 946) *)
  Definition resize_pow2 (l : list K) : list K := l ++ repeat 0 (next_pow2 (length l) - length l).

  (** * Derefs: sparse_mlpoly.rs:39-43.  The commitment (46-48) is a polynomial commitment. *)
  Record derefs : Type := MkDerefs { df_row : list (dense K); df_col : list (dense K); df_comb : dense K }.
  (** sparse_mlpoly.rs:51-66 *)
  Definition derefs_new (row col : list (dense K)) : res derefs :=
    assert (Nat.eqb (length row) (length col));
    do comb <- dense_merge (row ++ col);
    Ok (MkDerefs row col comb).
  (** sparse_mlpoly.rs:68-71 *)
  Definition derefs_commit (d : derefs) (g : dgens G) : res (list E) :=
    do c <- poly_commit H (df_comb d) g None;
    let '(C, _, _) := c in Ok C.
  (** sparse_mlpoly.rs:208-214 *)
  Definition app_derefs (l : string) (C : list E) (tr : log E) : log E :=
    MText "derefs_commitment" "end_derefs_commitment" ::
      app_commitment l C (MText "derefs_commitment" "begin_derefs_commitment" :: tr).

  (** sparse_mlpoly.rs:101-106, 167-172, 780-786, 807-813, 950-956, 974-980: the values are bound
      to the challenges, the last challenge first; one value remains *)
  Fixpoint bind_bots (d : dense K) (rs : list K) : res (dense K) :=
    match rs with [] => Ok d | r :: t => do d <- bound_poly_var_bot d r; bind_bots d t end.
  Definition joint_eval (evals chal : list K) : res K :=
    do d <- dense_new evals;
    do d <- bind_bots d (rev chal);
    assert (Nat.eqb (dlen d) 1);
    dense_index d 0.
  (** The same lines with what surrounds them, which prover and verifier share: absorb the
      claimed values, draw the challenges, reduce, absorb the joint value (sparse_mlpoly.rs:94-114,
      159-177, 776-790, 804-817, 946-959, 971-983).  The prover's [debug_assert_eq!] is left out. *)
  Definition n_to_one (l lc lj : string) (evals r : list K) (tr : log E) : res (list K * K * log E) :=
    let tr := app_scalars l evals tr in
    do n <- log_2 (length evals);
    let '(chal, tr) := challenges H lc n tr in
    do v <- joint_eval evals chal;
    Ok (chal ++ r, v, app_scalar lj v tr).

  (** * DerefsEvalProof: sparse_mlpoly.rs:75-77; a polynomial evaluation proof *)
  (** sparse_mlpoly.rs:84-127 and 130-151; the last line of the model drops the commitment to
      the value *)
  Definition de_prove (d : derefs) (er ec r : list K) (g : dgens G) (tr tape : log E) : res (lproof E * log E * log E) :=
    let tr := proto "Derefs evaluation proof" tr in
    let evals := resize_pow2 (er ++ ec) in
    do n <- log_2 (length evals);
    assert (Nat.eqb (dnum_vars (df_comb d)) (length r + n)%nat);
    do j <- n_to_one "evals_ops_val" "challenge_combine_n_to_one" "joint_claim_eval" evals r tr;
    let '(rj, v, tr) := j in
    do p <- pe_prove H (df_comb d) None rj v None g tr tape;
    let '(pf, _, tr, tape) := p in
    Ok (pf, tr, tape).
  (** sparse_mlpoly.rs:153-180 and 183-205 *)
  Definition de_verify (pf : lproof E) (r er ec : list K) (g : dgens G) (comm : list E) (tr : log E) : res (log E) :=
    let tr := proto "Derefs evaluation proof" tr in
    do j <- n_to_one "evals_ops_val" "challenge_combine_n_to_one" "joint_claim_eval" (resize_pow2 (er ++ ec)) r tr;
    let '(rj, v, tr) := j in
    pe_verify_plain H pf g tr rj v comm.

  (** * AddrTimestamps: sparse_mlpoly.rs:216-221 *)
  Record addrts : Type := MkAT { at_usize : list (list nat); at_addr : list (dense K); at_read : list (dense K); at_audit : dense K }.
  (** sparse_mlpoly.rs:237-245: one sequence of accesses; the read timestamps and the new audit
      timestamps.  A counter is bounded by the number of accesses, so [r_ts + 1] does not wrap. *)
  Fixpoint ts_ops (ops : list nat) (audit : list nat) : res (list nat * list nat) :=
    match ops with
    | [] => Ok ([], audit)
    | addr :: ops' =>
        assert (Nat.ltb addr (length audit));
        do r_ts <- idx audit addr;
        do q <- ts_ops ops' (upd audit addr (r_ts + 1)%nat);
        Ok (r_ts :: fst q, snd q)
    end.
  (** sparse_mlpoly.rs:229-249 *)
  Fixpoint ts_insts (insts : list (list nat)) (audit : list nat) : res (list (list nat) * list nat) :=
    match insts with
    | [] => Ok ([], audit)
    | ops :: insts' =>
        do q <- ts_ops ops audit;
        do rest <- ts_insts insts' (snd q);
        Ok (fst q :: fst rest, snd rest)
    end.
  (** sparse_mlpoly.rs:224-257 *)
  Definition at_new (num_cells num_ops : nat) (ops_addr : list (list nat)) : res addrts :=
    assert (forallb (fun item => Nat.eqb (length item) num_ops) ops_addr);
    do q <- ts_insts ops_addr (repeat 0%nat num_cells);
    do addr <- mapM dense_from_usize ops_addr;
    do read <- mapM dense_from_usize (fst q);
    do audit <- dense_from_usize (snd q);
    Ok (MkAT ops_addr addr read audit).
  (** sparse_mlpoly.rs:259-268 *)
  Definition deref_mem (addr : list nat) (mem : list K) : res (dense K) :=
    do vs <- mapM (fun a => idx mem a) addr; dense_new vs.
  (** sparse_mlpoly.rs:270-274 *)
  Definition at_deref (t : addrts) (mem : list K) : res (list (dense K)) :=
    mapM (fun i => do addr <- idx (at_usize t) i; deref_mem addr mem) (seq 0 (length (at_addr t))).

  (** * MultiSparseMatPolynomialAsDense: sparse_mlpoly.rs:277-284 *)
  Record mdense : Type := MkMD { md_batch : nat; md_val : list (dense K); md_row : addrts; md_col : addrts; md_ops : dense K; md_mem : dense K }.
  (** sparse_mlpoly.rs:353-355 *)
  Definition nz_entries (P : sparse K) : nat := next_pow2 (length (sM P)).
  (** sparse_mlpoly.rs:357-369 *)
  Definition to_dense_vecs (P : sparse K) (N : nat) : res (list nat * list nat * list K) :=
    assert (Nat.leb (nz_entries P) N);
    let fill {A} (f : entry K -> A) (z : A) := map f (sM P) ++ repeat z (N - length (sM P)) in
    Ok (fill erow 0%nat, fill ecol 0%nat, fill eval 0).
  (** sparse_mlpoly.rs:371-428 *)
  Definition multi_dense (Ps : list (sparse K)) : res mdense :=
    match Ps with
    | [] => Panic
    | P0 :: Ps' =>
        assert (forallb (fun P => Nat.eqb (snx P) (snx P0) && Nat.eqb (sny P) (sny P0)) Ps');
        let N := next_pow2 (fold_right Nat.max 0%nat (map nz_entries Ps)) in
        do vs <- mapM (fun P => to_dense_vecs P N) Ps;
        do val <- mapM (fun v => dense_new (snd v)) vs;
        let cells := pow2 (if Nat.ltb (sny P0) (snx P0) then snx P0 else sny P0) in
        do row <- at_new cells N (map (fun v => fst (fst v)) vs);
        do col <- at_new cells N (map (fun v => snd (fst v)) vs);
        do comb_ops <- dense_merge (at_addr row ++ at_read row ++ at_addr col ++ at_read col ++ val);
        do au <- dense_clone (at_audit row);
        do comb_mem <- dense_extend au (at_audit col);
        Ok (MkMD (length Ps) val row col comb_ops comb_mem)
    end.
  (** sparse_mlpoly.rs:514-519 *)
  Definition md_deref (d : mdense) (row_mem col_mem : list K) : res derefs :=
    do row <- at_deref (md_row d) row_mem;
    do col <- at_deref (md_col d) col_mem;
    derefs_new row col.

  (** * SparseMatPolyCommitmentGens: sparse_mlpoly.rs:286-290 *)
  Record sgens : Type := MkSG { sg_ops : dgens G; sg_mem : dgens G; sg_derefs : dgens G }.
  (** sparse_mlpoly.rs:293-318: all three are made from the same label, so from the same stream *)
  Definition sgens_new (nx ny nz batch : nat) (stream : nat -> G) : res sgens :=
    do lnz <- log_2 (next_pow2 nz);
    do l5 <- log_2 (next_pow2 (batch * 5));
    do l2 <- log_2 (next_pow2 (batch * 2));
    do gops <- pcgens_new (lnz + l5) stream;
    do gmem <- pcgens_new ((if Nat.ltb ny nx then nx else ny) + 1) stream;
    do gder <- pcgens_new (lnz + l2) stream;
    Ok (MkSG gops gmem gder).

  (** * SparseMatPolyCommitment: sparse_mlpoly.rs:322-328 *)
  Record scomm : Type := MkSC { sc_batch : nat; sc_nops : nat; sc_cells : nat; sc_ops : list E; sc_mem : list E }.
  (** sparse_mlpoly.rs:330-342 *)
  Definition app_scomm (c : scomm) (tr : log E) : log E :=
    let tr := MNat "num_mem_cells" (sc_cells c) :: MNat "num_ops" (sc_nops c) :: MNat "batch_size" (sc_batch c) :: tr in
    app_commitment "comm_comb_mem" (sc_mem c) (app_commitment "comm_comb_ops" (sc_ops c) tr).
  (** sparse_mlpoly.rs:490-510 *)
  Definition multi_commit (Ps : list (sparse K)) (g : sgens) : res (scomm * mdense) :=
    do d <- multi_dense Ps;
    do co <- poly_commit H (md_ops d) (sg_ops g) None;
    do cm <- poly_commit H (md_mem d) (sg_mem g) None;
    do r0 <- idx (at_read (md_row d)) 0;
    let '(co, _, _) := co in let '(cm, _, _) := cm in
    Ok (MkSC (length Ps) (dlen r0) (dlen (at_audit (md_row d))) co cm, d).

  (** * Layers: sparse_mlpoly.rs:523-533 *)
  Record player : Type := MkPL { pl_init : pcircuit K; pl_read : list (pcircuit K); pl_write : list (pcircuit K); pl_audit : pcircuit K }.
  (** sparse_mlpoly.rs:553-555, 852-855, with the shift by the second challenge *)
  Definition hash3 (rh rm addr val ts : K) : K := ts * (rh * rh) + val * rh + addr - rm.
  (** sparse_mlpoly.rs:536-611 *)
  Definition hash_cells (table : list K) (ts : nat -> res K) (rh rm : K) : res (dense K) :=
    do vs <- mapM (fun i => do v <- idx table i; do t <- ts i; Ok (hash3 rh rm (of_nat i) v t)) (seq 0 (length table));
    dense_new vs.
  Definition hash_ops (addr der rts : dense K) (shift : K) (rh rm : K) : res (dense K) :=
    assert (Nat.eqb (dlen addr) (dlen der));
    assert (Nat.eqb (dlen addr) (dlen rts));
    do vs <- mapM (fun i => do a <- dense_index addr i; do v <- dense_index der i; do t <- dense_index rts i;
                            Ok (hash3 rh rm a v (t + shift))) (seq 0 (dlen addr));
    dense_new vs.
  Definition build_hash_layer (table : list K) (addrs ders reads : list (dense K)) (audit : dense K) (rh rm : K)
    : res (dense K * list (dense K) * list (dense K) * dense K) :=
    do init <- hash_cells table (fun _ => Ok 0) rh rm;
    do aud <- hash_cells table (dense_index audit) rh rm;
    let ops (shift : K) := mapM (fun i => do a <- idx addrs i; do v <- idx ders i; do t <- idx reads i; hash_ops a v t shift rh rm)
                                (seq 0 (length addrs)) in
    do rd <- ops 0;
    do wr <- ops 1;
    Ok (init, rd, wr, aud).
  (** sparse_mlpoly.rs:613-660; the [debug_assert_eq!] is left out: the prover of the product
      layer asserts the same equation in every build *)
  Definition layers_new (table : list K) (t : addrts) (vals : list (dense K)) (rh rm : K) : res player :=
    do h <- build_hash_layer table (at_addr t) vals (at_read t) (at_audit t) rh rm;
    let '(init, rd, wr, aud) := h in
    do pi <- pc_new init;
    do pr <- mapM pc_new rd;
    do pw <- mapM pc_new wr;
    do pa <- pc_new aud;
    Ok (MkPL pi pr pw pa).

  (** * HashLayerProof: sparse_mlpoly.rs:688-697 *)
  Record hproof : Type := MkHP {
    hp_row : list K * list K * K; hp_col : list K * list K * K; hp_val : list K; hp_der : list K * list K;
    hp_ops : lproof E; hp_mem : lproof E; hp_dpf : lproof E }.
  (** sparse_mlpoly.rs:703-727 *)
  Definition hash_evals (rand_mem rand_ops : list K) (t : addrts) : res (list K * list K * K) :=
    do a <- mapM (fun d => dense_evaluate d rand_ops) (at_addr t);
    do r <- mapM (fun d => dense_evaluate d rand_ops) (at_read t);
    do au <- dense_evaluate (at_audit t) rand_mem;
    Ok (a, r, au).
  (** sparse_mlpoly.rs:729-838 *)
  Definition hl_prove (rand_mem rand_ops : list K) (d : mdense) (f : derefs) (g : sgens) (tr tape : log E)
    : res (hproof * log E * log E) :=
    let tr := proto "Sparse polynomial hash layer proof" tr in
    do er <- mapM (fun p => dense_evaluate p rand_ops) (df_row f);
    do ec <- mapM (fun p => dense_evaluate p rand_ops) (df_col f);
    do p <- de_prove f er ec rand_ops (sg_derefs g) tr tape;
    let '(pd, tr, tape) := p in
    do row <- hash_evals rand_mem rand_ops (md_row d);
    do col <- hash_evals rand_mem rand_ops (md_col d);
    do ev <- mapM (fun p => dense_evaluate p rand_ops) (md_val d);
    let '(ra, rt, rau) := row in
    let '(ca, ct, cau) := col in
    do j <- n_to_one "claim_evals_ops" "challenge_combine_n_to_one" "joint_claim_eval_ops" (resize_pow2 (ra ++ rt ++ ca ++ ct ++ ev)) rand_ops tr;
    let '(rj, v, tr) := j in
    do p <- pe_prove H (md_ops d) None rj v None (sg_ops g) tr tape;
    let '(po, _, tr, tape) := p in
    do j <- n_to_one "claim_evals_mem" "challenge_combine_two_to_one" "joint_claim_eval_mem" [rau; cau] rand_mem tr;
    let '(rj, v, tr) := j in
    do p <- pe_prove H (md_mem d) None rj v None (sg_mem g) tr tape;
    let '(pm, _, tr, tape) := p in
    Ok (MkHP row col ev (er, ec) po pm pd, tr, tape).
  (** sparse_mlpoly.rs:840-889: [claims] are the claims about init, reads, writes and audit.  The
      loops run over the addresses in the proof. *)
  Definition hl_check (rand_mem : list K) (claims : K * list K * list K * K) (vals addrs reads : list K) (audit : K) (r : list K) (rh rm : K)
    : res unit :=
    let '(cinit, cread, cwrite, caudit) := claims in
    do a0 <- identity_evaluate (length rand_mem) rand_mem;
    do v0 <- eq_evaluate r rand_mem;
    assert (feqb (hash3 rh rm a0 v0 0) cinit);
    let chk (shift : K) (cs : list K) :=
      mapM (fun i => do a <- idx addrs i; do v <- idx vals i; do t <- idx reads i; do c <- idx cs i;
                     assert (feqb (hash3 rh rm a v (t + shift)) c); Ok tt) (seq 0 (length addrs)) in
    do _ <- chk 0 cread;
    do _ <- chk 1 cwrite;
    assert (feqb (hash3 rh rm a0 v0 audit) caudit);
    Ok tt.
  (** sparse_mlpoly.rs:891-1021 *)
  Definition hl_verify (pf : hproof) (rand_mem rand_ops : list K) (claims_row claims_col : K * list K * list K * K) (claims_dotp : list K)
    (comm : scomm) (g : sgens) (cder : list E) (rx ry : list K) (rh rm : K) (tr : log E) : res (log E) :=
    let tr := proto "Sparse polynomial hash layer proof" tr in
    let '(er, ec) := hp_der pf in
    assert (Nat.eqb (length er) (length ec));
    do tr <- de_verify (hp_dpf pf) rand_ops er ec (sg_derefs g) cder tr;
    assert (Nat.eqb (length claims_dotp) (3 * length er));
    do _ <- mapM (fun i => do a <- idx claims_dotp (3 * i)%nat; do b <- idx claims_dotp (3 * i + 1)%nat; do c <- idx claims_dotp (3 * i + 2)%nat;
                           do a' <- idx er i; assert (feqb a a');
                           do b' <- idx ec i; assert (feqb b b');
                           do c' <- idx (hp_val pf) i; assert (feqb c c');
                           Ok tt) (seq 0 (length claims_dotp / 3));
    let '(ra, rt, rau) := hp_row pf in
    let '(ca, ct, cau) := hp_col pf in
    do j <- n_to_one "claim_evals_ops" "challenge_combine_n_to_one" "joint_claim_eval_ops" (resize_pow2 (ra ++ rt ++ ca ++ ct ++ hp_val pf)) rand_ops tr;
    let '(rj, v, tr) := j in
    do tr <- pe_verify_plain H (hp_ops pf) (sg_ops g) tr rj v (sc_ops comm);
    do j <- n_to_one "claim_evals_mem" "challenge_combine_two_to_one" "joint_claim_eval_mem" [rau; cau] rand_mem tr;
    let '(rj, v, tr) := j in
    do tr <- pe_verify_plain H (hp_mem pf) (sg_mem g) tr rj v (sc_mem comm);
    do _ <- hl_check rand_mem claims_row er ra rt rau rx rh rm;
    do _ <- hl_check rand_mem claims_col ec ca ct cau ry rh rm;
    Ok tr.

  (** * ProductLayerProof: sparse_mlpoly.rs:1025-1031 *)
  Record lyproof : Type := MkLy {
    lyp_row : K * list K * list K * K; lyp_col : K * list K * list K * K; lyp_val : list K * list K;
    lyp_mem : pbproof K; lyp_ops : pbproof K }.
  (** sparse_mlpoly.rs:1064-1067, 1085-1088, 1249-1252, 1264-1267: init, reads, writes, audit *)
  Definition app_evals (side : string) (e : K * list K * list K * K) (tr : log E) : log E :=
    let '(i, r, w, a) := e in
    app_scalar ("claim_" ++ side ++ "_eval_audit") a (app_scalars ("claim_" ++ side ++ "_eval_write") w
      (app_scalars ("claim_" ++ side ++ "_eval_read") r (app_scalar ("claim_" ++ side ++ "_eval_init") i tr))).
  (** sparse_mlpoly.rs:1057-1062, 1078-1083, 1243-1247, 1258-1262 *)
  Definition subset_check (e : K * list K * list K * K) : bool :=
    let '(i, r, w, a) := e in feqb (i * fprod w) (fprod r * a).
  (** sparse_mlpoly.rs:1048-1055, 1069-1076 *)
  Definition pl_evals (p : player) : res (K * list K * list K * K) :=
    do i <- pc_evaluate (pl_init p);
    do a <- pc_evaluate (pl_audit p);
    do r <- mapM pc_evaluate (pl_read p);
    do w <- mapM pc_evaluate (pl_write p);
    Ok (i, r, w, a).
  (** sparse_mlpoly.rs:1098-1119: the dot products number i, i+1, ... *)
  Fixpoint dotps (rows cols vals : list (dense K)) (evals : list K) (tr : log E)
    : res (list (dcircuit K * dcircuit K) * list (K * K) * log E) :=
    match rows, cols, vals, evals with
    | l :: rows', r :: cols', w :: vals', e :: evals' =>
        do l <- dense_clone l; do r <- dense_clone r; do w <- dense_clone w;
        do D <- dc_new l r w;
        do h <- dc_split D;
        do x <- dc_evaluate (fst h);
        do y <- dc_evaluate (snd h);
        let tr := app_scalar "claim_eval_dotp_right" y (app_scalar "claim_eval_dotp_left" x tr) in
        assert (feqb (x + y) e);
        do rest <- dotps rows' cols' vals' evals' tr;
        let '(hs, vs, tr) := rest in
        Ok (h :: hs, (x, y) :: vs, tr)
    | _, _, _, _ => Ok ([], [], tr)
    end.
  (** sparse_mlpoly.rs:1038-1216.  Exactly three matrices; [read_vec] has three circuits, and
      the other vectors are as long. *)
  Definition ly_prove (row col : player) (d : mdense) (f : derefs) (evals : list K) (tr : log E)
    : res (lyproof * list K * list K * log E) :=
    let tr := proto "Sparse polynomial product layer proof" tr in
    do re <- pl_evals row;
    assert (subset_check re);
    let tr := app_evals "row" re tr in
    do ce <- pl_evals col;
    assert (subset_check ce);
    let tr := app_evals "col" ce tr in
    assert (Nat.eqb (length evals) (length (df_row f)));
    assert (Nat.eqb (length evals) (length (df_col f)));
    assert (Nat.eqb (length evals) (length (md_val d)));
    do q <- dotps (df_row f) (df_col f) (md_val d) evals tr;
    let '(hs, vs, tr) := q in
    assert (Nat.eqb (length (pl_read row)) 3);
    do cs <- mapM (fun l => do a <- idx l 0; do b <- idx l 1; do c <- idx l 2; Ok [a; b; c])
               [pl_read row; pl_write row; pl_read col; pl_write col];
    do hA <- idx hs 0; do hB <- idx hs 1; do hC <- idx hs 2;
    do p <- pcb_prove H (concat cs) [fst hA; snd hA; fst hB; snd hB; fst hC; snd hC] tr;
    let '(po, rand_ops, tr) := p in
    do p <- pcb_prove H [pl_init row; pl_audit row; pl_init col; pl_audit col] [] tr;
    let '(pm, rand_mem, tr) := p in
    Ok (MkLy re ce (map fst vs, map snd vs) pm po, rand_mem, rand_ops, tr).
  (** sparse_mlpoly.rs:1274-1281: the claimed halves of the evaluations number i, i+1, ... *)
  Fixpoint dotp_check (n : nat) (ls rs evals : list K) (tr : log E) : res (list K * log E) :=
    match n with
    | O => Ok ([], tr)
    | S n' =>
        do l <- idx ls 0; do r <- idx rs 0; do e <- idx evals 0;
        assert (feqb (l + r) e);
        let tr := app_scalar "claim_eval_dotp_right" r (app_scalar "claim_eval_dotp_left" l tr) in
        do q <- dotp_check n' (tl ls) (tl rs) (tl evals) tr;
        let '(cs, tr) := q in
        Ok (l :: r :: cs, tr)
    end.
  (** sparse_mlpoly.rs:1218-1311; the length of the right halves is compared with nothing (1271) *)
  Definition ly_verify (pf : lyproof) (num_ops num_cells : nat) (evals : list K) (tr : log E)
    : res (list K * list K * list K * list K * list K * log E) :=
    let tr := proto "Sparse polynomial product layer proof" tr in
    let n := length evals in
    let '(ri, rr, rw, ra) := lyp_row pf in
    assert (Nat.eqb (length rw) n);
    assert (Nat.eqb (length rr) n);
    assert (subset_check (lyp_row pf));
    let tr := app_evals "row" (lyp_row pf) tr in
    let '(ci, cr, cw, ca) := lyp_col pf in
    assert (Nat.eqb (length cw) n);
    assert (Nat.eqb (length cr) n);
    assert (subset_check (lyp_col pf));
    let tr := app_evals "col" (lyp_col pf) tr in
    let '(dl, dr) := lyp_val pf in
    assert (Nat.eqb (length dl) n);
    do q <- dotp_check n dl dr evals tr;
    let '(cd, tr) := q in
    do v <- pcb_verify H (lyp_ops pf) (rr ++ rw ++ cr ++ cw) cd num_ops tr;
    let '(claims_ops, claims_dotp, rand_ops, tr) := v in
    do v <- pcb_verify H (lyp_mem pf) [ri; ra; ci; ca] [] num_cells tr;
    let '(claims_mem, _, rand_mem, tr) := v in
    Ok (claims_mem, rand_mem, claims_ops, claims_dotp, rand_ops, tr).

  (** * PolyEvalNetworkProof: sparse_mlpoly.rs:1315-1318 *)
  Record nproof : Type := MkNP { np_prod : lyproof; np_hash : hproof }.
  (** sparse_mlpoly.rs:1325-1359 *)
  Definition net_prove (row col : player) (d : mdense) (f : derefs) (evals : list K) (g : sgens) (tr tape : log E) : res (nproof * log E * log E) :=
    let tr := proto "Sparse polynomial evaluation proof" tr in
    do p <- ly_prove row col d f evals tr;
    let '(pp, rand_mem, rand_ops, tr) := p in
    do p <- hl_prove rand_mem rand_ops d f g tr tape;
    let '(ph, tr, tape) := p in
    Ok (MkNP pp ph, tr, tape).
  (** sparse_mlpoly.rs:1361-1422 *)
  Definition net_verify (pf : nproof) (comm : scomm) (cder : list E) (evals : list K) (g : sgens) (rx ry : list K) (rh rm : K) (nz : nat) (tr : log E)
    : res (log E) :=
    let tr := proto "Sparse polynomial evaluation proof" tr in
    let n := length evals in
    assert (Nat.eqb (length rx) (length ry));
    do v <- ly_verify (np_prod pf) (next_pow2 nz) (pow2 (length rx)) evals tr;
    let '(cm, rand_mem, co, cd, rand_ops, tr) := v in
    assert (Nat.eqb (length cm) 4);
    assert (Nat.eqb (length co) (4 * n));
    assert (Nat.eqb (length cd) (3 * n));
    do m0 <- idx cm 0; do m1 <- idx cm 1; do m2 <- idx cm 2; do m3 <- idx cm 3;
    let part (k : nat) := firstn n (skipn (k * n) co) in
    hl_verify (np_hash pf) rand_mem rand_ops (m0, part 0%nat, part 1%nat, m1) (m2, part 2%nat, part 3%nat, m3) cd comm g cder rx ry rh rm tr.

  (** * SparseMatPolyEvalProof: sparse_mlpoly.rs:1426-1429 *)
  Record sproof : Type := MkSP { sp_derefs : list E; sp_net : nproof }.
  (** sparse_mlpoly.rs:1436-1452 *)
  Definition equalize (rx ry : list K) : list K * list K :=
    (repeat 0 (length ry - length rx) ++ rx, repeat 0 (length rx - length ry) ++ ry).
  (** sparse_mlpoly.rs:1454-1521 with PolyEvalNetwork::new, 670-684 *)
  Definition spar_prove (d : mdense) (rx ry evals : list K) (g : sgens) (tr tape : log E) : res (sproof * log E * log E) :=
    let tr := proto "Sparse polynomial evaluation proof" tr in
    assert (Nat.eqb (length evals) (md_batch d));
    let '(rx, ry) := equalize rx ry in
    let mem_rx := eq_evals rx in
    let mem_ry := eq_evals ry in
    do f <- md_deref d mem_rx mem_ry;
    do C <- derefs_commit f (sg_derefs g);
    let tr := app_derefs "comm_poly_row_col_ops_val" C tr in
    let '(rh, tr) := challenge H "challenge_r_hash" tr in
    let '(rm, tr) := challenge H "challenge_r_hash" tr in
    do row <- layers_new mem_rx (md_row d) (df_row f) rh rm;
    do col <- layers_new mem_ry (md_col d) (df_col f) rh rm;
    do p <- net_prove row col d f evals g tr tape;
    let '(pn, tr, tape) := p in
    Ok (MkSP C pn, tr, tape).
  (** sparse_mlpoly.rs:1523-1559 *)
  Definition spar_verify (pf : sproof) (comm : scomm) (rx ry evals : list K) (g : sgens) (tr : log E) : res (log E) :=
    let tr := proto "Sparse polynomial evaluation proof" tr in
    let '(rx, ry) := equalize rx ry in
    assert (Nat.eqb (pow2 (length rx)) (sc_cells comm));
    let tr := app_derefs "comm_poly_row_col_ops_val" (sp_derefs pf) tr in
    let '(rh, tr) := challenge H "challenge_r_hash" tr in
    let '(rm, tr) := challenge H "challenge_r_hash" tr in
    net_verify (sp_net pf) comm (sp_derefs pf) evals g rx ry rh rm (sc_nops comm) tr.
End Spar.
