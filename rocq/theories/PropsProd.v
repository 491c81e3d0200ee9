(** Properties C34 and C35: product circuits and their evaluation proofs.  [K], [G], [E],
    [H] as in PropsCommit.v.  [live d] is the list of current entries of a dense
    polynomial, [mle] its multilinear extension (PolySpec.v).  [level], [lo], [hi], [dot3],
    [cut], [meet], [bad_layer] and [bad_batch] are in ProdSpec.v. *)
From Coq Require Import String List Arith ZArith Bool Lia.
From Verif Require Import Base Field Zq Vec MathModel PolyModel PolySpec CommitModel SigmaModel CommitSpec SigmaApi SumModel SumSpec SumApi ProdModel ProdSpec ProdProofs ProdBatch ProdSound ProdSoundB ProdApi.
Import ListNotations.
Local Open Scope fld_scope.

(** C34.  The circuit over a table of at least two entries evaluates to their product, and
    its layer [k] holds the two halves of level [k] of the product tree. *)
Theorem C34_product : forall (K : Fld) (d : dense K) (n : nat), dense_ok d -> dnum_vars d = S n ->
  exists c, pc_new d = Ok c /\ pc_evaluate c = Ok (fprod (live d)) /\ length (pc_left c) = S n /\ length (pc_right c) = S n /\
    forall k, (k <= n)%nat -> exists l r, nth_error (pc_left c) k = Some l /\ nth_error (pc_right c) k = Some r /\
      dense_ok l /\ dense_ok r /\ live l = lo (level k (live d)) /\ live r = hi (level k (live d)).
Proof. exact api_circuit. Qed.
Print Assumptions C34_product.

(** a table of one entry makes the constructor panic *)
Theorem C34_one_entry_panics : forall (K : Fld) (d : dense K), dlen d = 1%nat -> pc_new d = Panic.
Proof. exact @pc_new_one. Qed.
Print Assumptions C34_one_entry_panics.

Theorem C34_dot_product : forall (K : Fld) (n : nat) (D : dcircuit K),
  (dense_ok (dc_left D) /\ dnum_vars (dc_left D) = n) -> (dense_ok (dc_right D) /\ dnum_vars (dc_right D) = n) -> (dense_ok (dc_weight D) /\ dnum_vars (dc_weight D) = n) ->
  dc_evaluate D = Ok (dot3 (live (dc_left D)) (live (dc_right D)) (live (dc_weight D))).
Proof. exact @dc_evaluate_ok. Qed.
Print Assumptions C34_dot_product.

(** splitting keeps all entries in order, and the values of the halves add up *)
Theorem C34_split : forall (K : Fld) (n : nat) (D : dcircuit K),
  (dense_ok (dc_left D) /\ dnum_vars (dc_left D) = S n) -> (dense_ok (dc_right D) /\ dnum_vars (dc_right D) = S n) -> (dense_ok (dc_weight D) /\ dnum_vars (dc_weight D) = S n) ->
  exists A B a b, dc_split D = Ok (A, B) /\ dc_evaluate A = Ok a /\ dc_evaluate B = Ok b /\ dc_evaluate D = Ok (a + b) /\
    live (dc_left A) ++ live (dc_left B) = live (dc_left D) /\ live (dc_right A) ++ live (dc_right B) = live (dc_right D) /\
    live (dc_weight A) ++ live (dc_weight B) = live (dc_weight D) /\ dlen (dc_left A) = dlen (dc_left B).
Proof. exact api_split. Qed.
Print Assumptions C34_split.

(** tables of different lengths are refused *)
Theorem C34_dot_product_lengths : forall (K : Fld) (l r w : dense K),
  (exists D, dc_new l r w = Ok D) <-> dlen l = dlen r /\ dlen l = dlen w.
Proof.
  intros K l r w. unfold dc_new. destruct (Nat.eqb_spec (dlen l) (dlen r)) as [A|A], (Nat.eqb_spec (dlen l) (dlen w)) as [B|B]; cbn [bind];
    (split; [intros [D E]; try discriminate E; auto|intros [A' B']; try contradiction; eauto]).
Qed.
Print Assumptions C34_dot_product_lengths.

Example C34_case :
  (do d <- dense_new [fp 3; fp 5; fp 7; fp 11]; do c <- pc_new d; pc_evaluate c) = Ok (fp 1155) /\
  (do a <- dense_new [fp 3; fp 5; fp 7; fp 11]; do b <- dense_new [fp 1; fp 2; fp 3; fp 4]; do w <- dense_new [fp 1; fp 0; fp 1; fp 1];
   do D <- dc_new a b w; do v <- dc_evaluate D; do h <- dc_split D; do x <- dc_evaluate (fst h); do y <- dc_evaluate (snd h); Ok (v, x, y))
  = Ok (fp 68, fp 3, fp 65).
Proof. zqs. Qed.

(** C35.  Completeness of the proof for one circuit: both sides end with the same claim, the
    value of the table at the same point. *)
Theorem C35_completeness : forall (K : Fld) (G : Mod K) (E : Enc G) (H : log E -> K), (of_nat 2 : K) <> 0 -> (of_nat 3 : K) <> 0 ->
  forall (d : dense K) (n : nat) (tr : log E), dense_ok d -> dnum_vars d = S n ->
  exists c pf rand tr', pc_new d = Ok c /\ pc_evaluate c = Ok (fprod (live d)) /\ length rand = S n /\
    pce_prove H c tr = Ok (pf, mle (live d) rand, rand, tr') /\
    pce_verify H pf (fprod (live d)) (dlen d) tr = Ok (mle (live d) rand, rand, tr').
Proof. exact @pce_complete. Qed.
Print Assumptions C35_completeness.

(** The batched proof over at least one circuit and any number of dot products, each passed
    as its two halves: the verifier ends with the values of all tables at the point. *)
Theorem C35_batched_completeness : forall (K : Fld) (G : Mod K) (E : Enc G) (H : log E -> K), (of_nat 2 : K) <> 0 -> (of_nat 3 : K) <> 0 ->
  forall (n : nat) (ps : list (dense K)) (Ds : list (dcircuit K)) (tr : log E), ps <> [] ->
  (forall d, In d ps -> dense_ok d /\ dnum_vars d = S n) ->
  (forall D, In D Ds -> (dense_ok (dc_left D) /\ dnum_vars (dc_left D) = S n) /\ (dense_ok (dc_right D) /\ dnum_vars (dc_right D) = S n) /\
                        (dense_ok (dc_weight D) /\ dnum_vars (dc_weight D) = S n)) ->
  exists cs hs evs pf rand tr',
    mapM pc_new ps = Ok cs /\ mapM pc_evaluate cs = Ok (map (fun d => fprod (live d)) ps) /\ mapM dc_split Ds = Ok hs /\
    let ds := flat_map (fun h => [fst h; snd h]) hs in
    mapM dc_evaluate ds = Ok evs /\ length rand = S n /\
    pcb_prove H cs ds tr = Ok (pf, rand, tr') /\
    pcb_verify H pf (map (fun d => fprod (live d)) ps) evs (2 ^ S n) tr =
      Ok (map (fun d => mle (live d) rand) ps,
          flat_map (fun D => [mle (live (dc_left D)) rand; mle (live (dc_right D)) rand; mle (live (dc_weight D)) rand]) Ds, rand, tr').
Proof. exact @pcb_complete. Qed.
Print Assumptions C35_batched_completeness.

(** Soundness: if the verifier accepts and the claim it ends with is right for the table [Z],
    then the claimed product was right, or some layer, reached after the layers before it
    were accepted, turned a false claim into a true one (see [bad_layer]). *)
Theorem C35_soundness : forall (K : Fld) (G : Mod K) (E : Enc G) (H : log E -> K) (n : nat) (Z : list K) (pf : list (layerproof K)) (eval : K) (tr : log E) (claim : K) (rand : list K) (tr' : log E),
  length Z = (2 ^ n)%nat -> pce_verify H pf eval (2 ^ n) tr = Ok (claim, rand, tr') -> claim = mle Z rand ->
  length pf = n /\ length rand = n /\
  (eval = fprod Z \/
   exists i pfi ci ri ti, (i < n)%nat /\ nth_error pf i = Some pfi /\ pce_verify H (firstn i pf) eval (2 ^ i) tr = Ok (ci, ri, ti) /\
     bad_layer H n Z i (ly_proof pfi) (ly_claims pfi) ci ri ti).
Proof. exact @pce_sound. Qed.
Print Assumptions C35_soundness.

Theorem C35_batched_soundness : forall (K : Fld) (G : Mod K) (E : Enc G) (H : log E -> K) (n : nat) (Zs : list (list K)) (Ds : list (list K * list K * list K))
    (pf : list (blayer K)) (dl dr dw pv dv : list K) (tr : log E) (claims cd rand : list K) (tr' : log E), (1 <= n)%nat ->
  (forall Z, In Z Zs -> length Z = (2 ^ n)%nat) ->
  (forall t, In t Ds -> length (t1 t) = (2 ^ n)%nat /\ length (t2 t) = (2 ^ n)%nat /\ length (t3 t) = (2 ^ n)%nat) ->
  length pv = length Zs -> length dv = (length Ds * 2)%nat ->
  pcb_verify H (MkBProof pf (dl, dr, dw)) pv dv (2 ^ n) tr = Ok (claims, cd, rand, tr') ->
  claims = map (fun Z => mle Z rand) Zs -> cd = flat_map (fun t => [mle (t1 t) rand; mle (t2 t) rand; mle (t3 t) rand]) Ds ->
  length pf = n /\ length rand = n /\
  (pv = map fprod Zs /\ dv = map (fun t => dot3 (t1 t) (t2 t) (t3 t)) (cut Ds) \/
   exists i pfi ci ri ti, (i < n)%nat /\ nth_error pf i = Some pfi /\
     pcb_verify H (MkBProof (firstn i pf) ([], [], [])) pv [] (2 ^ i) tr = Ok (ci, [], ri, ti) /\
     bad_batch H n Zs Ds i (by_proof pfi) (by_left pfi) (by_right pfi) dl dr dw (ci ++ (if Nat.eqb (S i) n then dv else [])) ri ti).
Proof. exact @pcb_sound. Qed.
Print Assumptions C35_batched_soundness.

(** the challenge in [meet] is determined by the four values: at most one is unlucky *)
Theorem C35_one_bad_challenge : forall (K : Fld) (a b A B x y : K), meet a b A B x -> meet a b A B y -> x = y.
Proof. exact api_meet. Qed.
Print Assumptions C35_one_bad_challenge.

(** the honest proof of 3 * 5 * 7 * 11 = 1155 ends with the value of the table; the same proof
    is not accepted for 1156 *)
Example C35_case : (of_nat 2 : Fp) <> 0 /\ (of_nat 3 : Fp) <> 0 /\
  let run v := (do d <- dense_new [fp 3; fp 5; fp 7; fp 11]; do c <- pc_new d;
    do p <- pce_prove exH c []; let '(pf, _, _, _) := p in
    do w <- pce_verify exH pf v 4 []; let '(cl, r, _) := w in do e <- dense_evaluate d r; Ok (feqb cl e)) in
  run (fp 1155) = Ok true /\ run (fp 1156) = Panic.
Proof. split; [exact (proj1 two_three_fp)|]. split; [exact (proj2 two_three_fp)|]. zqs. Qed.
(** two circuits and one dot product *)
Example C35_batched_case :
  let run u v w := (do d <- dense_new [fp 3; fp 5; fp 7; fp 11]; do d' <- dense_new [fp 1; fp 2; fp 3; fp 4]; do c <- pc_new d; do c' <- pc_new d';
    do W <- dense_new [fp 1; fp 0; fp 1; fp 1]; do D <- dc_new d d' W; do h <- dc_split D;
    do p <- pcb_prove exH [c; c'] [fst h; snd h] []; let '(pf, _, _) := p in
    do q <- pcb_verify exH pf [u; v] [fp 3; w] 4 []; let '(cl, cd, r, _) := q in
    do e <- dense_evaluate d r; do e' <- dense_evaluate d' r; do e'' <- dense_evaluate W r;
    Ok (map2 feqb cl [e; e'], map2 feqb cd [e; e'; e''])) in
  run (fp 1155) (fp 24) (fp 65) = Ok ([true; true], [true; true; true]) /\ run (fp 1155) (fp 24) (fp 66) = Panic /\ run (fp 1155) (fp 25) (fp 65) = Panic.
Proof. zqs. Qed.
