(** Properties C36 and C55: memory checking, and commitments to the three matrices with proofs
    of their evaluations.  [K], [G], [E], [H] as in PropsCommit.v.  [earlier], [total],
    [at_start], [at_end], [reads], [writes], [fingerprint], [fpr], [mat_at], [mats_ok] and
    [openings] are in SparSpec.v; [stored_rows], [opened_right], [batch_opened], [hides],
    [batch_fooled] and what goes with them in SparClaims.v. *)
From Coq Require Import String List Arith ZArith Bool Lia Permutation.
From Verif Require Import Base Field Zq Vec MathModel PolyModel PolySpec CommitModel SigmaModel CommitSpec SigmaApi NizkApi SumSpec SumApi R1csModel R1csSpec ProdModel ProdSpec ProdApi SparModel SparSpec SparMem SparSound SparApi SparClaims SparAccept ExSmall.
Import ListNotations.
Local Open Scope fld_scope.

(** C36.  The read timestamp of an access is the number of earlier accesses to the same cell,
    counted through all sequences, and the audit timestamp of a cell is the number of all of them. *)
Theorem C36_timestamps : forall (K : Fld) (addrs : list (list nat)) (m c : nat), let accs := concat addrs in
  (forall a, In a addrs -> length a = (2 ^ m)%nat) -> (forall x, In x accs -> (x < 2 ^ c)%nat) ->
  exists t, at_new (2 ^ c) (2 ^ m) addrs = Ok t /\ at_usize t = addrs /\
    map (@dZ K) (at_addr t) = map (map of_nat) addrs /\ map (fun d => length (dZ d)) (at_read t) = map (@length nat) addrs /\
    concat (map (@dZ K) (at_read t)) = map (fun j => of_nat (earlier accs j)) (seq 0 (length accs)) /\
    dZ (at_audit t) = map (fun a => of_nat (total accs a)) (seq 0 (2 ^ c)).
Proof. exact @api_timestamps. Qed.
Print Assumptions C36_timestamps.
(** An access out of range, or a sequence of the wrong length, panics. *)
Theorem C36_bad_accesses : forall (K : Fld) (addrs : list (list nat)) (cells ops : nat),
  (exists a, In a addrs /\ length a <> ops) \/ (exists x, In x (concat addrs) /\ (cells <= x)%nat) -> @at_new K cells ops addrs = Panic.
Proof. exact @api_bad_accesses. Qed.
Print Assumptions C36_bad_accesses.
(** Dereferencing returns the contents of the addressed cells. *)
Theorem C36_deref : forall (K : Fld) (addrs : list (list nat)) (cells m : nat) (t : addrts) (mem : list K),
  at_new cells (2 ^ m) addrs = Ok t -> (forall x, In x (concat addrs) -> (x < length mem)%nat) ->
  exists ds, at_deref t mem = Ok ds /\ map (@dZ K) ds = map (map (fun a => nth a mem 0)) addrs.
Proof. exact @api_deref. Qed.
Print Assumptions C36_deref.
(** The circuits of the honest prover evaluate to the products of the fingerprints of the four
    collections of records, and these balance, for every pair of challenges. *)
Theorem C36_products : forall (K : Fld) (addrs : list (list nat)) (m c : nat) (mem : list K) (t : addrts) (vals : list (dense K)) (rh rm : K), let accs := concat addrs in
  length addrs = 3%nat -> (1 <= m)%nat -> (1 <= c)%nat -> length mem = (2 ^ c)%nat -> at_new (2 ^ c) (2 ^ m) addrs = Ok t -> at_deref t mem = Ok vals ->
  exists p i r w a, layers_new mem t vals rh rm = Ok p /\ pl_evals p = Ok (i, r, w, a) /\
    i = fprod (map (fpr rh rm) (at_start mem)) /\ fprod r = fprod (map (fpr rh rm) (reads mem accs)) /\
    fprod w = fprod (map (fpr rh rm) (writes mem accs)) /\ a = fprod (map (fpr rh rm) (at_end mem accs)) /\ subset_check (i, r, w, a) = true.
Proof. exact @api_products. Qed.
Print Assumptions C36_products.
(** What is at the start and written is what is read and left at the end, each record as often;
    no record is written twice. *)
Theorem C36_multisets : forall (K : Fld) (mem : list K) (accs : list nat), (forall x, In x accs -> (x < length mem)%nat) ->
  Permutation (at_start mem ++ writes mem accs) (reads mem accs ++ at_end mem accs) /\ NoDup (writes mem accs).
Proof. exact (fun K mem accs B => conj (mem_perm mem accs B) (writes_nodup mem accs)). Qed.
Print Assumptions C36_multisets.
(** Whatever is claimed to have been read, with whatever timestamps: if one claimed value is not
    the content of its cell, then at most 2*N*N first challenges leave more than N second
    challenges for which the products balance, with N the number of cells and accesses. *)
Theorem C36_wrong_read : forall (K : Fld) (init audit ops : list (K * K * K)) (val : K -> K) (a v s : K) (gs : list K), length audit = length init ->
  (forall n, (1 <= n <= length ops)%nat -> (of_nat n : K) <> 0) -> (forall a v t, In (a, v, t) init \/ In (a, v, t) audit -> v = val a) ->
  In (a, v, s) ops -> v <> val a -> NoDup gs ->
  (forall g, In g gs -> exists Ts, NoDup Ts /\ (length init + length ops < length Ts)%nat /\ forall t, In t Ts ->
     fprod (map (fingerprint g t) init) * fprod (map (fingerprint g t) (map (fun '(a, v, s) => (a, v, s + 1)) ops)) =
     fprod (map (fingerprint g t) ops) * fprod (map (fingerprint g t) audit)) ->
  (length gs <= 2 * ((length init + length ops) * (length init + length ops)))%nat.
Proof. exact @wrong_read. Qed.
Print Assumptions C36_wrong_read.
(** four cells, three sequences of two accesses; cell 2 is read three times *)
Example C36_case :
  (do t <- @at_new Fp 4 2 [[2; 0]; [2; 3]; [2; 0]]%nat; Ok (map (fun d : dense Fp => map zval (dZ d : list Fp)) (at_read t), map zval (dZ (at_audit t) : list Fp))) =
    Ok ([[0; 0]; [1; 0]; [2; 1]], [2; 0; 3; 1])%Z /\
  (do _ <- @at_new Fp 4 2 [[2; 0]; [2; 4]; [2; 0]]%nat; Ok tt) = Panic /\ (do _ <- @at_new Fp 4 2 [[2; 0]; [2]; [2; 0]]%nat; Ok tt) = Panic /\
  (do t <- @at_new Fp 4 2 [[2; 0]; [2; 3]; [2; 0]]%nat; do ds <- at_deref t [fp 10; fp 20; fp 30; fp 40]; Ok (map (fun d : dense Fp => map zval (dZ d : list Fp)) ds)) =
    Ok [[30; 10]; [30; 40]; [30; 10]]%Z /\
  (do t <- @at_new Fp 4 2 [[2; 0]; [2; 3]; [2; 0]]%nat; do ds <- at_deref t [fp 10; fp 20; fp 30; fp 40];
   do p <- layers_new [fp 10; fp 20; fp 30; fp 40] t ds (fp 5) (fp 7); do e <- pl_evals p; Ok (subset_check e)) = Ok true.
Proof. zqs. Qed.
(** a wrong read of cell 0 (6 instead of 5) does not balance at the challenges 2 and 3 *)
Example C36_wrong_read_case : let init := [(fp 0, fp 5, fp 0)] in let audit := [(fp 0, fp 5, fp 1)] in let ops := [(fp 0, fp 6, fp 0)] in
  (forall n, (1 <= n <= length ops)%nat -> (of_nat n : Fp) <> 0) /\ (forall a v t, In (a, v, t) init \/ In (a, v, t) audit -> v = fp 5) /\
  feqb (fprod (map (fingerprint (fp 2) (fp 3)) init) * fprod (map (fingerprint (fp 2) (fp 3)) (map (fun '(a, v, s) => (a, v, s + 1)) ops)))
       (fprod (map (fingerprint (fp 2) (fp 3)) ops) * fprod (map (fingerprint (fp 2) (fp 3)) audit)) = false.
Proof.
  cbn zeta. split; [|split].
  - intros n [A B]. cbn in B. assert (n = 1%nat) as -> by lia. intro X; apply (f_equal zval) in X; vm_compute in X; discriminate X.
  - intros a v t [[X|[]]|[X|[]]]; injection X; intros; subst; reflexivity.
  - zqs.
Qed.

(** C55.  Generators made for the right number of entries commit to the three matrices. *)
Theorem C55_setup : forall (K : Fld) (G : Mod K) (E : Enc G) (H : log E -> K) (A B C : sparse K) (x y nz : nat) (stream : nat -> G), let Ps := [A; B; C] in
  (forall P, In P Ps -> shape x y P) -> next_pow2 nz = next_pow2 (max_entries Ps) ->
  exists g comm d, sgens_new x y nz 3 stream = Ok g /\ multi_commit H Ps g = Ok (comm, d) /\
    sc_batch comm = 3%nat /\ sc_nops comm = next_pow2 (max_entries Ps) /\ sc_cells comm = (2 ^ Nat.max x y)%nat.
Proof. exact @api_gens_commit. Qed.
Print Assumptions C55_setup.
(** Every proof the prover returns for the true evaluations is accepted and leaves the same
    transcript; and it returns one unless one of the challenges named "u", counted by
    [openings], is zero. *)
Theorem C55_completeness : forall (K : Fld) (G : Mod K) (E : Enc G) (H : log E -> K), (of_nat 2 : K) <> 0 -> (of_nat 3 : K) <> 0 ->
  forall (A B C : sparse K) (rx ry : list K) (nz : nat) (stream : nat -> G) (g : sgens) (comm : scomm) (d : mdense) (tr tape : log E), let Ps := [A; B; C] in
  mats_ok Ps rx ry nz -> sgens_new (length rx) (length ry) nz 3 stream = Ok g -> multi_commit H Ps g = Ok (comm, d) ->
  let evals := map (fun P => mat_at P rx ry) Ps in
  (forall pf tr' tape', spar_prove H d rx ry evals g tr tape = Ok (pf, tr', tape') -> spar_verify H pf comm rx ry evals g tr = Ok tr') /\
  unless H "u" 0 (openings (Nat.log2_up nz) (Nat.max (length rx) (length ry))) (exists x, spar_prove H d rx ry evals g tr tape = Ok x).
Proof. exact @api_spar_complete. Qed.
Print Assumptions C55_completeness.
(** The prover panics when no matrix has two stored entries. *)
Theorem C55_one_entry_panics : forall (K : Fld) (G : Mod K) (E : Enc G) (H : log E -> K)
  (A B C : sparse K) (rx ry : list K) (nz : nat) (stream : nat -> G) (g : sgens) (comm : scomm) (d : mdense) (evals : list K) (tr tape : log E), let Ps := [A; B; C] in
  (forall P, In P Ps -> shape (length rx) (length ry) P) -> (max_entries Ps <= 1)%nat -> (nz <= 1)%nat ->
  sgens_new (length rx) (length ry) nz 3 stream = Ok g -> multi_commit H Ps g = Ok (comm, d) -> spar_prove H d rx ry evals g tr tape = Panic.
Proof. exact @api_single. Qed.
Print Assumptions C55_one_entry_panics.
(** What the commitment holds: the first part is the commitment to the addresses, the read
    timestamps and the values of the three matrices, the second to the audit timestamps. *)
Theorem C55_committed : forall (K : Fld) (G : Mod K) (E : Enc G) (H : log E -> K)
  (A B C : sparse K) (rx ry : list K) (nz : nat) (stream : nat -> G) (g : sgens) (comm : scomm) (d : mdense),
  let Ps := [A; B; C] in let m := Nat.log2_up nz in let c := Nat.max (length rx) (length ry) in
  mats_ok Ps rx ry nz -> sgens_new (length rx) (length ry) nz 3 stream = Ok g -> multi_commit H Ps g = Ok (comm, d) ->
  let rows := stored_rows m Ps in let cols := stored_cols m Ps in
  let tables := map tbl rows ++ map tbl (stamps m rows) ++ map tbl cols ++ map tbl (stamps m cols) ++ stored_vals m Ps in
  exists po pm bo bm to tm, dense_new (fill (4 + m) 0 (concat tables)) = Ok po /\ dense_new (tbl (audits c rows) ++ tbl (audits c cols)) = Ok pm /\
    poly_commit H po (sg_ops g) None = Ok (sc_ops comm, bo, to) /\ poly_commit H pm (sg_mem g) None = Ok (sc_mem comm, bm, tm).
Proof. exact @api_committed. Qed.
Print Assumptions C55_committed.
(** What an accepted proof does show.  The two product proofs and the three openings are checked
    on the transcript described here.  And for every six tables RD, CD: if the values that the
    proof gives are those of the stored tables and of RD and CD at the points the product proofs
    end in, then the three claimed evaluations are true, or a wrong read hides behind the two
    challenges drawn after the commitment to RD and CD, or a round of a product proof turned
    false claims into true ones. *)
Theorem C55_accepted : forall (K : Fld) (G : Mod K) (E : Enc G) (H : log E -> K)
  (A B C : sparse K) (rx ry : list K) (nz : nat) (stream : nat -> G) (g : sgens) (comm : scomm) (d : mdense) (tr : log E) (evals : list K)
  (pf : @sproof K G E) (tr' : log E) (RD CD : list (list K)),
  let Ps := [A; B; C] in let m := Nat.log2_up nz in let c := Nat.max (length rx) (length ry) in
  mats_ok Ps rx ry nz -> sgens_new (length rx) (length ry) nz 3 stream = Ok g -> multi_commit H Ps g = Ok (comm, d) -> length evals = 3%nat ->
  length RD = 3%nat -> length CD = 3%nat -> (forall T, In T (RD ++ CD) -> length T = (2 ^ m)%nat) ->
  spar_verify H pf comm rx ry evals g tr = Ok tr' ->
  let h := np_hash (sp_net pf) in let l := np_prod (sp_net pf) in
  let memx := eq_evals (repeat 0 (c - length rx) ++ rx) in let memy := eq_evals (repeat 0 (c - length ry) ++ ry) in
  let rows := stored_rows m Ps in let cols := stored_cols m Ps in
  let w0 := app_derefs "comm_poly_row_col_ops_val" (sp_derefs pf) (proto "Sparse polynomial evaluation proof" tr) in
  let cr := MChal "challenge_r_hash" in let gm := H (cr :: w0) in let tau := H (cr :: cr :: w0) in
  let '(ri, rr, rw, ra) := lyp_row l in let '(ci, cr, cw, ca) := lyp_col l in let '(dl, dr) := lyp_val l in
  let w1 := halves_log dl dr ++ app_evals "col" (lyp_col l) (app_evals "row" (lyp_row l)
              (proto "Sparse polynomial product layer proof" (proto "Sparse polynomial evaluation proof" (MChal "challenge_r_hash" :: MChal "challenge_r_hash" :: w0)))) in
  let Zo := hashed_ops gm tau 0 m rows RD ++ hashed_ops gm tau 1 m rows RD ++ hashed_ops gm tau 0 m cols CD ++ hashed_ops gm tau 1 m cols CD in
  let Zm := [hashed_start gm tau memx; hashed_end gm tau memx rows; hashed_start gm tau memy; hashed_end gm tau memy cols] in
  let Ds := combine (combine RD CD) (stored_vals m Ps) in
  exists co cd ro w2 cm cdm rm w3 w4 w5,
    pcb_verify H (lyp_ops l) (rr ++ rw ++ cr ++ cw) (halves dl dr) (2 ^ m) w1 = Ok (co, cd, ro, w2) /\
    pcb_verify H (lyp_mem l) [ri; ra; ci; ca] [] (2 ^ c) w2 = Ok (cm, cdm, rm, w3) /\
    batch_opened H "evals_ops_val" "challenge_combine_n_to_one" "joint_claim_eval" (hp_dpf h) (sg_derefs g) (sp_derefs pf) (fst (hp_der h) ++ snd (hp_der h)) ro
      (proto "Derefs evaluation proof" (proto "Sparse polynomial hash layer proof" w3)) w4 /\
    batch_opened H "claim_evals_ops" "challenge_combine_n_to_one" "joint_claim_eval_ops" (hp_ops h) (sg_ops g) (sc_ops comm)
      (fst (fst (hp_row h)) ++ snd (fst (hp_row h)) ++ fst (fst (hp_col h)) ++ snd (fst (hp_col h)) ++ hp_val h) ro w4 w5 /\
    batch_opened H "claim_evals_mem" "challenge_combine_two_to_one" "joint_claim_eval_mem" (hp_mem h) (sg_mem g) (sc_mem comm) [snd (hp_row h); snd (hp_col h)] rm w5 tr' /\
    (opened_right m c Ps RD CD ro rm h ->
       evals = map (fun P => mat_at P rx ry) Ps \/
       hides gm tau memx (concat rows) (concat RD) \/ hides gm tau memy (concat cols) (concat CD) \/
       batch_fooled H m Zo Ds (lyp_ops l) (rr ++ rw ++ cr ++ cw) (halves dl dr) w1 \/
       batch_fooled H c Zm [] (lyp_mem l) [ri; ra; ci; ca] [] w2).
Proof. exact @api_accepted. Qed.
Print Assumptions C55_accepted.
(** Few pairs of challenges hide a wrong read: with N cells and accesses together, at most 2*N*N
    first challenges leave more than N second challenges that do. *)
Theorem C55_few_hide : forall (K : Fld) (mem : list K) (accs : list nat) (vals : list K) (gs : list K), let N := (length mem + length accs)%nat in
  length vals = length accs -> (forall a, In a accs -> (a < length mem)%nat) -> (forall n, (1 <= n <= N)%nat -> (of_nat n : K) <> 0) -> NoDup gs ->
  (forall g, In g gs -> exists Ts, NoDup Ts /\ (N < length Ts)%nat /\ forall t, In t Ts -> hides g t mem accs vals) -> (length gs <= 2 * (N * N))%nat.
Proof. exact @api_hides. Qed.
Print Assumptions C55_few_hide.
(** Soundness is refuted: for matrices with a nonzero entry each, every three claimed evaluations
    have an accepted proof against the honest commitment.  The verifier takes the number of
    address evaluations from the proof; with none, no hash is compared. *)
Theorem C55_soundness_refuted : forall (K : Fld) (G : Mod K) (E : Enc G) (H : log E -> K), (of_nat 2 : K) <> 0 -> (of_nat 3 : K) <> 0 ->
  forall (A B C : sparse K) (rx ry : list K) (nz : nat) (stream : nat -> G) (g : sgens) (comm : scomm) (d : mdense) (tr : log E) (evals : list K), let Ps := [A; B; C] in
  mats_ok Ps rx ry nz -> sgens_new (length rx) (length ry) nz 3 stream = Ok g -> multi_commit H Ps g = Ok (comm, d) ->
  (forall P, In P Ps -> exists e, In e (sM P) /\ eval e <> 0) -> length evals = 3%nat ->
  unless H "u" 0 (openings (Nat.log2_up nz) (Nat.max (length rx) (length ry))) (exists pf tr', spar_verify H pf comm rx ry evals g tr = Ok tr').
Proof. exact @api_spar_forged. Qed.
Print Assumptions C55_soundness_refuted.
(** over a small field, three 2-by-4 matrices with 3, 2 and 1 entries: the honest proof is accepted for the true
    evaluations and for no others tried, and there is an accepted proof for (1, 2, 3) *)
Example C55_case :
  let evals := map (fun P => mat_at P exrx exry) [exA; exB; exC] in
  let run claim := (do g <- sgens_new 1 2 3 3 sStream; do c <- multi_commit sH [exA; exB; exC] g; let '(comm, d) := c in
    do p <- spar_prove sH d exrx exry evals g [] []; let '(pf, tr, _) := p in
    do tr' <- spar_verify sH pf comm exrx exry claim g []; Ok (Nat.eqb (length tr) (length tr'))) in
  mats_ok [exA; exB; exC] exrx exry 3 /\ run evals = Ok true /\ run [fs 1; fs 2; fs 3] = Panic.
Proof. split; [exact ex_mats|]. split; vm_compute; reflexivity. Qed.
Example C55_forged_case : let H := fun _ : log sE => fs 5 in
  exists g comm d pf tr', sgens_new 1 2 3 3 sStream = Ok g /\ multi_commit H [exA; exB; exC] g = Ok (comm, d) /\
    map (fun P => mat_at P exrx exry) [exA; exB; exC] <> [fs 1; fs 2; fs 3] /\ spar_verify H pf comm exrx exry [fs 1; fs 2; fs 3] g [] = Ok tr'.
Proof.
  intro H. destruct (api_gens_commit H exA exB exC 1 2 3 sStream ex_shape eq_refl) as (g & comm & d & A1 & A2 & _).
  destruct fs_neq as (T2 & T3 & T5).
  pose proof (api_spar_forged H T2 T3 exA exB exC exrx exry 3 sStream g comm d [] [fs 1; fs 2; fs 3] ex_mats A1 A2 ex_nz eq_refl) as U.
  apply unless_const in U; [|exact T5]. destruct U as (pf & tr' & V). exists g, comm, d, pf, tr'. repeat (split; [assumption|]). split; [|exact V].
  intro X. apply (f_equal (map zval)) in X. vm_compute in X. discriminate X.
Qed.
Example C55_one_entry_case : let P := MkSparse 1 1 [MkEntry 1 0 (fs 6)] in
  (do g <- sgens_new 1 1 1 3 sStream; do c <- multi_commit sH [P; P; P] g; Ok tt) = Ok tt /\
  (do g <- sgens_new 1 1 1 3 sStream; do c <- multi_commit sH [P; P; P] g; let '(comm, d) := c in
   do _ <- spar_prove sH d [fs 3] [fs 4] (map (fun P => mat_at P [fs 3] [fs 4]) [P; P; P]) g [] []; Ok tt) = Panic.
Proof. zqs. Qed.
(** in the run of [C55_case], the values in the proof are those of the stored tables and of the
    true contents of the cells, at the points where the product proofs end *)
Example C55_accepted_case : let Ps := [exA; exB; exC] in
  let memx := eq_evals [fs 0; fs 11] in let memy := eq_evals [fs 13; fs 17] in
  let rows := @stored_rows Fs 2 Ps in let cols := @stored_cols Fs 2 Ps in
  let RD := map (map (fun a => nth a memx 0)) rows in let CD := map (map (fun a => nth a memy 0)) cols in
  (rows, cols, stamps 2 rows, audits 2 cols) = ([[0; 1; 1; 0]; [0; 1; 0; 0]; [1; 0; 0; 0]], [[1; 2; 0; 0]; [0; 3; 0; 0]; [1; 0; 0; 0]], [[0; 0; 1; 1]; [2; 2; 3; 4]; [3; 5; 6; 7]], [8; 2; 1; 1])%nat /\
  (do g <- sgens_new 1 2 3 3 sStream; do c <- multi_commit sH Ps g; let '(comm, d) := c in
   do p <- spar_prove sH d exrx exry (map (fun P => mat_at P exrx exry) Ps) g [] []; let '(pf, _, _) := p in
   let h := np_hash (sp_net pf) in let l := np_prod (sp_net pf) in
   let w0 := app_derefs "comm_poly_row_col_ops_val" (sp_derefs pf) (proto "Sparse polynomial evaluation proof" []) in
   do v <- ly_verify sH l 4 4 (map (fun P => mat_at P exrx exry) Ps) (proto "Sparse polynomial evaluation proof" (MChal "challenge_r_hash" :: MChal "challenge_r_hash" :: w0));
   let '(_, rm, _, _, ro, _) := v in
   let same (a b : list Fs) := forallb (fun '(x, y) => feqb x y) (combine a b) && Nat.eqb (length a) (length b) in
   Ok (same (fst (fst (hp_row h))) (map (fun a => mle (tbl a) ro) rows) && same (snd (fst (hp_row h))) (map (fun a => mle (tbl a) ro) (stamps 2 rows)) &&
       feqb (snd (hp_row h)) (mle (tbl (audits 2 rows)) rm) &&
       same (fst (fst (hp_col h))) (map (fun a => mle (tbl a) ro) cols) && same (snd (fst (hp_col h))) (map (fun a => mle (tbl a) ro) (stamps 2 cols)) &&
       feqb (snd (hp_col h)) (mle (tbl (audits 2 cols)) rm) &&
       same (hp_val h) (map (fun V => mle V ro) (stored_vals 2 Ps)) &&
       same (fst (hp_der h)) (map (fun D => mle D ro) RD) && same (snd (hp_der h)) (map (fun D => mle D ro) CD))) = Ok true.
Proof. split; vm_compute; reflexivity. Qed.
(** a memory of one cell holding 5, read once as 6: only g = 0 hides the wrong read *)
Example C55_few_hide_case : (forall n, (1 <= n <= 2)%nat -> (of_nat n : Fp) <> 0) /\
  hides (fp 0) (fp 9) [fp 5] [0%nat] [fp 6] /\ ~ hides (fp 2) (fp 9) [fp 5] [0%nat] [fp 6].
Proof.
  split; [|split; [split|]].
  - intros n Hn. assert (n = 1 \/ n = 2)%nat as [-> | ->] by lia; intro X; apply (f_equal zval) in X; vm_compute in X; discriminate X.
  - intro X. apply (f_equal (map zval)) in X. vm_compute in X. discriminate X.
  - zqs.
  - intros [_ X]. apply (f_equal zval) in X. vm_compute in X. discriminate X.
Qed.
