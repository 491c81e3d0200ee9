(** C36 and C55: statements. *)
From Coq Require Import String List Arith ZArith Lia Bool Field Ring Permutation.
From Verif Require Import Base ListAux Field Zq Vec MathModel PolyModel PolySpec PolyProofs PolyImp CommitModel CommitSpec CommitProofs SigmaModel SigmaApi BulletProofs LogProofs SumModel R1csModel R1csSpec R1csProofs R1csMore R1csShape ProdModel ProdSpec ProdProofs ProdBatch SparModel SparSpec SparMem SparOpen SparNet SparTab SparProofs SparSound ExSmall.
Import ListNotations.

Section Api.
  Context {K : Fld} {G : Mod K} {E : Enc G}.
  Variable H : log E -> K.
  Local Open Scope fld_scope.
  Add Field Ksa : (fth K).

  (** ** C36 *)
  Lemma api_timestamps (addrs : list (list nat)) m c : let accs := concat addrs in
    (forall a, In a addrs -> length a = (2 ^ m)%nat) -> (forall x, In x accs -> (x < 2 ^ c)%nat) ->
    exists t, at_new (2 ^ c) (2 ^ m) addrs = Ok t /\ at_usize t = addrs /\
      map (@dZ K) (at_addr t) = map (map of_nat) addrs /\ map (fun d => length (dZ d)) (at_read t) = map (@length nat) addrs /\
      concat (map (@dZ K) (at_read t)) = map (fun j => of_nat (earlier accs j)) (seq 0 (length accs)) /\
      dZ (at_audit t) = map (fun a => of_nat (total accs a)) (seq 0 (2 ^ c)).
  Proof.
    intros accs LA B. destruct (@at_new_ok K addrs m c LA) as (rts & audit & L & E1 & E2 & X).
    { intros a x Ia Ix. apply B. apply in_concat. exists a. split; assumption. }
    eexists. split; [exact X|]. cbn [at_usize at_addr at_read at_audit]. rewrite !map_map. cbn [dZ dt]. unfold nats. split; [reflexivity|]. split; [reflexivity|].
    split; [rewrite <- L; apply map_ext; intro r; cbn [dt dZ]; rewrite map_length; reflexivity|]. split.
    - rewrite <- concat_map, E1, map_map. reflexivity.
    - rewrite E2, map_map. reflexivity.
  Qed.
  Lemma ts_bad (insts : list (list nat)) : forall au, (exists x, In x (concat insts) /\ (length au <= x)%nat) -> ts_insts insts au = Panic.
  Proof.
    intros au X. pose proof (ts_insts_ok insts au) as Q. rewrite (ts_ops_bad (concat insts) au X) in Q. destruct (ts_insts insts au); [discriminate Q|discriminate Q|reflexivity].
  Qed.
  Lemma api_bad_accesses (addrs : list (list nat)) cells ops :
    (exists a, In a addrs /\ length a <> ops) \/ (exists x, In x (concat addrs) /\ (cells <= x)%nat) -> @at_new K cells ops addrs = Panic.
  Proof.
    intro X. unfold at_new. destruct (forallb _ addrs) eqn:F; [|reflexivity]. rewrite forallb_forall in F. destruct X as [(a & I & N)|(x & I & B)].
    - destruct N. apply Nat.eqb_eq, (F a I).
    - rewrite ts_bad; [reflexivity|]. exists x. rewrite repeat_length. split; assumption.
  Qed.
  Lemma api_deref (addrs : list (list nat)) cells m t (mem : list K) : at_new cells (2 ^ m) addrs = Ok t -> (forall x, In x (concat addrs) -> (x < length mem)%nat) ->
    exists ds, at_deref t mem = Ok ds /\ map (@dZ K) ds = map (map (fun a => nth a mem 0)) addrs.
  Proof.
    intros Q B. unfold at_new in Q. destruct (forallb _ addrs) eqn:F; [|discriminate Q]. rewrite forallb_forall in F.
    destruct (ts_insts addrs _) as [q| |]; cbn [bind] in Q; try discriminate Q.
    assert (LA : forall a, In a addrs -> length a = (2 ^ m)%nat) by (intros a I; apply Nat.eqb_eq, (F a I)).
    change (@dense_from_usize K) with (fun x => dense_new (@nats K x)) in Q. cbn beta in Q. rewrite (mapM_dt m nats addrs) in Q by (intros a I; unfold nats; rewrite map_length; apply LA, I). cbn [bind] in Q.
    destruct (mapM _ (fst q)); cbn [bind] in Q; try discriminate Q. destruct (dense_new _); cbn [bind] in Q; try discriminate Q. injection Q as <-.
    assert (B' : forall b x, In b addrs -> In x b -> (x < length mem)%nat) by (intros b x Ib Ix; apply B, in_concat; exists b; split; assumption).
    erewrite (at_deref_ok _ addrs mem m); [|reflexivity|cbn [at_addr]; rewrite !map_length; reflexivity|exact LA|exact B'].
    eexists. split; [reflexivity|]. rewrite !map_map. reflexivity.
  Qed.
  Lemma api_products (addrs : list (list nat)) m c (mem : list K) t vals rh rm : let accs := concat addrs in
    length addrs = 3%nat -> (1 <= m)%nat -> (1 <= c)%nat -> length mem = (2 ^ c)%nat -> at_new (2 ^ c) (2 ^ m) addrs = Ok t -> at_deref t mem = Ok vals ->
    exists p i r w a, layers_new mem t vals rh rm = Ok p /\ pl_evals p = Ok (i, r, w, a) /\
      i = fprod (map (fpr rh rm) (at_start mem)) /\ fprod r = fprod (map (fpr rh rm) (reads mem accs)) /\
      fprod w = fprod (map (fpr rh rm) (writes mem accs)) /\ a = fprod (map (fpr rh rm) (at_end mem accs)) /\ subset_check (i, r, w, a) = true.
  Proof.
    intros accs L3 M1 C1 LM Ht Hv. assert (OK : (forall a, In a addrs -> length a = (2 ^ m)%nat) /\ (forall x, In x accs -> (x < 2 ^ c)%nat)).
    { split.
      - intros a I. destruct (Nat.eq_dec (length a) (2 ^ m)) as [E0|N]; [exact E0|]. rewrite api_bad_accesses in Ht by (left; exists a; split; assumption). discriminate Ht.
      - intros x I. destruct (Nat.lt_ge_cases x (2 ^ c)) as [B|B]; [exact B|]. rewrite api_bad_accesses in Ht by (right; exists x; split; assumption). discriminate Ht. }
    destruct OK as [LA B]. assert (B' : forall a x, In a addrs -> In x a -> (x < 2 ^ c)%nat) by (intros a x Ia Ix; apply B, in_concat; exists a; split; assumption).
    destruct (@at_new_ok K addrs m c LA B') as (rts & audit & L & E1 & E2 & X). rewrite X in Ht. injection Ht as <-.
    rewrite (at_deref_ok _ addrs mem m) in Hv by (first [reflexivity|cbn [at_addr]; rewrite !map_length; reflexivity|assumption|rewrite LM; assumption]). injection Hv as <-.
    destruct m as [|n]; [lia|]. destruct c as [|c]; [lia|]. rewrite <- LM in E2.
    assert (LR : forall r, In r rts -> length r = (2 ^ S n)%nat).
    { intros r I. assert (Q : In (length r) (map (@length nat) addrs)) by (rewrite <- L; apply in_map, I). apply in_map_iff in Q. destruct Q as (b & <- & I'). apply LA, I'. }
    destruct (layers_ok mem (MkAT addrs (map (dt (S n)) (map (@nats K) addrs)) (map (dt (S n)) (map nats rts)) (dt (S c) (nats audit))) (map nats addrs) (map (deref1 mem) addrs) (map nats rts) (nats audit) rh rm n c) as (p & EP & PI).
    { exact LM. } { unfold nats. rewrite map_length, E2, map_length, seq_length. exact LM. } { repeat split. }
    1-3: intros Z I; apply in_map_iff in I; destruct I as (a & <- & I); unfold nats, deref1; rewrite map_length; auto.
    { rewrite map_length. exact L3. } { rewrite map_length. exact L3. } { rewrite map_length. apply (f_equal (@length nat)) in L. rewrite !map_length in L. rewrite L. exact L3. }
    cbn zeta in PI. rewrite <- LM in PI. destruct (honest_products rh rm mem addrs rts audit L E1 E2) as (P1 & P2 & P3 & P4).
    exists p. eexists _, _, _, _. split; [exact EP|]. split; [exact (pl_evals_ok _ _ _ _ _ _ _ PI)|]. rewrite P1, P2. split; [reflexivity|]. split; [exact P3|]. split; [exact P4|]. split; [reflexivity|].
    unfold subset_check. rewrite P3, P4, <- !fprod_app, <- !map_app. rewrite (fprod_perm _ (map (fpr rh rm) (reads mem accs ++ at_end mem accs))); [apply Field.feqb_refl|].
    apply Permutation_map, mem_perm. rewrite LM. exact B.
  Qed.

  (** ** C55 *)
  Lemma api_gens_commit (A B C : sparse K) x y nz (stream : nat -> G) : let Ps := [A; B; C] in
    (forall P, In P Ps -> shape x y P) -> next_pow2 nz = next_pow2 (max_entries Ps) ->
    exists g comm d, sgens_new x y nz 3 stream = Ok g /\ multi_commit H Ps g = Ok (comm, d) /\
      sc_batch comm = 3%nat /\ sc_nops comm = next_pow2 (max_entries Ps) /\ sc_cells comm = (2 ^ Nat.max x y)%nat.
  Proof.
    intros Ps SH NZ. set (m := Nat.log2_up (max_entries Ps)). assert (NP : next_pow2 (max_entries Ps) = (2 ^ m)%nat) by reflexivity.
    assert (X : exists g, sgens_new x y nz 3 stream = Ok g).
    { unfold sgens_new. rewrite NZ, NP, log_2_pow. cbn [bind]. change (log_2 (next_pow2 (3 * 5))) with (Ok 4%nat). change (log_2 (next_pow2 (3 * 2))) with (Ok 3%nat). cbn [bind].
      unfold pcgens_new. rewrite !dgens_new_ok. cbn [bind]. eexists. reflexivity. }
    destruct X as (g & Hg). exists g. destruct (sgens_ok _ _ _ _ _ m Hg ltac:(rewrite NZ; exact NP)) as (_ & G2 & G3).
    destruct (multi_dense_ok A B C x y m (Nat.max x y) SH eq_refl NP) as (d & rr & ar & rc & ac & MD & MI & _ & _ & _ & CR & CC). fold Ps in MD, MI, CR, CC.
    destruct MI as ((AR1 & AR2 & AR3) & _ & _ & (EO & LO & NO) & EM & LRU & LCU).
    assert (L3r : length rr = 3%nat) by (destruct CR as (Q & _ & _); apply (f_equal (@length nat)) in Q; rewrite !map_length in Q; exact Q).
    assert (L3c : length rc = 3%nat) by (destruct CC as (Q & _ & _); apply (f_equal (@length nat)) in Q; rewrite !map_length in Q; exact Q).
    assert (K2 : (Nat.log2_up (length (map (@nats K) (rows_of m Ps) ++ map nats rr ++ map nats (cols_of m Ps) ++ map nats rc ++ vals_of m Ps)) + m)%nat = (4 + m)%nat).
    { rewrite !app_length, !map_length, L3r, L3c. reflexivity. }
    rewrite K2 in EO. unfold multi_commit. rewrite MD. cbn [bind].
    set (Z := resize_pow2 _) in EO. assert (LZ : length Z = (2 ^ (4 + m))%nat).
    { unfold Z, resize_pow2. rewrite app_length, repeat_length. rewrite (concat_length_const K _ _ LO), !app_length, !map_length, L3r, L3c. change (length (rows_of m Ps)) with 3%nat. change (length (cols_of m Ps)) with 3%nat. change (length (vals_of m Ps)) with 3%nat. change (3 + (3 + (3 + (3 + 3))))%nat with 15%nat. rewrite next_pow2_mul by lia. change (next_pow2 15) with 16%nat. rewrite Nat.pow_add_r. change (2 ^ 4)%nat with 16%nat. lia. }
    destruct (poly_commit_ok H Z (4 + m) (sg_ops g) stream None LZ G2) as (b1 & tp1 & _ & _ & EP1). rewrite EO. unfold dt. rewrite EP1. cbn [bind].
    assert (LZ2 : length (nats ar ++ nats ac : list K) = (2 ^ S (Nat.max x y))%nat) by (rewrite app_length, LRU, LCU, pow2_S; reflexivity).
    destruct (poly_commit_ok H _ (S (Nat.max x y)) (sg_mem g) stream None LZ2 G3) as (b2 & tp2 & _ & _ & EP2). rewrite EM. unfold dt. rewrite EP2. cbn [bind].
    rewrite AR2, AR3. destruct rr as [|r0 rr']; [discriminate L3r|]. unfold idx. cbn [map nth_error of_opt bind dlen dt].
    eexists _, _. split; [exact Hg|]. split; [reflexivity|]. repeat split.
  Qed.

  (** one stored entry per matrix *)
  Lemma layers_panic (table : list K) t (A V T : list (list K)) (U : list K) rh rm c : length table = (2 ^ c)%nat -> length U = (2 ^ c)%nat ->
    at_is t 0 c A T U -> all_len 0 A -> all_len 0 V -> all_len 0 T -> length A = 3%nat -> length V = 3%nat -> length T = 3%nat ->
    layers_new table t (map (dt 0) V) rh rm = Panic.
  Proof.
    intros LT LU (E1 & E2 & E3) LA LV LTs L1 L2 L3. unfold layers_new, build_hash_layer. rewrite E1, E2, E3.
    rewrite (hash_cells_ok table _ (repeat 0 (2 ^ c)) rh rm c) by (first [assumption|apply repeat_length|intros i Hi; rewrite nth_repeat; reflexivity]). cbn [bind].
    rewrite (hash_cells_ok table _ U rh rm c) by (first [assumption|intros i Hi; unfold dense_index, dt; cbn [dZ]; apply idx_nth; lia]). cbn [bind].
    destruct (ops_layer rh rm 0 A V T 0 LA LV LTs ltac:(congruence) ltac:(congruence)) as (X1 & X2 & X3). rewrite X1. cbn [bind].
    destruct (ops_layer rh rm 1 A V T 0 LA LV LTs ltac:(congruence) ltac:(congruence)) as (Y1 & _ & _). rewrite Y1. cbn [bind].
    destruct (ops_tab rh rm 0 A V T) as [|Z Zs]; [rewrite L1 in X3; discriminate X3|]. destruct c as [|c].
    - rewrite pc_new_one by reflexivity. reflexivity.
    - set (I0 := htab _ _ _ _ _). assert (LI0 : length I0 = (2 ^ S c)%nat) by (unfold I0; rewrite htab_length; unfold nats; rewrite ?repeat_length, ?map_length, ?seq_length; congruence).
      destruct (dt_ok (S c) I0 LI0) as (O & N & _). destruct (pc_new_ok (dt (S c) I0) c O N) as (pi & -> & _). cbn [bind map mapM].
      rewrite pc_new_one by reflexivity. reflexivity.
  Qed.
  Lemma api_single (A B C : sparse K) (rx ry : list K) nz (stream : nat -> G) g comm d (evals : list K) (tr tape : log E) : let Ps := [A; B; C] in
    (forall P, In P Ps -> shape (length rx) (length ry) P) -> (max_entries Ps <= 1)%nat -> (nz <= 1)%nat ->
    sgens_new (length rx) (length ry) nz 3 stream = Ok g -> multi_commit H Ps g = Ok (comm, d) -> spar_prove H d rx ry evals g tr tape = Panic.
  Proof.
    intros Ps SH M1 N1 Hg Hc. set (c := Nat.max (length rx) (length ry)).
    assert (NP : next_pow2 (max_entries Ps) = (2 ^ 0)%nat) by (destruct (max_entries Ps) as [|[|k]]; [reflexivity..|lia]).
    assert (NZ : next_pow2 nz = (2 ^ 0)%nat) by (destruct nz as [|[|k]]; [reflexivity..|lia]).
    destruct (multi_dense_ok A B C _ _ 0 c SH eq_refl NP) as (d' & rr & ar & rc & ac & MD & MI & UR & UC & BT & CR & CC).
    fold Ps in MD, MI, UR, UC, CR, CC. assert (d' = d) as ->.
    { unfold multi_commit in Hc. rewrite MD in Hc. cbn [bind] in Hc. destruct (poly_commit H (md_ops d') (sg_ops g) None) as [[[co bo] to]| |]; [|discriminate Hc..]. cbn [bind] in Hc.
      destruct (poly_commit H (md_mem d') (sg_mem g) None) as [[[cm bm] tm]| |]; [|discriminate Hc..]. cbn [bind] in Hc. destruct (idx _ _); [|discriminate Hc..]. cbn [bind] in Hc. injection Hc; intros; assumption. }
    destruct MI as (AR & AC & _ & (_ & LO & _) & _ & LRU & LCU). apply all_len_app in LO. destruct LO as [LO1 LO]. apply all_len_app in LO. destruct LO as [LO2 _].
    assert (L3r : length rr = 3%nat) by (destruct CR as (Q & _ & _); apply (f_equal (@length nat)) in Q; rewrite !map_length in Q; exact Q).
    destruct (equalize_ok rx ry) as (Lx & Ly & _ & _). unfold spar_prove. destruct (Nat.eqb _ (md_batch d)); [|reflexivity].
    destruct (equalize rx ry) as [x y]. cbn [fst snd] in Lx, Ly. fold c in Lx, Ly.
    assert (LB : forall P, In P Ps -> (length (sM P) <= 2 ^ 0)%nat) by (intros P I; rewrite <- NP; etransitivity; [apply max_ge, I|apply next_pow2_ge]).
    assert (LR : forall a, In a (rows_of 0 Ps) -> length a = (2 ^ 0)%nat) by (intros a I; apply in_map_iff in I; destruct I as (P & <- & I); apply padto_len; rewrite map_length; apply LB, I).
    assert (LC : forall a, In a (cols_of 0 Ps) -> length a = (2 ^ 0)%nat) by (intros a I; apply in_map_iff in I; destruct I as (P & <- & I); apply padto_len; rewrite map_length; apply LB, I).
    assert (Px : (2 ^ length rx <= 2 ^ c)%nat) by (apply Nat.pow_le_mono_r; unfold c; lia). assert (Py : (2 ^ length ry <= 2 ^ c)%nat) by (apply Nat.pow_le_mono_r; unfold c; lia).
    assert (Pc : (0 < 2 ^ c)%nat) by (pose proof (Nat.pow_nonzero 2 c); lia).
    assert (BR : forall a z, In a (rows_of 0 Ps) -> In z a -> (z < length (eq_evals x))%nat).
    { rewrite eq_evals_length, Lx. intros a z I Iz. apply in_map_iff in I. destruct I as (P & <- & I). apply in_app_or in Iz. destruct Iz as [Iz|Iz].
      - apply in_map_iff in Iz. destruct Iz as (e & <- & Ie). destruct (SH P I) as (_ & _ & O). destruct (O e Ie). lia.
      - apply repeat_spec in Iz. lia. }
    assert (BC : forall a z, In a (cols_of 0 Ps) -> In z a -> (z < length (eq_evals y))%nat).
    { rewrite eq_evals_length, Ly. intros a z I Iz. apply in_map_iff in I. destruct I as (P & <- & I). apply in_app_or in Iz. destruct Iz as [Iz|Iz].
      - apply in_map_iff in Iz. destruct Iz as (e & <- & Ie). destruct (SH P I) as (_ & _ & O). destruct (O e Ie). lia.
      - apply repeat_spec in Iz. lia. }
    set (RD := map (deref1 (eq_evals x)) (rows_of 0 Ps)). set (CD := map (deref1 (eq_evals y)) (cols_of 0 Ps)).
    assert (LRD : all_len 0 RD) by (intros Z I; apply in_map_iff in I; destruct I as (a & <- & I); unfold deref1; rewrite map_length; apply LR, I).
    assert (LCD : all_len 0 CD) by (intros Z I; apply in_map_iff in I; destruct I as (a & <- & I); unfold deref1; rewrite map_length; apply LC, I).
    assert (DR : at_deref (md_row d) (eq_evals x) = Ok (map (dt 0) RD)) by (apply at_deref_ok; [exact UR|destruct AR as (-> & _); rewrite !map_length; reflexivity|exact LR|exact BR]).
    assert (DC : at_deref (md_col d) (eq_evals y) = Ok (map (dt 0) CD)) by (apply at_deref_ok; [exact UC|destruct AC as (-> & _); rewrite !map_length; reflexivity|exact LC|exact BC]).
    destruct (derefs_ok 0 RD CD) as (f0 & F0 & DF0); [reflexivity|discriminate|apply all_len_app; split; assumption|]. unfold md_deref. rewrite DR, DC. cbn [bind]. rewrite F0. cbn [bind].
    destruct (sgens_ok _ _ _ _ _ _ Hg NZ) as (G1 & _). destruct (commit_df H f0 0 RD CD (sg_derefs g) stream (3 + 0) DF0 eq_refl eq_refl G1) as (C0 & EC & _). rewrite EC. cbn [bind].
    unfold challenge. destruct DF0 as (-> & _). erewrite layers_panic; [reflexivity| | |exact AR|exact LO1|exact LRD|exact LO2| | |].
    - rewrite eq_evals_length, Lx. reflexivity.
    - exact LRU.
    - reflexivity.
    - reflexivity.
    - rewrite map_length. exact L3r.
  Qed.

  Lemma mats_sizes (Ps : list (sparse K)) rx ry nz : mats_ok Ps rx ry nz -> exists n c, Nat.max (length rx) (length ry) = S c /\ next_pow2 (max_entries Ps) = (2 ^ S n)%nat /\ next_pow2 nz = (2 ^ S n)%nat /\
    (half_up (3 + S n) < 32)%nat /\ (half_up (4 + S n) < 32)%nat /\ (half_up (S (S c)) < 32)%nat /\ Nat.log2_up nz = S n.
  Proof.
    intros (_ & [M1 M2] & L2 & NZ & B). assert (P : (0 < Nat.log2_up nz)%nat).
    { unfold next_pow2 in NZ. apply Nat.pow_inj_r in NZ; [|lia]. rewrite NZ. apply Nat.log2_up_pos. lia. }
    exists (Nat.pred (Nat.log2_up nz)), (Nat.pred (Nat.max (length rx) (length ry))).
    assert (HU : forall k, (k <= 62)%nat -> (half_up k < 32)%nat). { intros k Hk. unfold half_up. pose proof (Nat.div_mod k 2). pose proof (Nat.mod_upper_bound k 2). lia. }
    rewrite <- NZ. unfold next_pow2. repeat split; try lia; try (rewrite Nat.succ_pred_pos by exact P; reflexivity); apply HU; lia.
  Qed.
  Lemma d3_honest (Ps : list (sparse K)) (rx ry : list K) m : (forall P, In P Ps -> shape (length rx) (length ry) P) -> (forall P, In P Ps -> (length (sM P) <= 2 ^ m)%nat) ->
    let memx := eq_evals (fst (equalize rx ry)) in let memy := eq_evals (snd (equalize rx ry)) in
    let Ds := map (fun P => (deref1 memx (padto m 0%nat (map erow (sM P))), deref1 memy (padto m 0%nat (map ecol (sM P))), padto m 0 (map eval (sM P)))) Ps in
    map d3 Ds = map (fun P => mat_at P rx ry) Ps /\ map t1 Ds = map (deref1 memx) (rows_of m Ps) /\ map t2 Ds = map (deref1 memy) (cols_of m Ps) /\ map t3 Ds = vals_of m Ps.
  Proof.
    intros SH LB memx memy Ds. destruct (equalize_ok rx ry) as (_ & _ & X & Y). cbn zeta in X, Y.
    unfold Ds, rows_of, cols_of, vals_of. rewrite !map_map. repeat split. apply map_ext_in. intros P I. destruct (SH P I) as (_ & _ & O).
    unfold d3, t1, t2, t3. cbn [fst snd]. rewrite (dot3_pad m (chi rx) (chi ry)).
    - unfold mat_at. rewrite mat_table_mle, (mat_sum K _ _ _ (chi rx) (chi ry) O). reflexivity.
    - apply LB, I.
    - intros e Ie. destruct (O e Ie). split; [apply X|apply Y]; assumption.
  Qed.

  Hypothesis two : (of_nat 2 : K) <> 0.
  Hypothesis three : (of_nat 3 : K) <> 0.

  Lemma api_spar_complete (A B C : sparse K) (rx ry : list K) nz (stream : nat -> G) g comm d (tr tape : log E) : let Ps := [A; B; C] in
    mats_ok Ps rx ry nz -> sgens_new (length rx) (length ry) nz 3 stream = Ok g -> multi_commit H Ps g = Ok (comm, d) ->
    let evals := map (fun P => mat_at P rx ry) Ps in
    (forall pf tr' tape', spar_prove H d rx ry evals g tr tape = Ok (pf, tr', tape') -> spar_verify H pf comm rx ry evals g tr = Ok tr') /\
    unless H "u" 0 (openings (Nat.log2_up nz) (Nat.max (length rx) (length ry))) (exists x, spar_prove H d rx ry evals g tr tape = Ok x).
  Proof.
    intros Ps MO Hg Hc evals. destruct (mats_sizes _ _ _ _ MO) as (n & c & MC & NP & NZ & B1 & B2 & B3 & LG). destruct MO as (SH & _).
    assert (LB : forall P, In P Ps -> (length (sM P) <= 2 ^ S n)%nat) by (intros P I; rewrite <- NP; etransitivity; [apply max_ge, I|apply next_pow2_ge]).
    destruct (d3_honest Ps rx ry (S n) SH LB) as (D0 & D1 & D2 & D3). set (Ds := map _ Ps) in D0, D1, D2, D3.
    set (memx := eq_evals (fst (equalize rx ry))) in *. set (memy := eq_evals (snd (equalize rx ry))) in *.
    assert (DF : exists f, df_is f (S n) (map t1 Ds) (map t2 Ds)).
    { destruct (derefs_ok (S n) (map t1 Ds) (map t2 Ds)) as (f & _ & DF); [rewrite !map_length; reflexivity|discriminate| |exists f; exact DF].
      rewrite D1, D2. apply all_len_app. split; intros Z I; apply in_map_iff in I; destruct I as (a & <- & I); apply in_map_iff in I; destruct I as (P & <- & I); unfold deref1; rewrite map_length; apply padto_len; rewrite map_length; apply LB, I. }
    destruct DF as (f1 & DF1).
    destruct (spar_core H two three A B C rx ry n c nz stream g comm d f1 Ds SH MC NP NZ B1 B2 B3 Hg Hc D3 DF1) as (BT & f0 & MD & DF0 & _).
    fold memx memy Ps in MD, DF0. rewrite <- D1, <- D2 in DF0.
    destruct (spar_core H two three A B C rx ry n c nz stream g comm d f0 Ds SH MC NP NZ B1 B2 B3 Hg Hc D3 DF0) as (_ & f0' & MD' & _ & Q).
    fold memx memy Ps in MD', Q. rewrite MD in MD'. injection MD' as <-. destruct (Q tr tape) as [Q1 Q2]. rewrite D0 in Q1, Q2.
    assert (EP : spar_prove H d rx ry evals g tr tape = spar_with H d f0 f0 rx ry evals g tr tape) by (apply spar_prove_with; [rewrite BT; reflexivity|exact MD]).
    rewrite EP, LG, MC. split; [|exact Q2]. intros pf tr' tape' X. apply (Q1 _ _ _ X); assumption.
  Qed.

  (** ** any three values can be claimed *)
  Lemma steer m (V : list K) (e : K) j : length V = (2 ^ m)%nat -> (j < 2 ^ m)%nat -> nth j V 0 <> 0 ->
    let t := (upd (repeat 0 (2 ^ m)) j (e * finv (nth j V 0)), repeat 1 (2 ^ m), V) : triple K in tlen m t /\ d3 t = e.
  Proof.
    intros LV Hj N t. split.
    - split; [|split]; unfold t1, t2, t3; cbn [fst snd t]; rewrite ?ListAux.upd_length, ?repeat_length; auto.
    - unfold d3, t, t1, t2, t3. cbn [fst snd]. unfold dot3. rewrite ListAux.upd_length, repeat_length.
      rewrite (sumn_single K (2 ^ m) j) by (first [exact Hj|intros i Hi Q; rewrite nth_upd_other by congruence; rewrite nth_repeat; ring]).
      rewrite nth_upd_same by (rewrite repeat_length; exact Hj). rewrite (nth_indep (repeat 1 (2 ^ m)) 0 1) by (rewrite repeat_length; exact Hj). rewrite nth_repeat. field. exact N.
  Qed.
  Lemma api_spar_forged (A B C : sparse K) (rx ry : list K) nz (stream : nat -> G) g comm d (tr : log E) (evals : list K) : let Ps := [A; B; C] in
    mats_ok Ps rx ry nz -> sgens_new (length rx) (length ry) nz 3 stream = Ok g -> multi_commit H Ps g = Ok (comm, d) ->
    (forall P, In P Ps -> exists e, In e (sM P) /\ eval e <> 0) -> length evals = 3%nat ->
    unless H "u" 0 (openings (Nat.log2_up nz) (Nat.max (length rx) (length ry))) (exists pf tr', spar_verify H pf comm rx ry evals g tr = Ok tr').
  Proof.
    intros Ps MO Hg Hc NV L3. destruct (mats_sizes _ _ _ _ MO) as (n & c & MC & NP & NZ & B1 & B2 & B3 & LG). destruct MO as (SH & _).
    assert (LB : forall P, In P Ps -> (length (sM P) <= 2 ^ S n)%nat) by (intros P I; rewrite <- NP; etransitivity; [apply max_ge, I|apply next_pow2_ge]).
    assert (ST : forall P e, In P Ps -> exists t, tlen (S n) t /\ d3 t = e /\ t3 t = padto (S n) 0 (map eval (sM P))).
    { intros P e I. destruct (NV P I) as (x & Ix & Nx). apply (In_nth _ _ (MkEntry 0 0 0)) in Ix. destruct Ix as (j & Hj & <-). pose proof (LB P I) as LP.
      assert (LV : length (padto (S n) 0 (map eval (sM P))) = (2 ^ S n)%nat) by (apply padto_len; rewrite map_length; exact LP).
      destruct (steer (S n) (padto (S n) 0 (map eval (sM P))) e j LV ltac:(lia)) as [S1 S2].
      - unfold padto. rewrite app_nth1 by (rewrite map_length; exact Hj). rewrite (nth_map0 _ _ _ (MkEntry 0 0 0) _) by exact Hj. exact Nx.
      - eexists. split; [exact S1|]. split; [exact S2|reflexivity]. }
    destruct evals as [|e0 [|e1 [|e2 [|? ?]]]]; try discriminate L3.
    destruct (ST A e0 ltac:(left; reflexivity)) as (ta & TA & EA & VA). destruct (ST B e1 ltac:(right; left; reflexivity)) as (tb & TB & EB & VB). destruct (ST C e2 ltac:(right; right; left; reflexivity)) as (tc & TC & EC & VC).
    set (Ds := [ta; tb; tc]). assert (EV : map t3 Ds = vals_of (S n) Ps) by (unfold Ds, vals_of, Ps; cbn [map]; rewrite VA, VB, VC; reflexivity).
    destruct (derefs_ok (S n) (map t1 Ds) (map t2 Ds)) as (f & _ & DF); [reflexivity|discriminate| |].
    { intros Z I. cbn in I. destruct TA as (X1 & X2 & _), TB as (X3 & X4 & _), TC as (X5 & X6 & _). destruct I as [<-|[<-|[<-|[<-|[<-|[<-|[]]]]]]]; assumption. }
    destruct (spar_core H two three A B C rx ry n c nz stream g comm d f Ds SH MC NP NZ B1 B2 B3 Hg Hc EV DF) as (BT & f0 & MD & DF0 & Q).
    assert (ED : map d3 Ds = [e0; e1; e2]) by (unfold Ds; cbn [map]; rewrite EA, EB, EC; reflexivity). rewrite ED in Q.
    destruct (Q tr tr) as [Q1 Q2]. rewrite LG, MC. refine (unless_mono H _ _ _ _ _ _ Q2). intros ([[pf tr'] tp'] & X). destruct (Q1 _ _ _ X) as [V _]. eexists _, _. exact V.
  Qed.
End Api.

(** ** examples: over a small field, three 2-by-4 matrices with up to three stored entries *)
Definition exA : sparse Fs := MkSparse 1 2 [MkEntry 0 1 (fs 3); MkEntry 1 2 (fs 5); MkEntry 1 0 (fs 7)].
Definition exB : sparse Fs := MkSparse 1 2 [MkEntry 0 0 (fs 2); MkEntry 1 3 (fs 4)].
Definition exC : sparse Fs := MkSparse 1 2 [MkEntry 1 1 (fs 6)].
Definition exrx : list Fs := [fs 11].
Definition exry : list Fs := [fs 13; fs 17].
Lemma ex_shape : forall P, In P [exA; exB; exC] -> shape 1 2 P.
Proof. intros P [<-|[<-|[<-|[]]]]; (split; [reflexivity|split; [reflexivity|]]); intros e I; cbn in I; repeat (destruct I as [<-|I]; [cbn; lia|]); destruct I. Qed.
Lemma ex_mats : mats_ok [exA; exB; exC] exrx exry 3.
Proof. split; [exact ex_shape|]. repeat split; cbn; lia. Qed.
Lemma fs_neq : (of_nat 2 : Fs) <> f0 /\ (of_nat 3 : Fs) <> f0 /\ fs 5 <> f0.
Proof. repeat split; intro X; apply (f_equal zval) in X; vm_compute in X; discriminate. Qed.
Lemma ex_nz : forall P, In P [exA; exB; exC] -> exists e, In e (sM P) /\ eval e <> f0.
Proof.
  intros P [<-|[<-|[<-|[]]]]; (eexists; split; [left; reflexivity|]); intro X; apply (f_equal zval) in X; vm_compute in X; discriminate.
Qed.
