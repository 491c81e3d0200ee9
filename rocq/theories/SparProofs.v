(** The evaluation proof for three sparse matrices: the honest run is accepted, and so is a run
    with arbitrary claimed evaluations. *)
From Coq Require Import String List Arith Lia Bool Field Ring Permutation.
From Verif Require Import Base ListAux Field Vec MathModel PolyModel PolySpec PolyProofs PolyImp CommitModel CommitSpec CommitProofs SigmaModel BulletProofs LogProofs SumModel R1csModel R1csSpec R1csProofs R1csMore R1csShape ProdModel ProdSpec ProdProofs ProdBatch SparModel SparSpec SparMem SparOpen SparNet SparTab.
Import ListNotations.

Lemma next_pow2_max a b : next_pow2 (Nat.max a b) = Nat.max (next_pow2 a) (next_pow2 b).
Proof.
  unfold next_pow2. destruct (Nat.max_spec a b) as [[L ->]|[L ->]].
  - rewrite Nat.max_r; [reflexivity|]. apply Nat.pow_le_mono_r; [lia|]. apply Nat.log2_up_le_mono. lia.
  - rewrite Nat.max_l; [reflexivity|]. apply Nat.pow_le_mono_r; [lia|]. apply Nat.log2_up_le_mono. lia.
Qed.

Section Proofs.
  Context {K : Fld} {G : Mod K} {E : Enc G}.
  Variable H : log E -> K.
  Local Open Scope fld_scope.
  Add Field Kspf : (fth K).
  Hypothesis two : (of_nat 2 : K) <> 0.
  Hypothesis three : (of_nat 3 : K) <> 0.

  Definition padto {A} (n : nat) (z : A) (l : list A) : list A := l ++ repeat z (2 ^ n - length l).
  Lemma padto_len {A} n (z : A) l : (length l <= 2 ^ n)%nat -> length (padto n z l) = (2 ^ n)%nat.
  Proof. intro L. unfold padto. rewrite app_length, repeat_length. lia. Qed.
  Definition rows_of (m : nat) (Ps : list (sparse K)) : list (list nat) := map (fun P => padto m 0%nat (map erow (sM P))) Ps.
  Definition cols_of (m : nat) (Ps : list (sparse K)) : list (list nat) := map (fun P => padto m 0%nat (map ecol (sM P))) Ps.
  Definition vals_of (m : nat) (Ps : list (sparse K)) : list (list K) := map (fun P => padto m 0 (map eval (sM P))) Ps.
  Lemma nz_max (P0 P1 P2 : sparse K) : next_pow2 (fold_right Nat.max 0%nat (map nz_entries [P0; P1; P2])) = next_pow2 (max_entries [P0; P1; P2]).
  Proof.
    unfold max_entries, nz_entries. cbn [map fold_right list_max]. rewrite !Nat.max_0_r, <- !next_pow2_max, R1csProofs.next_pow2_idem. reflexivity.
  Qed.
  Lemma max_ge (Ps : list (sparse K)) P : In P Ps -> (length (sM P) <= max_entries Ps)%nat.
  Proof.
    intro I. unfold max_entries. induction Ps as [|Q Ps IH]; [destruct I|]. cbn [map list_max fold_right]. destruct I as [->|I]; [lia|]. specialize (IH I). unfold list_max in IH. lia.
  Qed.

  (** the records of accesses and of counters that belong to [addrs] *)
  Definition counted (addrs rts : list (list nat)) (audit : list nat) (cells : nat) : Prop :=
    map (@length nat) rts = map (@length nat) addrs /\ concat rts = map (earlier (concat addrs)) (seq 0 (length (concat addrs))) /\
    audit = map (total (concat addrs)) (seq 0 cells).

  Lemma at_is_of m c addrs rts audit : at_is (MkAT addrs (map (dt m) (map (@nats K) addrs)) (map (dt m) (map nats rts)) (dt c (nats audit))) m c (map nats addrs) (map nats rts) (nats audit).
  Proof. repeat split. Qed.
  Lemma nats_all m (addrs rts : list (list nat)) : (forall a, In a addrs -> length a = (2 ^ m)%nat) -> map (@length nat) rts = map (@length nat) addrs -> all_len m (map (@nats K) rts).
  Proof.
    intros L Q P I. apply in_map_iff in I. destruct I as (r & <- & I). unfold nats. rewrite map_length.
    assert (X : In (length r) (map (@length nat) addrs)) by (rewrite <- Q; apply in_map, I). apply in_map_iff in X. destruct X as (a & <- & I'). apply L, I'.
  Qed.

  Lemma multi_dense_ok (P0 P1 P2 : sparse K) x y m c : let Ps := [P0; P1; P2] in
    (forall P, In P Ps -> shape x y P) -> Nat.max x y = c -> next_pow2 (max_entries Ps) = (2 ^ m)%nat ->
    let rows := rows_of m Ps in let cols := cols_of m Ps in
    exists d rr ar rc ac, multi_dense Ps = Ok d /\
      md_is d m c (map nats rows) (map nats rr) (map nats cols) (map nats rc) (vals_of m Ps) (nats ar) (nats ac) /\
      at_usize (md_row d) = rows /\ at_usize (md_col d) = cols /\ md_batch d = 3%nat /\
      counted rows rr ar (2 ^ c) /\ counted cols rc ac (2 ^ c).
  Proof.
    intros Ps SH MC NP rows cols.
    assert (LB : forall P, In P Ps -> (length (sM P) <= 2 ^ m)%nat).
    { intros P I. rewrite <- NP. etransitivity; [apply max_ge, I|apply next_pow2_ge]. }
    assert (LR : forall a, In a rows -> length a = (2 ^ m)%nat).
    { intros a I. apply in_map_iff in I. destruct I as (P & <- & I). apply padto_len. rewrite map_length. apply LB, I. }
    assert (LC : forall a, In a cols -> length a = (2 ^ m)%nat).
    { intros a I. apply in_map_iff in I. destruct I as (P & <- & I). apply padto_len. rewrite map_length. apply LB, I. }
    assert (LV : all_len m (vals_of m Ps)).
    { intros a I. apply in_map_iff in I. destruct I as (P & <- & I). apply padto_len. rewrite map_length. apply LB, I. }
    assert (Px : (2 ^ x <= 2 ^ c)%nat) by (apply Nat.pow_le_mono_r; lia). assert (Py : (2 ^ y <= 2 ^ c)%nat) by (apply Nat.pow_le_mono_r; lia).
    assert (Pc : (0 < 2 ^ c)%nat) by (pose proof (Nat.pow_nonzero 2 c); lia).
    assert (BR : forall a z, In a rows -> In z a -> (z < 2 ^ c)%nat).
    { intros a z I Iz. apply in_map_iff in I. destruct I as (P & <- & I). apply in_app_or in Iz. destruct Iz as [Iz|Iz].
      - apply in_map_iff in Iz. destruct Iz as (e & <- & Ie). destruct (SH P I) as (_ & _ & O). destruct (O e Ie). lia.
      - apply repeat_spec in Iz. lia. }
    assert (BC : forall a z, In a cols -> In z a -> (z < 2 ^ c)%nat).
    { intros a z I Iz. apply in_map_iff in I. destruct I as (P & <- & I). apply in_app_or in Iz. destruct Iz as [Iz|Iz].
      - apply in_map_iff in Iz. destruct Iz as (e & <- & Ie). destruct (SH P I) as (_ & _ & O). destruct (O e Ie). lia.
      - apply repeat_spec in Iz. lia. }
    destruct (at_new_ok (K := K) rows m c LR BR) as (rr & ar & R1 & R2 & R3 & R4). destruct (at_new_ok (K := K) cols m c LC BC) as (rc & ac & C1 & C2 & C3 & C4).
    unfold multi_dense, Ps. cbv beta iota zeta. rewrite nz_max. fold Ps. rewrite NP.
    destruct (SH P0 ltac:(left; reflexivity)) as (X0 & Y0 & _). destruct (SH P1 ltac:(right; left; reflexivity)) as (X1 & Y1 & _). destruct (SH P2 ltac:(right; right; left; reflexivity)) as (X2 & Y2 & _).
    cbn [forallb]. rewrite X0, X1, X2, Y0, Y1, Y2, !Nat.eqb_refl. cbn [andb].
    rewrite (mapM_ok _ (fun P => (padto m 0%nat (map erow (sM P)), padto m 0%nat (map ecol (sM P)), padto m 0 (map eval (sM P))))).
    2:{ intros P I. unfold to_dense_vecs. destruct (Nat.leb_spec (nz_entries P) (2 ^ m)) as [_|B]; [unfold padto; rewrite !map_length; reflexivity|].
        exfalso. pose proof (R1csShape.next_pow2_least _ _ (LB P I)). unfold nz_entries in B. lia. }
    cbn [bind]. rewrite (mapM_dt m snd).
    2:{ intros t I. apply in_map_iff in I. destruct I as (P & <- & I). cbn [snd]. apply padto_len. rewrite map_length. apply LB, I. }
    cbn [bind]. rewrite !(map_map _ snd), !map_map. cbn [fst snd].
    replace (pow2 (if Nat.ltb y x then x else y)) with (2 ^ c)%nat by (unfold pow2; f_equal; rewrite <- MC; destruct (Nat.ltb_spec y x); lia).
    change (map (fun P => padto m 0%nat (map erow (sM P))) Ps) with rows. change (map (fun P => padto m 0%nat (map ecol (sM P))) Ps) with cols.
    rewrite R4, C4. cbn [bind at_addr at_read at_audit].
    set (V := vals_of m Ps). replace (map (fun P : sparse K => dt m (padto m 0 (map eval (sM P)))) Ps) with (map (dt m) V) by (unfold V, vals_of; rewrite map_map; reflexivity).
    rewrite <- !map_app. set (ps := map nats rows ++ map nats rr ++ map nats cols ++ map nats rc ++ V).
    assert (LP : all_len m ps).
    { unfold ps. repeat (apply all_len_app; split); [apply (nats_all m rows rows LR eq_refl)|apply (nats_all m rows rr LR R1)|apply (nats_all m cols cols LC eq_refl)|apply (nats_all m cols rc LC C1)|exact LV]. }
    assert (NE : ps <> []) by (unfold ps, rows, rows_of, Ps; discriminate).
    destruct (merge_ok K (map (dt m) ps) m) as (dm & Em & _ & Nv & Zd & _).
    { destruct ps; [congruence|discriminate]. }
    { intros q I. apply in_map_iff in I. destruct I as (Z & <- & I). apply LP, I. }
    rewrite map_map in Zd. change (fun x0 => dZ (dt m x0)) with (fun x0 : list K => x0) in Zd. rewrite map_id in Zd. rewrite map_length in Nv.
    assert (Edm : dm = dt (Nat.log2_up (length ps) + m) (resize_pow2 (concat ps))).
    { unfold dense_merge in Em. rewrite map_map in Em. change (fun x0 => dZ (dt m x0)) with (fun x0 : list K => x0) in Em. rewrite map_id in Em. fold (resize_pow2 (concat ps)) in Em.
      rewrite (dense_new_dt (Nat.log2_up (length ps) + m)) in Em; [injection Em as <-; reflexivity|].
      unfold resize_pow2. rewrite app_length, repeat_length. rewrite (concat_length_const K _ _ LP), next_pow2_mul by (destruct ps; [congruence|cbn; lia]).
      pose proof (next_pow2_ge (length ps)). rewrite Nat.pow_add_r. unfold next_pow2 in *. nia. }
    rewrite Em. cbn [bind]. assert (LAr : length (nats ar : list K) = (2 ^ c)%nat) by (unfold nats; rewrite map_length, R3, map_length, seq_length; reflexivity).
    assert (LAc : length (nats ac : list K) = (2 ^ c)%nat) by (unfold nats; rewrite map_length, C3, map_length, seq_length; reflexivity).
    rewrite (clone_dt c _ LAr). cbn [bind]. pose proof (extend_ok K _ _ c LAr LAc) as XE. fold (dt c (nats ar : list K)) (dt c (nats ac : list K)) in XE. rewrite XE. cbn [bind].
    eexists _, rr, ar, rc, ac. split; [reflexivity|]. split; [|split; [reflexivity|]; split; [reflexivity|]; split; [reflexivity|]; split; (split; [|split]); assumption].
    unfold md_is. cbn [md_row md_col md_val md_ops md_mem]. split; [apply at_is_of|]. split; [apply at_is_of|]. split; [reflexivity|]. split; [split; [exact Edm|]; split; [exact LP|exact NE]|]. split; [reflexivity|]. split; assumption.
  Qed.

  Lemma derefs_ok m (RD CD : list (list K)) : length RD = length CD -> RD <> [] -> all_len m (RD ++ CD) ->
    exists f, derefs_new (map (dt m) RD) (map (dt m) CD) = Ok f /\ df_is f m RD CD.
  Proof.
    intros L NE LA. unfold derefs_new. rewrite !map_length, L, Nat.eqb_refl, <- map_app. unfold dense_merge. rewrite map_map. change (fun x0 => dZ (dt m x0)) with (fun x0 : list K => x0). rewrite map_id.
    fold (resize_pow2 (concat (RD ++ CD))). assert (NE' : RD ++ CD <> []) by (destruct RD; [congruence|discriminate]).
    rewrite (dense_new_dt (Nat.log2_up (length (RD ++ CD)) + m)).
    - cbn [bind]. eexists. split; [reflexivity|]. split; [reflexivity|]. split; [reflexivity|]. split; [exact L|]. split; [exact NE|]. split; [exact LA|reflexivity].
    - unfold resize_pow2. rewrite app_length, repeat_length. rewrite (concat_length_const K _ _ LA), next_pow2_mul by (destruct (RD ++ CD); [congruence|cbn; lia]).
      pose proof (next_pow2_ge (length (RD ++ CD))). rewrite Nat.pow_add_r. unfold next_pow2 in *. nia.
  Qed.

  (** ** equal lengths *)
  Lemma chi_zeros k (r : list K) i : (i < 2 ^ length r)%nat -> chi (repeat 0 k ++ r) i = chi r i.
  Proof.
    intro Hi. induction k as [|k IH]; [reflexivity|]. cbn [repeat app]. rewrite chi_cons_lo.
    - rewrite IH. ring.
    - rewrite app_length, repeat_length. rewrite Nat.pow_add_r. pose proof (Nat.pow_nonzero 2 k). nia.
  Qed.
  Lemma dot3_pad m (f g : nat -> K) (mx my : list K) (es : list (entry K)) : (length es <= 2 ^ m)%nat ->
    (forall e, In e es -> nth (erow e) mx 0 = f (erow e) /\ nth (ecol e) my 0 = g (ecol e)) ->
    dot3 (deref1 mx (padto m 0%nat (map erow es))) (deref1 my (padto m 0%nat (map ecol es))) (padto m 0 (map eval es)) =
    fsum (map (fun e => f (erow e) * g (ecol e) * eval e) es).
  Proof.
    intros L B. unfold dot3. unfold deref1 at 1. rewrite map_length, padto_len by (rewrite map_length; exact L).
    replace (2 ^ m)%nat with (length es + (2 ^ m - length es))%nat by lia. rewrite sumn_add, (sumn_zero K (2 ^ m - length es)).
    - rewrite <- (sumn_ext K (length es) (fun i => nth i (map (fun e => f (erow e) * g (ecol e) * eval e) es) 0)).
      + rewrite <- (map_length (fun e => f (erow e) * g (ecol e) * eval e) es). rewrite <- fsum_sumn. ring.
      + intros i Hi. unfold deref1, padto. rewrite !map_length. rewrite (nth_map0 _ _ _ (MkEntry 0 0 0) _) by exact Hi.
        rewrite (nth_map0 _ _ _ 0%nat _) by (rewrite app_length, map_length; lia). rewrite (nth_map0 _ _ _ 0%nat _) by (rewrite app_length, map_length; lia).
        rewrite !app_nth1 by (rewrite map_length; exact Hi). rewrite !(nth_map0 _ es _ (MkEntry 0 0 0) _) by exact Hi.
        destruct (B (nth i es (MkEntry 0 0 0)) (nth_In _ _ Hi)) as [-> ->]. reflexivity.
    - intros i Hi. unfold padto at 3. rewrite app_nth2, nth_repeat by (rewrite map_length; lia). ring.
  Qed.

  (** ** the run: circuits from the derefs [f0], openings and dot products from the derefs [f] *)
  Definition spar_with (d : mdense) (f0 f : derefs) (rx ry evals : list K) (g : sgens) (tr tape : log E) : res (sproof * log E * log E) :=
    let tr := proto "Sparse polynomial evaluation proof" tr in
    let '(rx, ry) := equalize rx ry in
    do C <- derefs_commit H f (sg_derefs g);
    let tr := app_derefs "comm_poly_row_col_ops_val" C tr in
    let '(rh, tr) := challenge H "challenge_r_hash" tr in
    let '(rm, tr) := challenge H "challenge_r_hash" tr in
    do row <- layers_new (eq_evals rx) (md_row d) (df_row f0) rh rm;
    do col <- layers_new (eq_evals ry) (md_col d) (df_col f0) rh rm;
    do p <- net_prove H row col d f evals g tr tape;
    let '(pn, tr, tape) := p in
    Ok (MkSP C pn, tr, tape).
  Lemma spar_prove_with d f rx ry evals g tr tape : length evals = md_batch d ->
    md_deref d (eq_evals (fst (equalize rx ry))) (eq_evals (snd (equalize rx ry))) = Ok f ->
    spar_prove H d rx ry evals g tr tape = spar_with d f f rx ry evals g tr tape.
  Proof.
    intros L D. unfold spar_prove, spar_with. rewrite L, Nat.eqb_refl. destruct (equalize rx ry) as [x y]. cbn [fst snd] in D. rewrite D. reflexivity.
  Qed.
  (** the claimed evaluations of addresses moved to those of timestamps *)
  Definition no_addresses (pf : @sproof K G E) : @sproof K G E :=
    let h := np_hash (sp_net pf) in let '(ra, rt, _) := hp_row h in let '(ca, ct, _) := hp_col h in
    MkSP (sp_derefs pf) (recut (sp_net pf) [] (ra ++ rt) [] (ca ++ ct)).

  Lemma sgens_ok x y nz (stream : nat -> G) (g : sgens) m : sgens_new x y nz 3 stream = Ok g -> next_pow2 nz = (2 ^ m)%nat ->
    pcgens_new (3 + m) stream = Ok (sg_derefs g) /\ pcgens_new (4 + m) stream = Ok (sg_ops g) /\ pcgens_new (S (Nat.max x y)) stream = Ok (sg_mem g).
  Proof.
    intros X N. unfold sgens_new in X. rewrite N, log_2_pow in X. cbn [bind] in X. change (log_2 (next_pow2 (3 * 5))) with (Ok 4%nat) in X. change (log_2 (next_pow2 (3 * 2))) with (Ok 3%nat) in X. cbn [bind] in X.
    unfold pcgens_new in *. rewrite !dgens_new_ok in *. cbn [bind] in X. injection X as <-. cbn [sg_derefs sg_ops sg_mem].
    replace (m + 4)%nat with (4 + m)%nat by lia. replace (m + 3)%nat with (3 + m)%nat by lia.
    replace ((if Nat.ltb y x then x else y) + 1)%nat with (S (Nat.max x y)) by (destruct (Nat.ltb_spec y x); lia). repeat split.
  Qed.
  Lemma equalize_ok (rx ry : list K) : let q := equalize rx ry in length (fst q) = Nat.max (length rx) (length ry) /\ length (snd q) = Nat.max (length rx) (length ry) /\
    (forall i, (i < 2 ^ length rx)%nat -> nth i (eq_evals (fst q)) 0 = chi rx i) /\ (forall i, (i < 2 ^ length ry)%nat -> nth i (eq_evals (snd q)) 0 = chi ry i).
  Proof.
    cbn zeta. unfold equalize. cbn [fst snd]. rewrite !app_length, !repeat_length. split; [lia|]. split; [lia|]. split; intros i Hi.
    - rewrite eq_evals_nth, chi_zeros; [reflexivity|exact Hi|]. rewrite app_length, repeat_length, Nat.pow_add_r. pose proof (Nat.pow_nonzero 2 (length ry - length rx)). nia.
    - rewrite eq_evals_nth, chi_zeros; [reflexivity|exact Hi|]. rewrite app_length, repeat_length, Nat.pow_add_r. pose proof (Nat.pow_nonzero 2 (length rx - length ry)). nia.
  Qed.
  Lemma commit_df f m RD CD (g : dgens G) (stream : nat -> G) k : df_is f m RD CD -> length (RD ++ CD) = 6%nat -> k = (3 + m)%nat -> pcgens_new k stream = Ok g -> exists C, derefs_commit H f g = Ok C /\ comm_of H (df_comb f) g C.
  Proof.
    intros (_ & _ & _ & _ & LA & EF) L6 -> Hg. unfold derefs_commit, comm_of. rewrite EF, L6. change (Nat.log2_up 6) with 3%nat.
    assert (LZ : length (resize_pow2 (concat (RD ++ CD))) = (2 ^ (3 + m))%nat).
    { unfold resize_pow2. rewrite app_length, repeat_length. rewrite (concat_length_const K _ _ LA), L6, next_pow2_mul by lia. change (next_pow2 6) with 8%nat. rewrite Nat.pow_add_r. change (2 ^ 3)%nat with 8%nat. lia. }
    destruct (poly_commit_ok H _ (3 + m) g stream None LZ Hg) as (bl & tp & _ & _ & EP). unfold dt. rewrite EP. cbn [bind]. eexists. split; [reflexivity|]. eexists _, _. reflexivity.
  Qed.

  Lemma spar_core (P0 P1 P2 : sparse K) (rx ry : list K) n c nz stream (g : sgens) (comm : scomm) (d : mdense) (f : derefs) (Ds : list (triple K)) : let Ps := [P0; P1; P2] in
    (forall P, In P Ps -> shape (length rx) (length ry) P) -> Nat.max (length rx) (length ry) = S c -> next_pow2 (max_entries Ps) = (2 ^ S n)%nat -> next_pow2 nz = (2 ^ S n)%nat ->
    (half_up (3 + S n) < 32)%nat -> (half_up (4 + S n) < 32)%nat -> (half_up (S (S c)) < 32)%nat ->
    sgens_new (length rx) (length ry) nz 3 stream = Ok g -> multi_commit H Ps g = Ok (comm, d) ->
    map t3 Ds = vals_of (S n) Ps -> df_is f (S n) (map t1 Ds) (map t2 Ds) ->
    let memx := eq_evals (fst (equalize rx ry)) in let memy := eq_evals (snd (equalize rx ry)) in
    let RD := map (deref1 memx) (rows_of (S n) Ps) in let CD := map (deref1 memy) (cols_of (S n) Ps) in
    md_batch d = 3%nat /\
    exists f0, md_deref d memx memy = Ok f0 /\ df_is f0 (S n) RD CD /\ forall tr tape,
    (forall pf tr' tape', spar_with d f0 f rx ry (map d3 Ds) g tr tape = Ok (pf, tr', tape') ->
       spar_verify H (no_addresses pf) comm rx ry (map d3 Ds) g tr = Ok tr' /\
       (map t1 Ds = RD -> map t2 Ds = CD -> spar_verify H pf comm rx ry (map d3 Ds) g tr = Ok tr')) /\
    unless H "u" 0 (openings (S n) (S c)) (exists x, spar_with d f0 f rx ry (map d3 Ds) g tr tape = Ok x).
  Proof.
    intros Ps SH MC NP NZ B1 B2 B3 Hg Hc EV DF memx memy RD CD.
    destruct (multi_dense_ok P0 P1 P2 _ _ (S n) (S c) SH MC NP) as (d' & rr & ar & rc & ac & MD & MI & UR & UC & BT & CR & CC).
    fold Ps in MD, MI, UR, UC, CR, CC. unfold multi_commit in Hc. rewrite MD in Hc. cbn [bind] in Hc.
    destruct (poly_commit H (md_ops d') (sg_ops g) None) as [[[co bo] to]| |] eqn:PO; [|discriminate Hc..]. cbn [bind] in Hc.
    destruct (poly_commit H (md_mem d') (sg_mem g) None) as [[[cm bm] tm]| |] eqn:PM; [|discriminate Hc..]. cbn [bind] in Hc.
    assert (MI' := MI). destruct MI' as ((AR1 & AR2 & AR3) & (AC1 & AC2 & AC3) & EVV & (EO & LO & NO) & EM & LRU & LCU).
    assert (L3r : length rr = 3%nat) by (destruct CR as (Q & _ & _); apply (f_equal (@length nat)) in Q; rewrite !map_length in Q; exact Q).
    assert (L3c : length rc = 3%nat) by (destruct CC as (Q & _ & _); apply (f_equal (@length nat)) in Q; rewrite !map_length in Q; exact Q).
    rewrite AR2, AR3 in Hc. destruct rr as [|r0 [|r1 [|r2 [|? ?]]]]; try discriminate L3r. unfold idx in Hc. cbn [map nth_error of_opt bind dlen dt] in Hc.
    injection Hc; clear Hc; intros <- <-. split; [exact BT|].
    set (rr := [r0; r1; r2]) in *.
    assert (EQ := equalize_ok rx ry). destruct EQ as (Lx & Ly & _ & _). rewrite MC in Lx, Ly.
    assert (Lmx : length memx = (2 ^ S c)%nat) by (unfold memx; rewrite eq_evals_length, Lx; reflexivity).
    assert (Lmy : length memy = (2 ^ S c)%nat) by (unfold memy; rewrite eq_evals_length, Ly; reflexivity).
    assert (LB : forall P, In P Ps -> (length (sM P) <= 2 ^ S n)%nat).
    { intros P I. rewrite <- NP. etransitivity; [apply max_ge, I|apply next_pow2_ge]. }
    assert (LR : forall a, In a (rows_of (S n) Ps) -> length a = (2 ^ S n)%nat).
    { intros a I. apply in_map_iff in I. destruct I as (P & <- & I). apply padto_len. rewrite map_length. apply LB, I. }
    assert (LC : forall a, In a (cols_of (S n) Ps) -> length a = (2 ^ S n)%nat).
    { intros a I. apply in_map_iff in I. destruct I as (P & <- & I). apply padto_len. rewrite map_length. apply LB, I. }
    assert (Px : (2 ^ length rx <= 2 ^ S c)%nat) by (apply Nat.pow_le_mono_r; lia). assert (Py : (2 ^ length ry <= 2 ^ S c)%nat) by (apply Nat.pow_le_mono_r; lia).
    assert (Pc : (0 < 2 ^ S c)%nat) by (pose proof (Nat.pow_nonzero 2 (S c)); lia).
    assert (BR : forall a z, In a (rows_of (S n) Ps) -> In z a -> (z < 2 ^ S c)%nat).
    { intros a z I Iz. apply in_map_iff in I. destruct I as (P & <- & I). apply in_app_or in Iz. destruct Iz as [Iz|Iz].
      - apply in_map_iff in Iz. destruct Iz as (e & <- & Ie). destruct (SH P I) as (_ & _ & O). destruct (O e Ie). lia.
      - apply repeat_spec in Iz. lia. }
    assert (BC : forall a z, In a (cols_of (S n) Ps) -> In z a -> (z < 2 ^ S c)%nat).
    { intros a z I Iz. apply in_map_iff in I. destruct I as (P & <- & I). apply in_app_or in Iz. destruct Iz as [Iz|Iz].
      - apply in_map_iff in Iz. destruct Iz as (e & <- & Ie). destruct (SH P I) as (_ & _ & O). destruct (O e Ie). lia.
      - apply repeat_spec in Iz. lia. }
    assert (LRD : all_len (S n) RD) by (intros Z I; apply in_map_iff in I; destruct I as (a & <- & I); unfold deref1; rewrite map_length; apply LR, I).
    assert (LCD : all_len (S n) CD) by (intros Z I; apply in_map_iff in I; destruct I as (a & <- & I); unfold deref1; rewrite map_length; apply LC, I).
    assert (DR : at_deref (md_row d') memx = Ok (map (dt (S n)) RD)).
    { apply at_deref_ok; [exact UR|rewrite AR1, !map_length; reflexivity|exact LR|rewrite Lmx; exact BR]. }
    assert (DC : at_deref (md_col d') memy = Ok (map (dt (S n)) CD)).
    { apply at_deref_ok; [exact UC|rewrite AC1, !map_length; reflexivity|exact LC|rewrite Lmy; exact BC]. }
    assert (L3D : length Ds = 3%nat) by (apply (f_equal (@length (list K))) in EV; rewrite map_length in EV; exact EV).
    destruct (derefs_ok (S n) RD CD) as (f0 & F0 & DF0); [reflexivity|discriminate|apply all_len_app; split; assumption|].
    exists f0. split; [unfold md_deref; rewrite DR, DC; exact F0|]. split; [exact DF0|]. intros tr tape.
    destruct (sgens_ok _ _ _ _ _ _ Hg NZ) as (G1 & G2 & G3). rewrite MC in G3.
    destruct (commit_df f (S n) (map t1 Ds) (map t2 Ds) (sg_derefs g) stream (3 + S n) DF ltac:(rewrite app_length, !map_length, L3D; reflexivity) eq_refl G1) as (C & EC & CO).
    unfold spar_with, spar_verify. destruct (equalize rx ry) as [x y] eqn:EQ. cbn [fst snd] in Lx, Ly, memx, memy. rewrite EC. cbn [bind].
    set (t0 := app_derefs _ _ _). destruct (challenge H "challenge_r_hash" t0) as [rh t1'] eqn:CH1. destruct (challenge H "challenge_r_hash" t1') as [rmc t2'] eqn:CH2.
    destruct DF0 as (D01 & D02 & _). rewrite D01, D02.
    assert (Ln : length (map (@nats K) rr) = 3%nat) by reflexivity. assert (Lm : length (map (@nats K) rc) = 3%nat) by (rewrite map_length; exact L3c).
    destruct CR as (CR1 & CR2 & CR3). destruct CC as (CC1 & CC2 & CC3).
    assert (ARn := nats_all (S n) _ _ LR (eq_refl (map (@length nat) (rows_of (S n) Ps)))). assert (ACn := nats_all (S n) _ _ LC (eq_refl (map (@length nat) (cols_of (S n) Ps)))).
    assert (TRn := nats_all (S n) _ _ LR CR1). assert (TCn := nats_all (S n) _ _ LC CC1).
    destruct (layers_ok memx (md_row d') (map nats (rows_of (S n) Ps)) RD (map nats rr) (nats ar) rh rmc n c Lmx LRU (conj AR1 (conj AR2 AR3)) ARn LRD TRn eq_refl eq_refl Ln) as (row & ER & PR).
    destruct (layers_ok memy (md_col d') (map nats (cols_of (S n) Ps)) CD (map nats rc) (nats ac) rh rmc n c Lmy LCU (conj AC1 (conj AC2 AC3)) ACn LCD TCn eq_refl eq_refl Lm) as (col & ECo & PC).
    fold memx memy. rewrite ER, ECo. cbn [bind].
    assert (BALR := honest_balanced rh rmc memx (rows_of (S n) Ps) rr ar). rewrite Lmx in BALR.
    assert (BALC := honest_balanced rh rmc memy (cols_of (S n) Ps) rc ac). rewrite Lmy in BALC.
    assert (IR : forall z, In z (concat (rows_of (S n) Ps)) -> (z < 2 ^ S c)%nat) by (intros z I; apply in_concat in I; destruct I as (a & I1 & I2); exact (BR a z I1 I2)).
    assert (IC : forall z, In z (concat (cols_of (S n) Ps)) -> (z < 2 ^ S c)%nat) by (intros z I; apply in_concat in I; destruct I as (a & I1 & I2); exact (BC a z I1 I2)).
    specialize (BALR IR CR1 CR2 CR3). specialize (BALC IC CC1 CC2 CC3). cbn zeta in BALR, BALC. fold RD in BALR. fold CD in BALC.
    rewrite <- EV in MI.
    assert (K2 : (Nat.log2_up (length (map (@nats K) (rows_of (S n) Ps) ++ map nats rr ++ map nats (cols_of (S n) Ps) ++ map nats rc ++ map t3 Ds)) + S n)%nat = (4 + S n)%nat).
    { rewrite !app_length, !map_length, L3D, L3c. reflexivity. }
    assert (NQ : next_pow2 (2 ^ S n) = (2 ^ S n)%nat) by apply next_pow2_pow.
    destruct (net_ok H two three row col d' f n c _ _ _ _ _ _ _ _ Ds _ _ _ _ _ _ g stream stream stream (MkSC 3 (2 ^ S n) (2 ^ S c) co cm) C x y rh rmc (2 ^ S n) t2' tape PR PC BALR BALC MI DF L3D NQ Lx Ly)
      as (rm & ro & Lrm & Lro & HV & HU); try assumption; try (rewrite K2; assumption).
    { exists bo, to. exact PO. } { exists bm, tm. exact PM. }
    split.
    - intros pf tr' tape' X. destruct (net_prove H row col d' f (map d3 Ds) g t2' tape) as [[[pn tq] tp]| |] eqn:EN; [|discriminate X..]. cbn [bind] in X. injection X as <- <- <-.
      destruct (HV _ _ _ eq_refl) as (X1 & X2). clear HV HU. cbn [sp_derefs sp_net sc_cells sc_nops].
      assert (HX : hp_row (np_hash pn) = (map (fun Z => mle Z ro) (map nats (rows_of (S n) Ps)), map (fun Z => mle Z ro) (map nats rr), snd (hp_row (np_hash pn)))) by (rewrite <- X1; reflexivity).
      assert (HY : hp_col (np_hash pn) = (map (fun Z => mle Z ro) (map nats (cols_of (S n) Ps)), map (fun Z => mle Z ro) (map nats rc), snd (hp_col (np_hash pn)))) by (rewrite <- X1; reflexivity).
      unfold pow2. rewrite Lx, Nat.eqb_refl. split.
      + unfold no_addresses. cbn [sp_net sp_derefs]. rewrite HX, HY. cbn [sp_derefs sp_net]. fold t0. rewrite CH1, CH2. apply X2.
        * cbn [app]. rewrite <- !app_assoc. rewrite <- !map_app. reflexivity.
        * rewrite <- Lrm. unfold memx. apply empty_check; rewrite ?Lrm; assumption.
        * rewrite <- Lrm. unfold memy. apply empty_check; rewrite ?Lrm; assumption.
      + intros E1 E2. fold t0. rewrite CH1, CH2. rewrite <- X1. apply X2.
        * rewrite !map_app. reflexivity.
        * rewrite E1, <- Lrm. unfold memx. apply honest_check; rewrite ?Lrm, ?Lro; try assumption; reflexivity.
        * rewrite E2, <- Lrm. unfold memy. apply honest_check; rewrite ?Lrm, ?Lro; try assumption; rewrite ?map_length; try reflexivity; exact L3c.
    - rewrite K2 in HU. refine (unless_mono H _ _ _ _ _ _ HU). intros ([[pn tq] tp] & EN). rewrite EN. eexists. reflexivity.
  Qed.
End Proofs.
