(** The product layer and the whole evaluation network, from tables. *)
From Coq Require Import String List Arith Lia Bool Field Ring.
From Verif Require Import Base ListAux Field Vec MathModel PolyModel PolySpec PolyProofs PolyImp CommitModel CommitSpec CommitProofs SigmaModel BulletProofs LogProofs SumModel R1csModel ProdModel ProdSpec ProdProofs ProdBatch SparModel SparSpec SparOpen.
Import ListNotations.

Section Net.
  Context {K : Fld} {G : Mod K} {E : Enc G}.
  Variable H : log E -> K.
  Local Open Scope fld_scope.
  Add Field Ksn : (fth K).
  Hypothesis two : (of_nat 2 : K) <> 0.
  Hypothesis three : (of_nat 3 : K) <> 0.

  Definition d3 (t : triple K) : K := dot3 (t1 t) (t2 t) (t3 t).
  Lemma combine3 (Ds : list (triple K)) : combine (combine (map t1 Ds) (map t2 Ds)) (map t3 Ds) = Ds.
  Proof. induction Ds as [|[[a b] c] Ds IH]; [reflexivity|]. cbn [map combine]. rewrite IH. reflexivity. Qed.
  Lemma clone_dt m (Z : list K) : length Z = (2 ^ m)%nat -> dense_clone (dt m Z) = Ok (dt m Z).
  Proof.
    intro L. unfold dense_clone, dt. cbn [dZ dlen]. rewrite <- L, Nat.leb_refl, firstn_all, L.
    destruct (dense_new_ok K Z m L) as (X & _ & _). exact X.
  Qed.
  Lemma dok_dt m (Z : list K) : length Z = (2 ^ m)%nat -> dok m (dt m Z).
  Proof. intro L. destruct (dt_ok m Z L) as (A & B & _). split; assumption. Qed.

  Lemma dotps_ok n (Ds : list (triple K)) : (forall t, In t Ds -> tlen (S n) t) -> forall tr : log E, exists tr',
    dotps (map (dt (S n)) (map t1 Ds)) (map (dt (S n)) (map t2 Ds)) (map (dt (S n)) (map t3 Ds)) (map d3 Ds) tr
      = Ok (map (fun t => (dc_of n (tlo t), dc_of n (thi t))) Ds, map (fun t => (d3 (tlo t), d3 (thi t))) Ds, tr') /\
    dotp_check (length Ds) (map (fun t => d3 (tlo t)) Ds) (map (fun t => d3 (thi t)) Ds) (map d3 Ds) tr = Ok (map d3 (cut Ds), tr').
  Proof.
    induction Ds as [|t Ds IH]; intros LD tr; [exists tr; split; reflexivity|].
    destruct (LD t (or_introl eq_refl)) as (A & B & C). cbn [map dotps].
    rewrite !clone_dt by assumption. cbn [bind]. unfold dc_new. cbn [dlen dt]. rewrite !Nat.eqb_refl. cbn [bind].
    rewrite (dc_split_ok n) by (apply dok_dt; assumption). cbn [bind fst snd].
    assert (EL : live3 (MkDC (MkDense (S n) (2 ^ S n) (t1 t)) (MkDense (S n) (2 ^ S n) (t2 t)) (MkDense (S n) (2 ^ S n) (t3 t))) = t).
    { unfold live3. cbn [dc_left dc_right dc_weight]. fold (dt (S n) (t1 t)) (dt (S n) (t2 t)) (dt (S n) (t3 t)).
      rewrite (proj2 (proj2 (dt_ok _ _ A))), (proj2 (proj2 (dt_ok _ _ B))), (proj2 (proj2 (dt_ok _ _ C))). destruct t as [[? ?] ?]. reflexivity. }
    change (MkDC (dt (S n) (t1 t)) (dt (S n) (t2 t)) (dt (S n) (t3 t))) with (MkDC (MkDense (S n) (2 ^ S n) (t1 t)) (MkDense (S n) (2 ^ S n) (t2 t)) (MkDense (S n) (2 ^ S n) (t3 t))).
    rewrite EL. assert (LT : tlen n (tlo t) /\ tlen n (thi t)).
    { split; apply (cut_len n [t]); try (intros x [<-|[]]; split; [exact A|split; [exact B|exact C]]); cbn; auto. }
    rewrite !dc_evaluate_of by apply LT. cbn [bind].
    assert (EH : dot3 (t1 (tlo t)) (t2 (tlo t)) (t3 (tlo t)) + dot3 (t1 (thi t)) (t2 (thi t)) (t3 (thi t)) = d3 t) by (apply (dot3_halves n); assumption).
    rewrite EH, Field.feqb_refl.
    destruct (IH ltac:(intros x I; apply LD; right; exact I) (app_scalar "claim_eval_dotp_right" (d3 (thi t)) (app_scalar "claim_eval_dotp_left" (d3 (tlo t)) tr))) as (tr' & E1 & E2).
    exists tr'. split.
    - change (dot3 (t1 (tlo t)) (t2 (tlo t)) (t3 (tlo t))) with (d3 (tlo t)). change (dot3 (t1 (thi t)) (t2 (thi t)) (t3 (thi t))) with (d3 (thi t)).
      rewrite E1. reflexivity.
    - cbn [length dotp_check tl]. cbn [idx nth_error of_opt bind]. unfold idx. cbn [nth_error of_opt bind].
      change (d3 (tlo t) + d3 (thi t)) with (dot3 (t1 (tlo t)) (t2 (tlo t)) (t3 (tlo t)) + dot3 (t1 (thi t)) (t2 (thi t)) (t3 (thi t))). rewrite EH, Field.feqb_refl.
      rewrite E2. reflexivity.
  Qed.

  Definition pl_is (p : player) (n c : nat) (I A : list K) (R W : list (list K)) : Prop :=
    circ_of (S c) I (pl_init p) /\ circ_of (S c) A (pl_audit p) /\ Forall2 (circ_of (S n)) R (pl_read p) /\ Forall2 (circ_of (S n)) W (pl_write p) /\
    length R = 3%nat /\ length W = 3%nat /\ all_len (S n) R /\ all_len (S n) W /\ length I = (2 ^ S c)%nat /\ length A = (2 ^ S c)%nat.
  Definition balanced (I A : list K) (R W : list (list K)) : Prop := fprod I * fprod (map fprod W) = fprod (map fprod R) * fprod A.

  Lemma evals_ok n (Zs : list (list K)) cs : Forall2 (circ_of (S n)) Zs cs -> all_len (S n) Zs -> mapM pc_evaluate cs = Ok (map fprod Zs).
  Proof.
    intros F L. induction F as [|Z c Zs cs C F IH]; [reflexivity|]. cbn [mapM map]. rewrite (pc_evaluate_ok n Z c (L Z (or_introl eq_refl)) C). cbn [bind].
    rewrite IH by (intros Y Q; apply L; right; exact Q). reflexivity.
  Qed.
  Lemma pl_evals_ok p n c I A R W : pl_is p n c I A R W -> pl_evals p = Ok (fprod I, map fprod R, map fprod W, fprod A).
  Proof.
    intros (A1 & A2 & A3 & A4 & _ & _ & A5 & A6 & A7 & A8). unfold pl_evals. rewrite (pc_evaluate_ok c I _ A7 A1), (pc_evaluate_ok c A _ A8 A2), (evals_ok n R _ A3 A5), (evals_ok n W _ A4 A6). reflexivity.
  Qed.
  Lemma three_ok {A} (l : list A) : length l = 3%nat -> (do a <- idx l 0; do b <- idx l 1; do c <- idx l 2; Ok [a; b; c]) = Ok l.
  Proof. intro L. destruct l as [|a [|b [|c [|? ?]]]]; try discriminate L. reflexivity. Qed.

  Lemma Forall2_len {A B} (P : A -> B -> Prop) l m : Forall2 P l m -> length l = length m.
  Proof. induction 1; cbn [length]; congruence. Qed.

  Lemma ly_ok (row col : player) (d : mdense) (f : derefs) n c I A R W I' A' R' W' (Ds : list (triple K)) (tr : log E) :
    pl_is row n c I A R W -> pl_is col n c I' A' R' W' -> balanced I A R W -> balanced I' A' R' W' ->
    df_row f = map (dt (S n)) (map t1 Ds) -> df_col f = map (dt (S n)) (map t2 Ds) -> md_val d = map (dt (S n)) (map t3 Ds) ->
    length Ds = 3%nat -> (forall t, In t Ds -> tlen (S n) t) ->
    exists pf rm ro tr', length rm = S c /\ length ro = S n /\
      ly_prove H row col d f (map d3 Ds) tr = Ok (pf, rm, ro, tr') /\
      ly_verify H pf (2 ^ S n) (2 ^ S c) (map d3 Ds) tr =
        Ok (map (fun Z => mle Z rm) [I; A; I'; A'], rm, map (fun Z => mle Z ro) (R ++ W ++ R' ++ W'),
            flat_map (fun t => [mle (t1 t) ro; mle (t2 t) ro; mle (t3 t) ro]) Ds, ro, tr').
  Proof.
    intros PR PC BR BC ER EC EV L3 LD. unfold ly_prove. set (tr0 := proto _ tr).
    rewrite (pl_evals_ok _ _ _ _ _ _ _ PR), (pl_evals_ok _ _ _ _ _ _ _ PC). cbn [bind]. unfold subset_check at 1 2.
    assert (BR' := BR). assert (BC' := BC). unfold balanced in BR', BC'. rewrite BR', BC', !Field.feqb_refl. rewrite ER, EC, EV, !map_length, Nat.eqb_refl.
    set (tr2 := app_evals _ _ _).
    destruct (dotps_ok n Ds LD tr2) as (tr3 & E1 & E2). rewrite E1. cbn [bind].
    destruct PR as (A1 & A2 & A3 & A4 & A5 & A6 & A7 & A8 & A9 & A0). destruct PC as (B1 & B2 & B3 & B4 & B5 & B6 & B7 & B8 & B9 & B0).
    assert (F := Forall2_app A3 (Forall2_app A4 (Forall2_app B3 B4))).
    pose proof (Forall2_len _ _ _ A3) as Q1. pose proof (Forall2_len _ _ _ A4) as Q2. pose proof (Forall2_len _ _ _ B3) as Q3. pose proof (Forall2_len _ _ _ B4) as Q4.
    rewrite <- Q1, A5. cbn [Nat.eqb mapM]. rewrite !three_ok by congruence. cbn [bind concat]. rewrite app_nil_r.
    destruct Ds as [|t [|u [|v [|? ?]]]]; try discriminate L3. cbn [map]. unfold idx at 1 2 3. cbn [nth_error of_opt bind fst snd].
    destruct R as [|R0 RT]; [discriminate A5|].
    assert (LZ : forall Z, In Z ((R0 :: RT) ++ W ++ R' ++ W') -> length Z = (2 ^ S n)%nat).
    { intros Z Q. repeat (apply in_app_or in Q; destruct Q as [Q|Q]); auto. }
    destruct (pb_complete H two three n R0 (RT ++ W ++ R' ++ W') _ [t; u; v] tr3 LZ F LD) as (po & ro & tr4 & Lro & EP & EVo).
    cbn [map cut flat_map app] in EP. rewrite EP. cbn [bind].
    assert (FM : Forall2 (circ_of (S c)) [I; A; I'; A'] [pl_init row; pl_audit row; pl_init col; pl_audit col]) by (do 4 (apply Forall2_cons; [assumption|]); apply Forall2_nil).
    destruct (pb_complete H two three c I [A; I'; A'] _ [] tr4 ltac:(intros Z [<-|[<-|[<-|[<-|[]]]]]; assumption) FM ltac:(intros ? [])) as (pm & rm & tr5 & Lrm & EPm & EVm).
    cbn [map cut flat_map] in EPm. rewrite EPm. cbn [bind].
    eexists _, rm, ro, tr5. split; [exact Lrm|]. split; [exact Lro|]. split; [reflexivity|].
    unfold ly_verify. cbn [lyp_row lyp_col lyp_val lyp_mem lyp_ops]. fold tr0. rewrite !map_length. cbn [length map]. rewrite A6, B5, B6.
    cbn [length] in A5. rewrite A5. cbn [Nat.eqb]. unfold subset_check. change (fprod R0 :: map fprod RT) with (map fprod (R0 :: RT)). rewrite BR', BC', !Field.feqb_refl.
    fold tr2. cbn [length map] in E2. rewrite E2. cbn [bind].
    rewrite <- !map_app. change (fun t0 : triple K => dot3 (t1 t0) (t2 t0) (t3 t0)) with d3 in EVo. change (R0 :: RT ++ W ++ R' ++ W') with ((R0 :: RT) ++ W ++ R' ++ W') in EVo. rewrite EVo. cbn [bind]. cbn [map cut flat_map] in EVm. rewrite EVm. reflexivity.
  Qed.

  (** The network: whatever the tables behind the two circuits, if the openings are of the committed
      tables and the final comparisons hold, the verifier accepts; the claimed evaluations of
      addresses and timestamps may be cut differently. *)
  Definition recut (pf : @nproof K G E) (ra rt ca ct : list K) : @nproof K G E :=
    let h := np_hash pf in
    MkNP (np_prod pf) (MkHP (ra, rt, snd (hp_row h)) (ca, ct, snd (hp_col h)) (hp_val h) (hp_der h) (hp_ops h) (hp_mem h) (hp_dpf h)).

  Lemma net_ok (row col : player) (d : mdense) (f : derefs) n c I A R W I' A' R' W' (Ds : list (triple K)) RA RT CA CT RU CU
        (g : sgens) s1 s2 s3 (comm : scomm) (cder : list E) (rx ry : list K) (rh rmc : K) nz (tr tape : log E) :
    pl_is row n c I A R W -> pl_is col n c I' A' R' W' -> balanced I A R W -> balanced I' A' R' W' ->
    md_is d (S n) (S c) RA RT CA CT (map t3 Ds) RU CU -> df_is f (S n) (map t1 Ds) (map t2 Ds) ->
    length Ds = 3%nat -> next_pow2 nz = (2 ^ S n)%nat -> length rx = S c -> length ry = S c ->
    let ps := RA ++ RT ++ CA ++ CT ++ map t3 Ds in
    let k1 := (3 + S n)%nat in let k2 := (Nat.log2_up (length ps) + S n)%nat in let k3 := S (S c) in
    pcgens_new k1 s1 = Ok (sg_derefs g) -> pcgens_new k2 s2 = Ok (sg_ops g) -> pcgens_new k3 s3 = Ok (sg_mem g) ->
    (half_up k1 < 32)%nat -> (half_up k2 < 32)%nat -> (half_up k3 < 32)%nat ->
    comm_of H (df_comb f) (sg_derefs g) cder -> comm_of H (md_ops d) (sg_ops g) (sc_ops comm) -> comm_of H (md_mem d) (sg_mem g) (sc_mem comm) ->
    exists rm ro, length rm = S c /\ length ro = S n /\ let ev := fun Z => mle Z ro in let me := fun Z => mle Z rm in
    (forall pf tr' tape', net_prove H row col d f (map d3 Ds) g tr tape = Ok (pf, tr', tape') ->
      recut pf (map ev RA) (map ev RT) (map ev CA) (map ev CT) = pf /\
      forall ra rt ca ct, ra ++ rt ++ ca ++ ct = map ev (RA ++ RT ++ CA ++ CT) ->
        hl_check rm (me I, map ev R, map ev W, me A) (map ev (map t1 Ds)) ra rt (me RU) rx rh rmc = Ok tt ->
        hl_check rm (me I', map ev R', map ev W', me A') (map ev (map t2 Ds)) ca ct (me CU) ry rh rmc = Ok tt ->
        net_verify H (recut pf ra rt ca ct) comm cder (map d3 Ds) g rx ry rh rmc nz tr = Ok tr') /\
    unless H "u" 0 (half_up k1 + half_up k2 + half_up k3) (exists x, net_prove H row col d f (map d3 Ds) g tr tape = Ok x).
  Proof.
    intros PR PC BR BC MD DF L3 NZ Lx Ly ps k1 k2 k3 G1 G2 G3 H1 H2 H3 C1 C2 C3.
    assert (LT : forall t, In t Ds -> tlen (S n) t).
    { intros t Q. destruct DF as (_ & _ & _ & _ & LD & _). destruct MD as (_ & _ & _ & (_ & LO & _) & _). apply all_len_app in LD. destruct LD as [LA LB].
      split; [apply LA, in_map, Q|]. split; [apply LB, in_map, Q|]. apply LO. repeat (apply in_or_app; right). apply in_map, Q. }
    destruct (ly_ok row col d f n c I A R W I' A' R' W' Ds (proto "Sparse polynomial evaluation proof" tr) PR PC BR BC) as (pp & rm & ro & tr1 & Lrm & Lro & EP & EV); try assumption.
    { apply DF. } { apply DF. } { apply MD. }
    exists rm, ro. split; [exact Lrm|]. split; [exact Lro|]. intros ev me.
    assert (LV : length (map t3 Ds) = length (map t1 Ds)) by (rewrite !map_length; reflexivity).
    assert (K1 : (Nat.log2_up (length (map t1 Ds ++ map t2 Ds)) + S n)%nat = k1) by (rewrite app_length, !map_length, L3; reflexivity).
    destruct (hl_ok H d f (S n) (S c) RA RT CA CT (map t3 Ds) RU CU (map t1 Ds) (map t2 Ds) g s1 s2 s3 comm cder rm ro tr1 tape MD DF LV Lrm Lro) as [HV HU];
      try assumption; try (rewrite K1; assumption).
    split.
    - intros pf tr' tape' X. unfold net_prove in X. rewrite EP in X. cbn [bind] in X.
      destruct (hl_prove H rm ro d f g tr1 tape) as [[[ph t1'] tp1]| |] eqn:EH; [|discriminate X..]. cbn [bind] in X. injection X as <- <- <-.
      destruct (HV _ _ _ eq_refl) as (X1 & X2 & X3). split.
      + unfold recut. cbn [np_hash np_prod]. rewrite X1, X2. cbn [snd]. unfold ev. rewrite <- X1, <- X2. destruct ph; reflexivity.
      + intros ra rt ca ct ES HR HC. unfold net_verify, recut. cbn [np_hash np_prod]. rewrite X1, X2. cbn [snd]. rewrite Lx, Ly, Nat.eqb_refl, NZ.
        unfold pow2. rewrite EV. cbn [bind]. rewrite !map_length, L3. rewrite combine3 in X3.
        destruct PR as (_ & _ & _ & _ & A5 & A6 & _). destruct PC as (_ & _ & _ & _ & B5 & B6 & _).
        rewrite !app_length, A5, A6, B5, B6. cbn [length Nat.eqb Nat.add Nat.mul map]. unfold idx. cbn [nth_error of_opt bind].
        destruct R as [|R0 [|R1 [|R2 [|? ?]]]]; try discriminate A5. destruct W as [|W0 [|W1 [|W2 [|? ?]]]]; try discriminate A6.
        destruct R' as [|S0 [|S1 [|S2 [|? ?]]]]; try discriminate B5. destruct W' as [|T0 [|T1 [|T2 [|? ?]]]]; try discriminate B6.
        assert (LF : length (flat_map (fun t => [mle (t1 t) ro; mle (t2 t) ro; mle (t3 t) ro]) Ds) = 9%nat) by (destruct Ds as [|? [|? [|? [|? ?]]]]; try discriminate L3; reflexivity).
        rewrite LF. cbn [Nat.eqb app map firstn skipn Nat.mul Nat.add]. apply X3; assumption.
    - rewrite K1 in HU. refine (unless_mono H _ _ _ _ _ _ HU). intros ([[ph t1'] tp1] & EH). unfold net_prove. rewrite EP. cbn [bind]. rewrite EH. eexists. reflexivity.
  Qed.
End Net.
