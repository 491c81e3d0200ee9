(** Product circuits: what they compute, and completeness of the evaluation proofs. *)
From Coq Require Import String List Arith Lia Bool Field Ring.
From Verif Require Import Base ListAux Field Vec MathModel PolyModel PolySpec PolyProofs PolyImp CommitModel SigmaModel SumModel SumSpec SumProofs SumComplete SumApi ProdModel ProdSpec.
Import ListNotations.

Section Levels.
  Context {K : Fld}.
  Local Open Scope fld_scope.
  Add Field Kpl : (fth K).
  Definition dt (k : nat) (T : list K) : dense K := MkDense k (2 ^ k) T.
  Lemma dt_ok k T : length T = (2 ^ k)%nat -> dense_ok (dt k T) /\ dnum_vars (dt k T) = k /\ live (dt k T) = T.
  Proof. intro L. unfold dense_ok, live, dt; cbn. rewrite L. repeat split; try lia. rewrite <- L. apply firstn_all. Qed.
  Lemma lo_hi (Z : list K) : lo Z ++ hi Z = Z.
  Proof. apply firstn_skipn. Qed.
  Lemma half_len (Z : list K) k : length Z = (2 ^ S k)%nat -> length (lo Z) = (2 ^ k)%nat /\ length (hi Z) = (2 ^ k)%nat.
  Proof. intro L. unfold lo, hi. rewrite firstn_length, skipn_length, L, pow_half, pow2_S. lia. Qed.
  Lemma map2_len {A B C} (f : A -> B -> C) a : forall b, length (map2 f a b) = Nat.min (length a) (length b).
  Proof. induction a; intros [|y b]; cbn; [reflexivity..|]. rewrite IHa. reflexivity. Qed.
  Lemma level_len k : forall n (Z : list K), length Z = (2 ^ (k + n))%nat -> length (level k Z) = (2 ^ n)%nat.
  Proof.
    induction k; intros n Z L; [exact L|]. cbn [level]. rewrite map2_len.
    destruct (half_len (level k Z) n) as [A B]; [apply IHk; rewrite L; f_equal; lia|]. rewrite A, B. lia.
  Qed.
  Lemma fprod_map2 (a : list K) : forall b, length a = length b -> fprod (map2 fmul a b) = fprod a * fprod b.
  Proof. induction a; intros [|y b] L; cbn [map2 length] in *; try discriminate; rewrite ?fprod_nil, ?fprod_cons; [ring|]. rewrite IHa by lia. ring. Qed.
  Lemma level_prod k : forall n (Z : list K), length Z = (2 ^ (k + n))%nat -> fprod (level k Z) = fprod Z.
  Proof.
    induction k; intros n Z L; [reflexivity|]. cbn [level].
    assert (L1 : length (level k Z) = (2 ^ S n)%nat) by (apply level_len; rewrite L; f_equal; lia).
    destruct (half_len _ _ L1) as [A B]. rewrite fprod_map2 by congruence.
    rewrite <- fprod_app, lo_hi. apply (IHk (S n)). rewrite L. f_equal. lia.
  Qed.
  Lemma level_top n (Z : list K) : length Z = (2 ^ n)%nat -> level n Z = [fprod Z].
  Proof.
    intro L. assert (L1 : length (level n Z) = (2 ^ 0)%nat) by (apply level_len; rewrite L; f_equal; lia).
    assert (P : fprod (level n Z) = fprod Z) by (apply (level_prod n 0); rewrite L; f_equal; lia).
    destruct (level n Z) as [|a [|]]; try discriminate. rewrite fprod_cons, fprod_nil in P. rewrite <- P. f_equal. ring.
  Qed.
  (** the value of a level is a sum over the level below *)
  Lemma mle_level (V : list K) n rand : length V = (2 ^ S n)%nat -> length rand = n ->
    mle (map2 fmul (lo V) (hi V)) rand = sumn (2 ^ n) (fun i => prod3 (nth i (lo V) 0) (nth i (hi V) 0) (nth i (eq_evals rand) 0)).
  Proof.
    intros L Lr. destruct (half_len _ _ L) as [A B]. unfold mle. rewrite Lr. apply sumn_ext. intros i Hi.
    rewrite eq_evals_nth by (rewrite Lr; exact Hi). rewrite (map2_nth fmul _ _ i 0 0 0) by lia. reflexivity.
  Qed.
  Lemma mle_lo_hi (V : list K) x r : length V = (2 ^ S (length r))%nat -> mle V (x :: r) = mle (lo V) r + x * (mle (hi V) r - mle (lo V) r).
  Proof.
    intro L. destruct (half_len _ _ L) as [A B]. rewrite <- (lo_hi V) at 1. rewrite mle_app by exact A. ring.
  Qed.
  Lemma eq_points_mle (a b : list K) : length a = length b -> eq_points a b = eq_mle a b.
  Proof.
    unfold eq_mle, eq_points. revert b. induction a as [|x a IH]; intros [|y b] L; try discriminate.
    - cbn [map2]. rewrite fprod_nil, mle_nil. reflexivity.
    - cbn [map2]. cbn [length] in L. rewrite fprod_cons, IH by lia.
      rewrite eq_evals_cons. rewrite mle_app by (rewrite map_length, eq_evals_length; f_equal; lia).
      assert (S : forall c, mle (map (fmul c) (eq_evals a)) b = c * mle (eq_evals a) b).
      { intro c. unfold mle. rewrite <- sumn_scale. apply sumn_ext. intros i Hi.
        rewrite (nth_map0 _ _ i 0) by (rewrite eq_evals_length; replace (length a) with (length b) by lia; exact Hi). ring. }
      rewrite !S. ring.
  Qed.
  Lemma prod3_line : forall a a' b b' c c' : K, exists cs, length cs = 4%nat /\ forall t, prod3 (a + t * a') (b + t * b') (c + t * c') = peval cs t.
  Proof. exact prod3_cubic. Qed.
End Levels.

(** * The circuits *)
Section Circuits.
  Context {K : Fld}.
  Local Open Scope fld_scope.
  Add Field Kpc : (fth K).

  Lemma layer_products_ok k (L R : list K) a n : length L = (2 ^ k)%nat -> length R = (2 ^ k)%nat -> (a + n <= 2 ^ k)%nat ->
    layer_products (dt k L) (dt k R) a n = Ok (firstn n (skipn a (map2 fmul L R))).
  Proof.
    intros LL LR B. unfold layer_products.
    rewrite (mapM_ok _ (fun i => nth i L 0 * nth i R 0)).
    - f_equal. apply (list_ext _ _ 0).
      + rewrite map_length, seq_length, firstn_length, skipn_length, map2_len. lia.
      + rewrite map_length, seq_length. intros i Hi. rewrite firstn_nth, skipn_nth by exact Hi.
        rewrite (nth_map0 _ _ i 0%nat) by (rewrite seq_length; exact Hi). rewrite seq_nth by exact Hi.
        rewrite (map2_nth fmul _ _ _ 0 0 0) by lia. reflexivity.
    - intros i Hi. apply in_seq in Hi. unfold dense_index, dt. cbn [dZ].
      rewrite !(idx_nth _ _ 0) by lia. reflexivity.
  Qed.
  Lemma compute_layer_ok k (L R : list K) : length L = (2 ^ S k)%nat -> length R = (2 ^ S k)%nat ->
    let V := map2 fmul L R in compute_layer (dt (S k) L) (dt (S k) R) = Ok (dt k (lo V), dt k (hi V)).
  Proof.
    intros LL LR V. unfold compute_layer. cbn [dlen dt].
    assert (P : (2 ^ S k = 2 ^ k + 2 ^ k)%nat) by apply pow2_S. assert (Pp := pow2_pos k).
    replace ((2 ^ S k + 2 ^ S k) / 4)%nat with (2 ^ k)%nat by (rewrite P; apply Nat.div_unique with 0%nat; lia).
    replace ((2 ^ S k + 2 ^ S k) / 2 - 2 ^ k)%nat with (2 ^ k)%nat.
    2: { replace ((2 ^ S k + 2 ^ S k) / 2)%nat with (2 ^ S k)%nat by (apply Nat.div_unique with 0%nat; lia). lia. }
    rewrite !(layer_products_ok (S k)) by lia. cbn [bind]. fold V.
    assert (LV : length V = (2 ^ S k)%nat) by (unfold V; rewrite map2_len; lia).
    destruct (half_len V k LV) as [A B].
    assert (E1 : firstn (2 ^ k) (skipn 0 V) = lo V) by (unfold lo; rewrite LV, pow_half; reflexivity).
    assert (E2 : firstn (2 ^ k) (skipn (2 ^ k) V) = hi V).
    { unfold hi. rewrite LV, pow_half. apply firstn_all2. rewrite skipn_length. lia. }
    rewrite E1, E2, (proj1 (dense_new_ok K _ k A)), (proj1 (dense_new_ok K _ k B)). reflexivity.
  Qed.
  (** the tables of the circuit over [Z] *)
  Definition circ_of (n : nat) (Z : list K) (c : pcircuit K) : Prop :=
    length (pc_left c) = n /\ length (pc_right c) = n /\
    forall k, (k < n)%nat -> idx (pc_left c) k = Ok (dt (n - 1 - k) (lo (level k Z))) /\ idx (pc_right c) k = Ok (dt (n - 1 - k) (hi (level k Z))).
  Lemma level_S_out k : forall V : list K, level (S k) V = level k (map2 fmul (lo V) (hi V)).
  Proof. induction k; intro V; [reflexivity|]. change (level (S (S k)) V) with (let U := level (S k) V in map2 fmul (lo U) (hi U)). rewrite IHk. reflexivity. Qed.
  Lemma pc_layers_ok n : forall V : list K, length V = (2 ^ S n)%nat ->
    exists ls, pc_layers n (dt n (lo V)) (dt n (hi V)) = Ok ls /\ circ_of (S n) V (MkPC (fst ls) (snd ls)).
  Proof.
    induction n; intros V L; destruct (half_len _ _ L) as [A B].
    - eexists; split; [reflexivity|]. cbn [fst snd]. split; [reflexivity|split; [reflexivity|]].
      intros k Hk. replace k with 0%nat by lia. split; reflexivity.
    - cbn [pc_layers]. rewrite compute_layer_ok by assumption. cbn [bind fst snd].
      set (V' := map2 fmul (lo V) (hi V)). assert (L' : length V' = (2 ^ S n)%nat) by (unfold V'; rewrite map2_len; lia).
      destruct (IHn V' L') as (ls & El & (C1 & C2 & C3)). rewrite El. cbn [bind]. cbn [pc_left pc_right] in *.
      eexists; split; [reflexivity|]. cbn [fst snd]. split; [cbn; congruence|split; [cbn; congruence|]].
      intros [|k] Hk.
      + cbn [pc_left pc_right idx nth_error of_opt level]. replace (S (S n) - 1 - 0)%nat with (S n) by lia. split; reflexivity.
      + cbn [pc_left pc_right]. change (idx (dt (S n) (lo V) :: fst ls) (S k)) with (idx (fst ls) k).
        change (idx (dt (S n) (hi V) :: snd ls) (S k)) with (idx (snd ls) k).
        destruct (C3 k ltac:(lia)) as [X Y]. rewrite X, Y, level_S_out. fold V'.
        replace (S n - 1 - k)%nat with (S (S n) - 1 - S k)%nat by lia. split; reflexivity.
  Qed.
  Lemma pc_new_ok (d : dense K) n : dense_ok d -> dnum_vars d = S n ->
    exists c, pc_new d = Ok c /\ circ_of (S n) (live d) c.
  Proof.
    intros O N. pose proof (live_length K d O) as LL. destruct O as [O1 O2]. rewrite N in O1.
    unfold pc_new. rewrite O1, log_2_pow. cbn [bind]. rewrite pow_half.
    assert (P : (2 ^ S n = 2 ^ n + 2 ^ n)%nat) by apply pow2_S. assert (Pp := pow2_pos n).
    unfold dense_split. rewrite O1. destruct (Nat.ltb_spec (2 ^ n) (2 ^ S n)); [|lia].
    destruct (Nat.leb_spec (2 * 2 ^ n) (length (dZ d))); [|lia].
    assert (LV : length (live d) = (2 ^ S n)%nat) by congruence. destruct (half_len _ _ LV) as [A B].
    assert (E1 : firstn (2 ^ n) (dZ d) = lo (live d)).
    { unfold lo. rewrite LV, pow_half. unfold live. rewrite O1, firstn_firstn. f_equal. lia. }
    assert (E2 : firstn (2 ^ n) (skipn (2 ^ n) (dZ d)) = hi (live d)).
    { unfold hi. rewrite LV, pow_half. unfold live. rewrite O1, skipn_firstn_comm. f_equal. lia. }
    rewrite E1, E2, (proj1 (dense_new_ok K _ n A)), (proj1 (dense_new_ok K _ n B)). cbn [bind fst snd].
    cbn [Nat.leb]. replace (S n - 1)%nat with n by lia.
    destruct (pc_layers_ok n (live d) LV) as (ls & El & C). unfold dt in El. rewrite El. cbn [bind].
    eexists; split; [reflexivity|exact C].
  Qed.
  Lemma pc_evaluate_ok n (Z : list K) (c : pcircuit K) : length Z = (2 ^ S n)%nat -> circ_of (S n) Z c -> pc_evaluate c = Ok (fprod Z).
  Proof.
    intros L (C1 & C2 & C3). unfold pc_evaluate. rewrite C1. cbn [Nat.leb].
    replace (S n - 1)%nat with n by lia. destruct (C3 n ltac:(lia)) as [X Y]. rewrite X, Y. cbn [bind].
    replace (S n - 1 - n)%nat with 0%nat by lia. cbn [dt dnum_vars Nat.eqb].
    assert (LV : length (level n Z) = (2 ^ 1)%nat) by (apply level_len; rewrite L; f_equal; lia).
    destruct (half_len _ _ LV) as [A B]. unfold dense_index, dt. cbn [dZ].
    destruct (lo (level n Z)) as [|a [|]] eqn:EA; try discriminate. destruct (hi (level n Z)) as [|b [|]] eqn:EB; try discriminate.
    cbn [idx nth_error of_opt bind]. f_equal.
    pose proof (level_prod n 1 Z ltac:(rewrite L; f_equal; lia)) as P. rewrite <- (lo_hi (level n Z)), EA, EB in P.
    cbn [app] in P. rewrite !fprod_cons, fprod_nil in P. rewrite <- P. ring.
  Qed.
  Lemma pc_new_one (d : dense K) : dlen d = 1%nat -> pc_new d = Panic.
  Proof.
    intro O. unfold pc_new. rewrite O. change (log_2 1) with (log_2 (2 ^ 0)). rewrite log_2_pow. cbn [bind].
    unfold dense_split. rewrite O. reflexivity.
  Qed.
End Circuits.

(** * Completeness of the proof for one circuit *)
Section Complete.
  Context {K : Fld} {G : Mod K} {E : Enc G}.
  Local Open Scope fld_scope.
  Variable H : log E -> K.
  Hypothesis two : (of_nat 2 : K) <> 0.
  Hypothesis three : (of_nat 3 : K) <> 0.
  Add Field Kpp : (fth K).

  Lemma pe_prove_app c a : forall b claim rand (tr : log E),
    pe_prove_loop H c (a ++ b) claim rand tr =
    bind (pe_prove_loop H c a claim rand tr) (fun x => let '(p1, claim, rand, tr) := x in
      bind (pe_prove_loop H c b claim rand tr) (fun y => let '(p2, cl, rd, t) := y in Ok (p1 ++ p2, cl, rd, t))).
  Proof.
    induction a as [|id a IH]; intros b claim rand tr.
    - cbn [app pe_prove_loop bind]. destruct (pe_prove_loop H c b claim rand tr) as [[[[p2 cl] rd] t]| |]; reflexivity.
    - cbn [app pe_prove_loop].
      destruct (idx (pc_left c) id) as [l| |]; cbn [bind]; [|reflexivity..].
      destruct (idx (pc_right c) id) as [r| |]; cbn [bind]; [|reflexivity..].
      destruct (dense_new (eq_evals rand)) as [C| |]; cbn [bind]; [|reflexivity..].
      destruct (Nat.eqb _ _); [|reflexivity].
      destruct (log_2 (dlen C)) as [nr| |]; cbn [bind]; [|reflexivity..].
      destruct (prove_cubic H claim nr l r C prod3 tr) as [[[[polys rp] claims] t]| |]; cbn [bind]; [|reflexivity..].
      destruct (idx claims 0) as [c0| |]; cbn [bind]; [|reflexivity..].
      destruct (idx claims 1) as [c1| |]; cbn [bind]; [|reflexivity..].
      unfold challenge. rewrite IH.
      destruct (pe_prove_loop H c a _ _ _) as [[[[p1 cl1] rd1] t1]| |]; cbn [bind]; [|reflexivity..].
      destruct (pe_prove_loop H c b _ _ _) as [[[[p2 cl2] rd2] t2]| |]; reflexivity.
  Qed.
  Lemma pe_verify_app a : forall b i claim rand (tr : log E),
    pe_verify_loop H (a ++ b) i claim rand tr =
    bind (pe_verify_loop H a i claim rand tr) (fun x => let '(claim, rand, tr) := x in pe_verify_loop H b (i + length a) claim rand tr).
  Proof.
    induction a as [|pf a IH]; intros b i claim rand tr.
    - cbn [app pe_verify_loop bind length]. rewrite Nat.add_0_r. reflexivity.
    - cbn [app pe_verify_loop].
      destruct (sc_verify H (ly_proof pf) claim i 3 tr) as [[[cl rp] t]| |]; cbn [bind]; [|reflexivity..].
      destruct (idx (ly_claims pf) 0) as [c0| |]; cbn [bind]; [|reflexivity..].
      destruct (idx (ly_claims pf) 1) as [c1| |]; cbn [bind]; [|reflexivity..].
      destruct (Nat.eqb _ _); [|reflexivity]. destruct (feqb _ _); [|reflexivity].
      unfold challenge. rewrite IH. cbn [length]. replace (S i + length a)%nat with (i + S (length a))%nat by lia. reflexivity.
  Qed.

  Lemma pe_step n Z (c : pcircuit K) k rand (tr : log E) : length Z = (2 ^ n)%nat -> circ_of n Z c -> (k < n)%nat -> length rand = (n - 1 - k)%nat ->
    exists pf x r tr', length r = (n - 1 - k)%nat /\
      pe_prove_loop H c [k] (mle (level (S k) Z) rand) rand tr = Ok ([pf], mle (level k Z) (x :: r), x :: r, tr') /\
      pe_verify_loop H [pf] (n - 1 - k) (mle (level (S k) Z) rand) rand tr = Ok (mle (level k Z) (x :: r), x :: r, tr').
  Proof.
    intros LZ (C1 & C2 & C3) Hk Lr. destruct (C3 k Hk) as [X Y]. set (m := (n - 1 - k)%nat) in *. set (V := level k Z) in *.
    assert (LV : length V = (2 ^ S m)%nat) by (unfold V; apply level_len; rewrite LZ; f_equal; lia).
    destruct (half_len _ _ LV) as [A B]. cbn [pe_prove_loop]. rewrite X, Y. cbn [bind].
    assert (LE : length (eq_evals rand) = (2 ^ m)%nat) by (rewrite eq_evals_length, Lr; reflexivity).
    rewrite (proj1 (dense_new_ok K _ m LE)). cbn [bind dlen dt].
    replace ((2 ^ m + 2 ^ m) / 2)%nat with (2 ^ m)%nat by (apply Nat.div_unique with 0%nat; lia). rewrite Nat.eqb_refl, log_2_pow. cbn [bind].
    destruct (dt_ok m (lo V) A) as (O1 & N1 & L1). destruct (dt_ok m (hi V) B) as (O2 & N2 & L2). destruct (dt_ok m _ LE) as (O3 & N3 & L3).
    destruct (api_cubic H two three prod3 m (dt m (lo V)) (dt m (hi V)) (dt m (eq_evals rand)) (mle (level (S k) Z) rand) tr prod3_line O1 O2 O3 N1 N2 N3) as (polys & r & tr1 & Lrp & EP & EV).
    { rewrite L1, L2, L3. apply mle_level; assumption. }
    rewrite L1, L2, L3 in EP, EV. unfold dt in EP. unfold dt. rewrite EP. cbn [bind idx nth_error of_opt length].
    unfold challenge. cbn [bind]. set (x := H _).
    exists (MkLayer polys [mle (lo V) r; mle (hi V) r]), x, r. eexists. split; [exact Lrp|].
    assert (EM : mle V (x :: r) = mle (lo V) r + x * (mle (hi V) r - mle (lo V) r)) by (apply mle_lo_hi; rewrite Lrp; exact LV).
    split.
    - fold V. rewrite EM. reflexivity.
    - cbn [pe_verify_loop ly_proof ly_claims]. rewrite EV. cbn [bind idx nth_error of_opt]. rewrite Lr, Lrp, Nat.eqb_refl.
      unfold prod3 at 1. fold (eq_mle rand r). rewrite eq_points_mle by congruence.
      destruct (feqb_spec K (mle (lo V) r * mle (hi V) r * eq_mle rand r) (mle (lo V) r * mle (hi V) r * eq_mle rand r)); [|congruence].
      unfold challenge. fold x. fold V. rewrite EM. do 3 f_equal. ring.
  Qed.

  Lemma rev_seq_S a m : rev (seq a (S m)) = rev (seq (S a) m) ++ [a].
  Proof. reflexivity. Qed.
  Lemma pe_complete n Z (c : pcircuit K) (tr : log E) : length Z = (2 ^ n)%nat -> circ_of n Z c -> forall m, (m <= n)%nat ->
    exists pfs rand tr', length rand = m /\ length pfs = m /\
      pe_prove_loop H c (rev (seq (n - m) m)) (fprod Z) [] tr = Ok (pfs, mle (level (n - m) Z) rand, rand, tr') /\
      pe_verify_loop H pfs 0 (fprod Z) [] tr = Ok (mle (level (n - m) Z) rand, rand, tr').
  Proof.
    intros LZ C. induction m; intro Hm.
    - exists [], [], tr. rewrite Nat.sub_0_r, (level_top n Z LZ). cbn [seq rev pe_prove_loop pe_verify_loop]. rewrite mle_nil. repeat split.
    - destruct IHm as (pfs & rand & tr1 & L1 & L2 & EP & EV); [lia|].
      destruct (pe_step n Z c (n - S m) rand tr1 LZ C ltac:(lia) ltac:(lia)) as (pf & x & r & tr2 & Lr & SP & SV).
      replace (S (n - S m)) with (n - m)%nat in * by lia.
      exists (pfs ++ [pf]), (x :: r), tr2. split; [cbn; lia|]. split; [rewrite app_length; cbn; lia|].
      replace (rev (seq (n - S m) (S m))) with (rev (seq (n - m) m) ++ [(n - S m)%nat]) by (rewrite rev_seq_S; repeat f_equal; lia).
      split.
      + rewrite pe_prove_app, EP. cbn [bind]. rewrite SP. reflexivity.
      + rewrite pe_verify_app, EV. cbn [bind]. replace (0 + length pfs)%nat with (n - 1 - (n - S m))%nat by lia. exact SV.
  Qed.

  Lemma pce_complete (d : dense K) n (tr : log E) : dense_ok d -> dnum_vars d = S n ->
    exists c pf rand tr', pc_new d = Ok c /\ pc_evaluate c = Ok (fprod (live d)) /\ length rand = S n /\
      pce_prove H c tr = Ok (pf, mle (live d) rand, rand, tr') /\
      pce_verify H pf (fprod (live d)) (dlen d) tr = Ok (mle (live d) rand, rand, tr').
  Proof.
    intros O N. destruct (pc_new_ok d n O N) as (c & Ec & C). pose proof (live_length K d O) as LL.
    assert (LV : length (live d) = (2 ^ S n)%nat) by (rewrite LL; destruct O as [O _]; rewrite O, N; reflexivity).
    destruct (pe_complete (S n) (live d) c tr LV C (S n) (le_n _)) as (pfs & rand & tr' & L1 & L2 & EP & EV).
    rewrite Nat.sub_diag in *. cbn [level] in *.
    pose proof (pc_evaluate_ok n (live d) c LV C) as EE. exists c, pfs, rand, tr'.
    split; [exact Ec|]. split; [exact EE|]. split; [exact L1|]. split.
    - unfold pce_prove. rewrite EE. cbn [bind]. destruct C as (C1 & _). rewrite C1. exact EP.
    - unfold pce_verify. rewrite <- LL, LV, log_2_pow. cbn [bind]. rewrite L2, Nat.eqb_refl. exact EV.
  Qed.
End Complete.
