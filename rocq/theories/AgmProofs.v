(** Provers of the whole proof. *)
From Coq Require Import String List Arith Bool Lia Field.
From Verif Require Import Base ListAux Field Vec MathModel PolyModel PolySpec PolyProofs PolyImp R1csModel R1csSpec R1csProofs R1csMore CommitModel SigmaModel CommitSpec CommitProofs BulletProofs SigmaProofs LogProofs.
From Verif Require Import SumModel SumSpec SumProofs SumZk SumApi ProdSound NizkModel NizkProofs EvalSpec EvalProofs AgmSpec AgmRare AgmZk AgmLp.
Import ListNotations.

Section AM.
  Context {K : Fld}.
  Add Field Kam : (fth K).
  Local Open Scope fld_scope.
  (** * multilinear extensions *)
  Lemma mle_rare D a : (1 <= D)%nat -> forall g : list K, length g = (2 ^ a)%nat -> nz g -> rare D a (fun r => mle g r = 0).
  Proof.
    intro HD. induction a as [|a IH]; intros g Lg [i Ni].
    - cbn [rare]. destruct g as [|x [|]]; try discriminate Lg. rewrite mle_nil. destruct i as [|[|i]]; [exact Ni|destruct Ni; reflexivity|destruct Ni; reflexivity].
    - assert (Hi : (i < 2 ^ S a)%nat). { destruct (le_lt_dec (2 ^ S a) i) as [O|O]; [|exact O]. rewrite nth_overflow in Ni by lia. now destruct Ni. }
      rewrite pow2_S in Lg, Hi. set (n := (2 ^ a)%nat) in *. set (j := (i mod n)%nat).
      assert (Pn : n <> 0%nat) by (pose proof (pow2_pos a); unfold n; lia). assert (Hj : (j < n)%nat) by (apply Nat.mod_upper_bound; exact Pn).
      assert (NJ : nth j g 0 <> 0 \/ nth (n + j) g 0 <> 0).
      { destruct (le_lt_dec n i) as [O|O].
        - right. replace (n + j)%nat with i; [exact Ni|]. unfold j. replace i with ((i - n) + 1 * n)%nat at 2 by lia. rewrite Nat.mod_add by exact Pn. rewrite Nat.mod_small; lia.
        - left. unfold j. now rewrite Nat.mod_small. }
      set (g' := fun c => tab n (fun i => (1 - c) * nth i g 0 + c * nth i (skipn n g) 0)).
      apply (rare_step D _ _ (fun c => peval [nth j g 0; nth (n + j) g 0 - nth j g 0] c = 0)).
      + apply (few_mono 1 D _ _ HD (fun x q => q)). apply few_roots; [cbn; lia|]. destruct (keq_dec (nth j g 0) 0) as [Z|Z].
        * exists (nth (n + j) g 0 - nth j g 0). split; [cbn; auto|]. rewrite Z. destruct NJ as [X|X]; [contradiction|]. intro Y. apply X. transitivity (nth (n + j) g 0 - 0); [ring|exact Y].
        * exists (nth j g 0). split; [cbn; auto|exact Z].
      + intros c Nc. apply (rare_impl D a _ (fun r => mle (g' c) r = 0)).
        * intros r Lr. rewrite mle_cons. unfold g', n. rewrite <- Lr. rewrite mle_lin. auto.
        * apply IH; [apply tab_length|]. exists j. unfold g'. rewrite nth_tab by exact Hj. rewrite skipn_nth. intro Y. apply Nc. rewrite !peval_cons, peval_nil.
          transitivity ((1 - c) * nth j g 0 + c * nth (n + j) g 0); [ring|exact Y].
  Qed.
  Lemma rare_comb3 D (x y z : K) : (1 <= D)%nat -> ~ (x = 0 /\ y = 0 /\ z = 0) -> rare D 3 (fun rs => nth 0 rs 0 * x + nth 1 rs 0 * y + nth 2 rs 0 * z = 0).
  Proof.
    intros HD NZ. destruct (keq_dec z 0) as [Z|Z].
    - destruct (keq_dec y 0) as [Y|Y].
      + assert (X : x <> 0) by (intro X; now apply NZ). eapply rare_step; [exact (few_lin D x 0 HD X)|]. intros c Nc. apply rare_none. intros cs _ E. apply Nc.
        cbn [nth] in E. subst y z. transitivity (c * x + nth 0 cs 0 * 0 + nth 1 cs 0 * 0); [ring|exact E].
      + apply rare_skip. intro c0. eapply rare_step; [exact (few_lin D y (- (c0 * x)) HD Y)|]. intros c Nc. apply rare_none. intros cs _ E. apply Nc. cbn [nth] in E. subst z.
        transitivity (c0 * x + c * y + nth 0 cs 0 * 0 - c0 * x); [ring|]. rewrite E. ring.
    - apply rare_skip. intro c0. apply rare_skip. intro c1. eapply rare_step; [exact (few_lin D z (- (c0 * x + c1 * y)) HD Z)|]. intros c Nc. apply rare_none. intros cs _ E. apply Nc. cbn [nth] in E.
      transitivity (c0 * x + c1 * y + c * z - (c0 * x + c1 * y)); [ring|]. rewrite E. ring.
  Qed.
  Lemma hsum_table (comb : list K -> K) n : forall Ts, hsum n (fun b => comb (map (fun T => mle T b) Ts)) = table_sum comb n Ts.
  Proof.
    unfold table_sum. induction n as [|n IH]; intro Ts; cbn [hsum].
    - change (2 ^ 0)%nat with 1%nat. rewrite sumn_S, sumn_nil. rewrite (map_ext (fun T => mle T []) (fun T => nth 0 T 0)) by (intro; apply mle_nil). ring.
    - rewrite (hsum_ext n _ (fun b => comb (map (fun T => mle T b) Ts))).
      2: { intros b Lb. f_equal. apply map_ext. intro T. rewrite mle_cons. ring. }
      rewrite (hsum_ext n (fun b => comb (map (fun T => mle T (1 :: b)) Ts)) (fun b => comb (map (fun T => mle T b) (map (skipn (2 ^ n)) Ts)))).
      2: { intros b Lb. f_equal. rewrite map_map. apply map_ext. intro T. rewrite mle_cons, Lb. ring. }
      rewrite !IH, pow2_S, sumn_add. f_equal. apply sumn_ext. intros i Hi. rewrite map_map. f_equal. apply map_ext. intro T. now rewrite skipn_nth.
  Qed.
  Lemma deg_add n (T A B C : list K) : length T = (2 ^ n)%nat -> length A = (2 ^ n)%nat -> length B = (2 ^ n)%nat -> length C = (2 ^ n)%nat ->
    deg_each 3 n (fun b => mle T b * (mle A b * mle B b - mle C b)).
  Proof.
    intros LT LA LB LC pre post Lp.
    destruct (mle_line pre T post) as (t & t' & Et); [rewrite Lp; exact LT|]. destruct (mle_line pre A post) as (a & a' & Ea); [rewrite Lp; exact LA|].
    destruct (mle_line pre B post) as (b & b' & Eb); [rewrite Lp; exact LB|]. destruct (mle_line pre C post) as (c & c' & Ec); [rewrite Lp; exact LC|].
    destruct (add_cubic t t' a a' b b' c c') as (cs & Lc & P). exists cs. split; [lia|]. intro x. rewrite Et, Ea, Eb, Ec. apply P.
  Qed.
  Lemma deg_prod2 n (A B : list K) : length A = (2 ^ n)%nat -> length B = (2 ^ n)%nat -> deg_each 2 n (fun b => mle A b * mle B b).
  Proof.
    intros LA LB pre post Lp. destruct (mle_line pre A post) as (a & a' & Ea); [rewrite Lp; exact LA|]. destruct (mle_line pre B post) as (b & b' & Eb); [rewrite Lp; exact LB|].
    destruct (prod2_quad a a' b b') as (cs & Lc & P). exists cs. split; [lia|]. intro x. rewrite Ea, Eb. apply P.
  Qed.
  Lemma eq_evals_nz (r : list K) : nz (eq_evals r).
  Proof.
    destruct (nz_dec (eq_evals r)) as [X|X]; [exact X|]. exfalso.
    assert (Z : forall i, nth i (eq_evals r) 0 = 0) by (intro i; destruct (keq_dec (nth i (eq_evals r) 0) 0) as [q|q]; [exact q|destruct X; now exists i]).
    assert (S1 : mle (repeat 1 (2 ^ length r)) r = 1).
    { clear. induction r as [|x r IH]; [apply mle_nil|]. cbn [length]. rewrite pow2_S, repeat_app, mle_app by apply repeat_length. rewrite IH. ring. }
    rewrite mle_dot in S1 by apply repeat_length. rewrite (dot_sumn K _ _ (2 ^ length r)) in S1 by (rewrite ?repeat_length, ?eq_evals_length; reflexivity).
    rewrite sumn_zero in S1 by (intros i _; rewrite Z; ring). apply (f1_neq_0 K). now symmetry.
  Qed.
End AM.

Section AN.
  Context {K : Fld} {G : Mod K} {E : Enc G}.
  Add Field Kan : (fth K).
  Local Open Scope fld_scope.
  Local Notation cmp := (CommitModel.compress E).
  Variables (N : nat) (stream : nat -> G) (co : nat -> G -> K) (a b : nat).
  Hypothesis Co : coordinates N stream co.
  Let k := (b - b / 2)%nat.
  Let n := (2 ^ k)%nat.
  Hypothesis HN : (n + 1 < N)%nat.
  Hypothesis H5 : (5 <= N)%nat.
  Variable I : r1cs K.
  Hypothesis Sz : sized I a b.
  Variable input : list K.
  Variable g : r1csgens G.
  Hypothesis Hg : r1csgens_new (2 ^ b) stream = Ok g.
  Variable comm : list E.
  Let va : E -> K := val co n.
  Let vars := firstn (2 ^ b) (committed co n comm).
  Let z := full_z vars input.

  Definition mats (rA rB rC : K) (rx ry : list K) : K :=
    rA * mle (mat_table (triples (sM (rc_A I))) (2 ^ a) (2 ^ S b)) (rx ++ ry) +
    rB * mle (mat_table (triples (sM (rc_B I))) (2 ^ a) (2 ^ S b)) (rx ++ ry) +
    rC * mle (mat_table (triples (sM (rc_C I))) (2 ^ a) (2 ^ S b)) (rx ++ ry).

  Definition end_acc (rA rB rC : K) (rx ry : list K) (cry e2 : E) (s : end_plan E) (cs : list K) : Prop :=
    nth 0 cs 0 * (mats rA rB rC rx ry * ((1 - nth 0 ry 0) * va cry + nth 0 ry 0 * mle ([1] ++ input ++ repeat 0 (2 ^ b - length input - 1)) (tl ry)) - va e2) = - va (fst s).
  Definition open_acc (rA rB rC : K) (rx : list K) (op : open_plan E k) (e2 : E) (ry cs : list K) : Prop :=
    lp_holds N stream co k (snd (compute_factored_evals (tl ry))) (cmp (lincomb (fst (compute_factored_evals (tl ry))) (map point comm))) (fst op) (snd op) cs
      (end_acc rA rB rC rx ry (fst op) e2).
  Definition mid_acc (tau : list K) (m : mid_plan E b k) (e1 : E) (rx cs : list K) : Prop :=
    let '((Cz, ka), s) := m in
    let '((kz1, kz2), s) := s (nth 0 cs 0) in
    let '((Az, Bz, Pr), (pa, pb, pd), s) := s in
    let '(zs, s) := s (nth 1 cs 0) in
    let '(ea, s) := s in
    let '(ez, s) := s (nth 2 cs 0) in
    nth 1 cs 0 * (va Pr - va Az * va Bz) = va pb * va Az - va pd /\
    nth 2 cs 0 * (mle (eq_evals tau) rx * (va Pr - va Cz) - va e1) = - va ea /\
    zk_acc co n 2 (s (nth 3 cs 0) (nth 4 cs 0) (nth 5 cs 0))
      (cmp (gadd (gmul (nth 3 cs 0) (point Az)) (gadd (gmul (nth 4 cs 0) (point Bz)) (gmul (nth 5 cs 0) (point Cz))))) (skipn 6 cs)
      (open_acc (nth 3 cs 0) (nth 4 cs 0) (nth 5 cs 0) rx).
  Definition nizk_acc (s : list K -> zk_plan E a (mid_plan E b k)) (cs : list K) : Prop :=
    zk_acc co n 3 (s (firstn a cs)) (cmp (ped1 (rg1 g) 0 0)) (skipn a cs) (mid_acc (firstn a cs)).

  (** ** a witness that does not satisfy the constraints *)
  Lemma g1_value : value_gens N stream n (rg1 g).
  Proof.
    unfold r1csgens_new in Hg. rewrite log_2_pow in Hg. cbn [bind] in Hg. unfold pcgens_new, compute_factored_lens, pow2 in Hg. cbn [snd] in Hg. fold k in Hg. fold n in Hg.
    rewrite dgens_new_ok in Hg. cbn [bind] in Hg. injection Hg as <-. cbn [rg1 dg1]. split; [reflexivity|]. split; [reflexivity|]. exists (n + 1)%nat. split; [reflexivity|]. lia.
  Qed.
  Lemma g3_vector : vector_gens N stream 3 (rg3 g).
  Proof.
    unfold r1csgens_new in Hg. rewrite log_2_pow in Hg. cbn [bind] in Hg. destruct (pcgens_new b stream); try discriminate Hg. cbn [bind] in Hg. injection Hg as <-. cbn [rg3].
    rewrite gens_new_G. split; [reflexivity|]. split; [reflexivity|]. exists 3%nat. split; [reflexivity|]. lia.
  Qed.
  Lemma g4_vector : vector_gens N stream 4 (rg4 g).
  Proof.
    unfold r1csgens_new in Hg. rewrite log_2_pow in Hg. cbn [bind] in Hg. destruct (pcgens_new b stream); try discriminate Hg. cbn [bind] in Hg. injection Hg as <-. cbn [rg4].
    rewrite gens_new_G. split; [reflexivity|]. split; [reflexivity|]. exists 4%nat. split; [reflexivity|]. lia.
  Qed.
  Lemma gpc_ok : dgens_new n stream = Ok (rgpc g).
  Proof.
    unfold r1csgens_new in Hg. rewrite log_2_pow in Hg. cbn [bind] in Hg. unfold pcgens_new, compute_factored_lens, pow2 in Hg. cbn [snd] in Hg. fold k in Hg. fold n in Hg.
    destruct (dgens_new n stream); try discriminate Hg. cbn [bind] in Hg. now injection Hg as <-.
  Qed.

  Hypothesis Li : length input = rc_inputs I.
  Hypothesis Lcm : (2 ^ (b / 2) <= length comm)%nat.
  Lemma pow_b : (2 ^ (b / 2) * n = 2 ^ b)%nat.
  Proof. unfold n, k. rewrite <- Nat.pow_add_r. f_equal. assert (b / 2 <= b)%nat by (apply Nat.div_le_upper_bound; lia). lia. Qed.
  Lemma committed_length (C : list E) : length (committed co n C) = (length C * n)%nat.
  Proof. unfold committed. induction C as [|e C IH]; [reflexivity|]. cbn [map concat length]. rewrite app_length, tab_length, IH. lia. Qed.
  Lemma committed_nth (C : list E) : forall j i, (i < n)%nat -> (j < length C)%nat -> nth (j * n + i) (committed co n C) 0 = co i (nth j (map point C) g0).
  Proof.
    unfold committed. induction C as [|e C IH]; intros j i Hi Hj; [cbn in Hj; lia|]. cbn [map concat]. destruct j as [|j].
    - cbn [Nat.mul Nat.add nth]. rewrite app_nth1 by (rewrite tab_length; lia). now rewrite nth_tab.
    - rewrite app_nth2 by (rewrite tab_length; lia). rewrite tab_length. replace (S j * n + i - n)%nat with (j * n + i)%nat by lia. cbn [nth]. apply IH; [exact Hi|cbn in Hj; lia].
  Qed.
  Lemma vars_length : length vars = (2 ^ b)%nat.
  Proof. unfold vars. apply firstn_length_le. rewrite committed_length, <- pow_b. apply Nat.mul_le_mono_r, Lcm. Qed.
  Lemma z_length : length z = (2 ^ S b)%nat.
  Proof. unfold z. rewrite full_z_length, vars_length, pow2_S; [lia|]. rewrite Li, vars_length. apply (sz_inputs _ _ _ Sz). Qed.
  Lemma opened (r : list K) : length r = b ->
    dot (tab n (fun i => co i (point (cmp (lincomb (fst (compute_factored_evals r)) (map point comm)))))) (snd (compute_factored_evals r)) = mle vars r.
  Proof.
    intro Lr. destruct (bound_dot K vars r) as (LZ & _ & LLZ & ED & EN); [rewrite Lr; apply vars_length|]. rewrite Lr in LLZ, EN. fold k in LLZ, EN. fold n in LLZ, EN.
    rewrite <- ED. f_equal. apply (list_ext _ _ 0); [now rewrite tab_length|]. intros i Hi. rewrite tab_length in Hi. rewrite nth_tab by exact Hi. rewrite EN by exact Hi.
    rewrite point_cmp, (co_lincomb N stream co Co). pose proof (factored_ok K r) as F. destruct (compute_factored_evals r) as [L R]. destruct F as (LL & LR & _). cbn [fst] in *. rewrite Lr in LL.
    transitivity (dot L (firstn (length L) (map (co i) (map point comm)))).
    { rewrite <- (firstn_skipn (length L) (map (co i) (map point comm))) at 1.
      assert (X : forall (u v w : list K), length u = length v -> dot u (v ++ w) = dot u v).
      { clear. induction u as [|x u IH]; intros [|y v] w L; try discriminate; [now rewrite !(dot_nil_l K)|]. cbn [app]. rewrite !(dot_cons K), IH; [reflexivity|]. now injection L. }
      apply X. rewrite firstn_length_le; [reflexivity|]. rewrite !map_length, LL. exact Lcm. }
    rewrite (dot_sumn K _ _ (2 ^ (b / 2))) by first [exact LL | rewrite firstn_length_le; [exact LL|rewrite !map_length, LL; exact Lcm]].
    apply sumn_ext. intros j Hj. f_equal. rewrite firstn_nth by lia. unfold vars.
    rewrite firstn_nth by (rewrite <- pow_b; nia). rewrite committed_nth by (try assumption; lia).
    rewrite <- (nth_map0 (co i) (map point comm) j g0 0); [reflexivity|]. rewrite map_length. lia.
  Qed.

  Hypothesis NS : ~ sat (2 ^ a) (triples (sM (rc_A I))) (triples (sM (rc_B I))) (triples (sM (rc_C I))) (vars ++ [1] ++ input).

  Lemma nizk_rare s : rare 6 (nizk_coins a b k) (nizk_acc s).
  Proof.
    pose proof Sz as [Ec Ev Ei (xa & ya & OA) (xb & yb & OB) (xc & yc & OC)]. pose proof z_length as Lz.
    destruct (multiply_vec_ok K (rc_A I) (2 ^ a) _ z Lz OA) as (la & Ela & Lla & Nla).
    destruct (multiply_vec_ok K (rc_B I) (2 ^ a) _ z Lz OB) as (lb & Elb & Llb & Nlb).
    destruct (multiply_vec_ok K (rc_C I) (2 ^ a) _ z Lz OC) as (lc & Elc & Llc & Nlc).
    set (gap := tab (2 ^ a) (fun i => nth i la 0 * nth i lb 0 - nth i lc 0)).
    assert (Ngap : nz gap).
    { destruct (nz_dec gap) as [X|X]; [exact X|]. exfalso. apply NS. intros i Hi.
      rewrite <- !(row_val_ext _ i z (vars ++ [1] ++ input)) by (intro j; apply full_z_nth). rewrite <- Nla, <- Nlb, <- Nlc by exact Hi.
      apply (fsub_eq_0 K). destruct (keq_dec (nth i gap 0) 0) as [q|q]; [unfold gap in q; now rewrite nth_tab in q by exact Hi|destruct X; now exists i]. }
    unfold nizk_coins. eapply rare_app; [exact (mle_rare 6 a ltac:(lia) gap ltac:(apply tab_length) Ngap)|].
    intros tau Lt Ntau. unfold nizk_acc. eapply rare_impl.
    { intros cs _ X. assert (F1 : firstn a (tau ++ cs) = tau) by (rewrite <- Lt, firstn_app, Nat.sub_diag, firstn_all, firstn_O; apply app_nil_r).
      assert (F2 : skipn a (tau ++ cs) = cs) by (rewrite <- Lt, skipn_app, Nat.sub_diag, skipn_all; reflexivity). rewrite F1, F2 in X. exact X. }
    assert (Let : length (eq_evals tau) = (2 ^ a)%nat) by (rewrite eq_evals_length, Lt; reflexivity).
    apply (zk_rare N co n ltac:(lia) 3 6 ltac:(lia) ltac:(lia) a _ _ _ (fun rx => mle (eq_evals tau) rx * (mle la rx * mle lb rx - mle lc rx))).
    { now apply deg_add. }
    { unfold val. rewrite point_cmp, (co_ped1 N stream co n Co ltac:(lia) (rg1 g)) by exact g1_value.
      pose proof (hsum_table (fun v => nth 0 v 0 * (nth 1 v 0 * nth 2 v 0 - nth 3 v 0)) a [eq_evals tau; la; lb; lc]) as X. cbn [map nth] in X. rewrite X. unfold table_sum. cbn [map nth].
      intro Y. apply Ntau. unfold mle, gap. rewrite Lt. transitivity (sumn (2 ^ a) (fun i => nth i (eq_evals tau) 0 * (nth i la 0 * nth i lb 0 - nth i lc 0))); [|now symmetry].
      apply sumn_ext. intros i Hi. rewrite nth_tab by exact Hi. rewrite eq_evals_nth by (rewrite Lt; exact Hi). ring. }
    intros m e1 rx Lrx Ne. unfold mid_acc. destruct m as [[Cz ka] s0].
    replace (6 + (4 * S b + (1 + (k + 2))))%nat with (S (S (S (3 + (4 * S b + (1 + (k + 2)))))))%nat by lia.
    apply rare_skip. intro c0. cbn [nth skipn]. destruct (s0 c0) as [[kz1 kz2] s1]. destruct s1 as [[[[Az Bz] Pr] [[pa pb] pd]] s1].
    destruct (keq_dec (va Pr) (va Az * va Bz)) as [EP|EP].
    2: { eapply rare_step; [exact (few_lin 6 (va Pr - va Az * va Bz) (va pb * va Az - va pd) ltac:(lia) (sub_nz _ _ EP))|]. intros c1 Nc. apply rare_none. intros cs _. cbn [nth].
         destruct (s1 c1) as [zs [ea s2]]. destruct (s2 (nth 0 cs 0)) as [ez s3]. intros [X _]. exact (Nc X). }
    apply rare_skip. intro c1. cbn [nth skipn]. destruct (s1 c1) as [zs [ea s2]].
    destruct (keq_dec (mle (eq_evals tau) rx * (va Pr - va Cz)) (va e1)) as [EE|EE].
    2: { eapply rare_step; [exact (few_lin 6 (mle (eq_evals tau) rx * (va Pr - va Cz) - va e1) (- va ea) ltac:(lia) (sub_nz _ _ EE))|]. intros c2 Nc. apply rare_none. intros cs _. cbn [nth].
         destruct (s2 c2) as [ez s3]. intros (_ & X & _). exact (Nc X). }
    apply rare_skip. intro c2. cbn [nth skipn]. destruct (s2 c2) as [ez s3].
    assert (NT : ~ (va Az - mle la rx = 0 /\ va Bz - mle lb rx = 0 /\ va Cz - mle lc rx = 0)).
    { intros (X & Y & Z). apply (proj1 (fsub_eq_0 K _ _)) in X. apply (proj1 (fsub_eq_0 K _ _)) in Y. apply (proj1 (fsub_eq_0 K _ _)) in Z. apply Ne. fold (va e1). rewrite <- EE, EP, X, Y, Z. reflexivity. }
    eapply rare_app; [exact (rare_comb3 6 _ _ _ ltac:(lia) NT)|]. intros rs Lrs Nrs. destruct rs as [|rA [|rB [|rC [|]]]]; try discriminate Lrs. cbn [nth] in Nrs.
    eapply rare_impl. { intros cs _ (_ & _ & X). cbn [app nth skipn] in X. exact X. }
    (* second sum-check *)
    destruct (eval_table_ok K (rc_A I) (eq_evals rx) (2 ^ a) (2 ^ S b)) as (ta & Eta & Lta & Nta); [rewrite eq_evals_length, Lrx; reflexivity|exact OA|].
    destruct (eval_table_ok K (rc_B I) (eq_evals rx) (2 ^ a) (2 ^ S b)) as (tb & Etb & Ltb & Ntb); [rewrite eq_evals_length, Lrx; reflexivity|exact OB|].
    destruct (eval_table_ok K (rc_C I) (eq_evals rx) (2 ^ a) (2 ^ S b)) as (tc & Etc & Ltc & Ntc); [rewrite eq_evals_length, Lrx; reflexivity|exact OC|].
    set (abc := tab (2 ^ S b) (fun j => rA * nth j ta 0 + rB * nth j tb 0 + rC * nth j tc 0)). assert (Labc : length abc = (2 ^ S b)%nat) by apply tab_length.
    apply (zk_rare N co n ltac:(lia) 2 6 ltac:(lia) ltac:(lia) (S b) _ _ _ (fun ry => mle abc ry * mle z ry)).
    { now apply deg_prod2. }
    { unfold val. rewrite point_cmp, !(co_add _ _ _ Co), !(co_mul _ _ _ Co).
      change (co n (point Az)) with (va Az). change (co n (point Bz)) with (va Bz). change (co n (point Cz)) with (va Cz).
      pose proof (hsum_table (fun v => nth 0 v 0 * nth 1 v 0) (S b) [abc; z]) as X. cbn [map nth] in X. rewrite X. unfold table_sum. cbn [map nth].
      replace (sumn (2 ^ S b) (fun i => nth i abc 0 * nth i z 0)) with (rA * mle la rx + (rB * mle lb rx + rC * mle lc rx)).
      - intro Y. apply Nrs. transitivity (rA * va Az + (rB * va Bz + rC * va Cz) - (rA * mle la rx + (rB * mle lb rx + rC * mle lc rx))); [ring|]. rewrite Y. ring.
      - rewrite <- (table_claim _ a _ rx z ta la Lrx Lz OA Eta Ela), <- (table_claim _ a _ rx z tb lb Lrx Lz OB Etb Elb), <- (table_claim _ a _ rx z tc lc Lrx Lz OC Etc Elc).
        rewrite <- !sumn_scale, <- !sumn_plus. apply sumn_ext. intros j Hj. unfold abc. rewrite nth_tab by exact Hj. ring. }
    intros [cry s4] e2 ry Lry Ne2. unfold open_acc. cbn [fst snd]. destruct ry as [|ry0 ryt]; [discriminate Lry|]. cbn [tl]. assert (Lr : length ryt = b) by (cbn in Lry; lia).
    assert (Emz : mle z (ry0 :: ryt) = (1 - ry0) * mle vars ryt + ry0 * mle ([1] ++ input ++ repeat 0 (2 ^ b - length input - 1)) ryt).
    { unfold z, full_z. rewrite vars_length. apply mle_app. rewrite vars_length, Lr. reflexivity. }
    assert (Eabc : mle abc (ry0 :: ryt) = mats rA rB rC rx (ry0 :: ryt)).
    { assert (TE : forall P t, ents_ok (2 ^ a) (2 ^ S b) (sM P) -> sparse_eval_table P (eq_evals rx) (2 ^ a) (2 ^ S b) = Ok t ->
                 mle t (ry0 :: ryt) = mle (mat_table (triples (sM P)) (2 ^ a) (2 ^ S b)) (rx ++ ry0 :: ryt)).
      { intros P t O Et0. destruct (table_then_eval K P rx (ry0 :: ryt)) as (l & El & _ & Ml); [rewrite Lrx, Lry; exact O|].
        rewrite Lrx, Lry in El, Ml. rewrite Et0 in El. injection El as <-. exact Ml. }
      unfold mats. rewrite <- (TE _ ta OA Eta), <- (TE _ tb OB Etb), <- (TE _ tc OC Etc).
      unfold mle. rewrite Lry. rewrite <- !sumn_scale, <- !sumn_plus. apply sumn_ext. intros j Hj. unfold abc. rewrite nth_tab by exact Hj. ring. }
    pose proof (factored_ok K ryt) as F. pose proof (opened ryt Lr) as OP.
    destruct (keq_dec (va cry) (mle vars ryt)) as [EY|EY].
    - change (1 + (k + 2))%nat with (S (k + 2)). apply lp_skip. intro y. unfold end_acc. cbn [tl nth].
      eapply rare_step; [apply (few_lin 6 (mats rA rB rC rx (ry0 :: ryt) * ((1 - ry0) * va cry + ry0 * mle ([1] ++ input ++ repeat 0 (2 ^ b - length input - 1)) ryt) - va e2) (- va (fst y)) ltac:(lia))|].
      { rewrite EY, <- Emz, <- Eabc. apply sub_nz. intro Y. apply Ne2. symmetry. exact Y. }
      intros c Nc. apply rare_none. intros cs _ X. exact (Nc X).
    - change (1 + (k + 2))%nat with (S (k + 2)). apply lp_rare; try assumption; try lia.
      + destruct (compute_factored_evals ryt) as [L R]. destruct F as (_ & LR & _). cbn [snd]. rewrite LR, Lr. reflexivity.
      + unfold compute_factored_evals, compute_factored_lens. cbn [snd]. apply eq_evals_nz.
      + fold n. rewrite OP. exact EY.
  Qed.
End AN.
