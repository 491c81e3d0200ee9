From Coq Require Import List Arith Lia Bool Field Ring.
From Verif Require Import Base ListAux Field Vec MathModel PolyModel PolySpec.
Import ListNotations.

(** ** Powers of two *)
Lemma pow2_pos k : (1 <= 2 ^ k)%nat.
Proof. pose proof (Nat.pow_nonzero 2 k). lia. Qed.
Lemma pow2_S k : (2 ^ S k = 2 ^ k + 2 ^ k)%nat.
Proof. cbn [Nat.pow]. lia. Qed.
Lemma log2_up_mul_pow2' a k : (0 < a)%nat -> Nat.log2_up (a * 2 ^ k) = (k + Nat.log2_up a)%nat.
Proof. intro H. apply Nat.log2_up_mul_pow2; lia. Qed.
Lemma next_pow2_mul a k : (0 < a)%nat -> next_pow2 (a * 2 ^ k) = (next_pow2 a * 2 ^ k)%nat.
Proof. intro H. unfold next_pow2. rewrite log2_up_mul_pow2' by exact H. rewrite Nat.pow_add_r. lia. Qed.
Lemma next_pow2_ge a : (a <= next_pow2 a)%nat.
Proof.
  unfold next_pow2. destruct a as [|[|a]]; [cbn; lia..|].
  apply Nat.log2_up_spec. lia.
Qed.
Lemma next_pow2_pow k : next_pow2 (2 ^ k) = (2 ^ k)%nat.
Proof. unfold next_pow2. rewrite Nat.log2_up_pow2 by lia. reflexivity. Qed.
Lemma log_2_pow k : log_2 (2 ^ k) = Ok k.
Proof.
  unfold log_2. pose proof (pow2_pos k). destruct (2 ^ k)%nat eqn:E; [lia|]. rewrite <- E.
  rewrite Nat.log2_up_pow2 by lia. reflexivity.
Qed.

Section Proofs.
  Variable K : Fld.
  Local Open Scope fld_scope.
  Add Field Kp : (fth K).

  (** ** Univariate polynomials *)
  Lemma peval_nil x : peval ([] : list K) x = 0.
  Proof. reflexivity. Qed.
  Lemma peval_cons c t (x : K) : peval (c :: t) x = c + x * peval t x.
  Proof.
    unfold peval. cbn [length]. rewrite sumn_S. cbn [nth fpow].
    rewrite <- sumn_scale. rewrite (sumn_ext K _ (fun i => nth i t 0 * (x * fpow x i)) (fun i => x * (nth i t 0 * fpow x i))).
    - ring.
    - intros; ring.
  Qed.
  Lemma uni_evaluate_fold t (x : K) : forall e pw,
    fst (fold_left (fun '(e, pw) a => (e + pw * a, pw * x)) t (e, pw)) = e + pw * peval t x.
  Proof.
    induction t as [|a t IH]; intros e pw; cbn [fold_left]; [rewrite peval_nil; cbn [fst]; ring|].
    rewrite IH, peval_cons. ring.
  Qed.
  Lemma uni_evaluate_ok c t (x : K) : uni_evaluate (c :: t) x = Ok (peval (c :: t) x).
  Proof. cbn [uni_evaluate]. rewrite uni_evaluate_fold, peval_cons. reflexivity. Qed.
  Lemma peval_0 c t : peval (c :: t) (0 : K) = c.
  Proof. rewrite peval_cons. ring. Qed.
  Lemma peval_1 (cs : list K) : peval cs 1 = fsum cs.
  Proof. induction cs as [|c t IH]; [reflexivity|]. rewrite peval_cons, IH, fsum_cons. ring. Qed.

  Lemma inv_unwrap_ok (x : K) : x <> 0 -> inv_unwrap x = Ok (finv x).
  Proof. intro H. unfold inv_unwrap. destruct (feqb_spec K x 0); [contradiction|reflexivity]. Qed.

  Lemma from_evals_3 (e0 e1 e2 : K) : (of_nat 2 : K) <> 0 ->
    exists cs, from_evals [e0; e1; e2] = Ok cs /\ length cs = 3%nat /\
      peval cs 0 = e0 /\ peval cs 1 = e1 /\ peval cs (of_nat 2) = e2.
  Proof.
    intro H. cbn [from_evals]. rewrite inv_unwrap_ok by exact H. cbn [bind]. eexists. split; [reflexivity|].
    split; [reflexivity|]. rewrite !peval_cons, !peval_nil. cbn [of_nat] in *.
    split; [ring|]. split; [ring|]. field. intro E. apply H. transitivity (1 + 1 : K); [ring|exact E].
  Qed.
  Lemma from_evals_4 (e0 e1 e2 e3 : K) : (of_nat 2 : K) <> 0 -> (of_nat 3 : K) <> 0 ->
    exists cs, from_evals [e0; e1; e2; e3] = Ok cs /\ length cs = 4%nat /\
      peval cs 0 = e0 /\ peval cs 1 = e1 /\ peval cs (of_nat 2) = e2 /\ peval cs (of_nat 3) = e3.
  Proof.
    intros H2 H3. assert (H6 : (of_nat 6 : K) <> 0).
    { replace (of_nat 6 : K) with ((of_nat 2 : K) * of_nat 3) by (cbn [of_nat]; ring).
      apply fmul_neq_0; assumption. }
    cbn [from_evals]. rewrite !inv_unwrap_ok by assumption. cbn [bind]. eexists. split; [reflexivity|].
    split; [reflexivity|]. rewrite !peval_cons, !peval_nil. 
    assert (E6 : (of_nat 6 : K) = (1+1) * (1+1+1)) by (cbn [of_nat]; ring). rewrite E6. clear E6 H6.
    assert (E3 : (of_nat 3 : K) = 1+1+1) by (cbn [of_nat]; ring). rewrite E3 in *. clear E3.
    assert (E2 : (of_nat 2 : K) = 1+1) by (cbn [of_nat]; ring). rewrite E2 in *. clear E2.
    assert (F2 : finv (1 + 1) + finv (1 + 1) = (1 : K)).
    { transitivity (finv (1 + 1) * (1 + 1) : K); [ring|apply finv_l, H2]. }
    assert (F6 : (1 + 1 + 1 + 1 + 1 + 1) * finv ((1 + 1) * (1 + 1 + 1)) = (1 : K)).
    { transitivity (finv ((1 + 1) * (1 + 1 + 1)) * ((1 + 1) * (1 + 1 + 1)) : K); [ring|apply finv_l, fmul_neq_0; assumption]. }
    revert F2 F6. generalize (finv (1 + 1) : K). generalize (finv ((1 + 1) * (1 + 1 + 1)) : K). intros i6 i2 F2 F6.
    pose (X := e3 - e2 - e2 - e2 + e1 + e1 + e1 - e0).
    pose (Y := e0 + e0 - e1 - e1 - e1 - e1 - e1 + e2 + e2 + e2 + e2 - e3).
    fold X Y. split; [ring|]. split; [ring|]. split.
    - transitivity (e1 + e1 - e0 + (i2 + i2) * Y + ((1 + 1 + 1 + 1 + 1 + 1) * i6) * X); [ring|].
      rewrite F2, F6. unfold X, Y. ring.
    - transitivity (e1 + e1 + e1 - e0 - e0 + (1 + 1 + 1) * ((i2 + i2) * Y) + (1 + 1 + 1 + 1) * (((1 + 1 + 1 + 1 + 1 + 1) * i6) * X)); [ring|].
      rewrite F2, F6. unfold X, Y. ring.
  Qed.
  (** uniqueness of interpolation *)
  Lemma interp_unique_3 (c d : list K) : (of_nat 2 : K) <> 0 -> length c = 3%nat -> length d = 3%nat ->
    peval c 0 = peval d 0 -> peval c 1 = peval d 1 -> peval c (of_nat 2) = peval d (of_nat 2) -> c = d.
  Proof.
    intros H2 Hc Hd. destruct c as [|c0 [|c1 [|c2 [|]]]]; try discriminate.
    destruct d as [|d0 [|d1 [|d2 [|]]]]; try discriminate.
    rewrite !peval_cons, !peval_nil.
    assert (E2 : (of_nat 2 : K) = 1+1) by (cbn [of_nat]; ring). rewrite E2 in *. clear E2.
    intros A0 A1 A2.
    assert (B0 : c0 = d0) by (transitivity (c0 + 0 * (c1 + 0 * (c2 + 0 * 0))); [ring|rewrite A0; ring]).
    subst d0.
    assert (B1 : c1 + c2 = d1 + d2).
    { transitivity ((c0 + 1 * (c1 + 1 * (c2 + 1 * 0))) - c0); [ring|rewrite A1; ring]. }
    assert (B2 : c2 = d2).
    { apply (fmul_cancel_l K (1+1) _ _ H2).
      transitivity (((c0 + (1 + 1) * (c1 + (1 + 1) * (c2 + (1 + 1) * 0))) - c0) - (1+1) * (c1 + c2)); [ring|].
      rewrite A2, B1. ring. }
    subst d2. assert (c1 = d1) by (transitivity ((c1 + c2) - c2); [ring|rewrite B1; ring]). congruence.
  Qed.
  Lemma interp_unique_4 (c d : list K) : (of_nat 2 : K) <> 0 -> (of_nat 3 : K) <> 0 ->
    length c = 4%nat -> length d = 4%nat ->
    peval c 0 = peval d 0 -> peval c 1 = peval d 1 -> peval c (of_nat 2) = peval d (of_nat 2) ->
    peval c (of_nat 3) = peval d (of_nat 3) -> c = d.
  Proof.
    intros H2 H3 Hc Hd. destruct c as [|c0 [|c1 [|c2 [|c3 [|]]]]]; try discriminate.
    destruct d as [|d0 [|d1 [|d2 [|d3 [|]]]]]; try discriminate.
    rewrite !peval_cons, !peval_nil.
    assert (E3 : (of_nat 3 : K) = 1+1+1) by (cbn [of_nat]; ring). rewrite E3 in *. clear E3.
    assert (E2 : (of_nat 2 : K) = 1+1) by (cbn [of_nat]; ring). rewrite E2 in *. clear E2.
    intros A0 A1 A2 A3.
    assert (B0 : c0 = d0) by (transitivity (c0 + 0 * (c1 + 0 * (c2 + 0 * (c3 + 0 * 0)))); [ring|rewrite A0; ring]).
    subst d0.
    assert (B1 : c1 + c2 + c3 = d1 + d2 + d3).
    { transitivity ((c0 + 1 * (c1 + 1 * (c2 + 1 * (c3 + 1 * 0)))) - c0); [ring|rewrite A1; ring]. }
    assert (B2 : c2 + (1+1+1) * c3 = d2 + (1+1+1) * d3).
    { apply (fmul_cancel_l K (1+1) _ _ H2).
      transitivity (((c0 + (1 + 1) * (c1 + (1 + 1) * (c2 + (1 + 1) * (c3 + (1+1) * 0)))) - c0) - (1+1) * (c1 + c2 + c3)); [ring|].
      rewrite A2, B1. ring. }
    assert (B3 : c3 = d3).
    { apply (fmul_cancel_l K ((1+1) * (1+1+1)) _ _ (fmul_neq_0 K _ _ H2 H3)).
      transitivity (((c0 + (1 + 1 + 1) * (c1 + (1 + 1 + 1) * (c2 + (1 + 1 + 1) * (c3 + (1 + 1 + 1) * 0)))) - c0)
        - (1+1+1) * (c1 + c2 + c3) - (1+1)*(1+1+1) * (c2 + (1+1+1) * c3)); [ring|].
      transitivity (((c0 + (1 + 1 + 1) * (d1 + (1 + 1 + 1) * (d2 + (1 + 1 + 1) * (d3 + (1 + 1 + 1) * 0)))) - c0)
        - (1+1+1) * (d1 + d2 + d3) - (1+1)*(1+1+1) * (d2 + (1+1+1) * d3)); [|ring].
      rewrite A3, B1, B2. reflexivity. }
    subst d3. assert (c2 = d2) by (transitivity ((c2 + (1+1+1) * c3) - (1+1+1) * c3); [ring|rewrite B2; ring]).
    subst d2. assert (c1 = d1) by (transitivity ((c1 + c2 + c3) - c2 - c3); [ring|rewrite B1; ring]). congruence.
  Qed.

  Lemma fold_sub t : forall h : K, fold_left fsub t h = h - fsum t.
  Proof. induction t as [|x t IH]; intro h; cbn [fold_left]; [rewrite fsum_nil; ring|]. rewrite IH, fsum_cons. ring. Qed.
  Lemma compress_decompress c0 c1 t :
    (do comp <- compress (c0 :: c1 :: t); decompress comp (peval (c0 :: c1 :: t) 0 + peval (c0 :: c1 :: t) 1))
    = Ok (c0 :: c1 :: t : list K).
  Proof.
    cbn [compress bind decompress]. rewrite fold_sub, peval_0, peval_1, !fsum_cons.
    replace (c0 + (c0 + (c1 + fsum t)) - c0 - c0 - fsum t) with c1 by ring. reflexivity.
  Qed.
  Lemma decompress_sum c t (hint : K) : exists cs, decompress (c :: t) hint = Ok cs /\
    length cs = S (S (length t)) /\ peval cs 0 + peval cs 1 = hint /\ compress cs = Ok (c :: t).
  Proof.
    cbn [decompress]. eexists. split; [reflexivity|]. split; [reflexivity|]. split; [|reflexivity].
    rewrite fold_sub, peval_0, peval_1, !fsum_cons. ring.
  Qed.

  (** ** The equality polynomial *)
  Lemma eq_double_app a b (x : K) : eq_double (a ++ b) x = eq_double a x ++ eq_double b x.
  Proof. unfold eq_double. apply flat_map_app. Qed.
  Lemma eq_double_scale c t (x : K) : eq_double (map (fmul c) t) x = map (fmul c) (eq_double t x).
  Proof.
    unfold eq_double. induction t as [|e t IH]; [reflexivity|]. cbn [map flat_map app]. rewrite IH. f_equal; [ring|]. f_equal. ring.
  Qed.
  Lemma eq_fold_app r : forall a b : list K, fold_left eq_double r (a ++ b) = fold_left eq_double r a ++ fold_left eq_double r b.
  Proof. induction r as [|x r IH]; intros a b; [reflexivity|]. cbn [fold_left]. rewrite eq_double_app. apply IH. Qed.
  Lemma eq_fold_scale c r : forall t : list K, fold_left eq_double r (map (fmul c) t) = map (fmul c) (fold_left eq_double r t).
  Proof. induction r as [|x r IH]; intros t; [reflexivity|]. cbn [fold_left]. rewrite eq_double_scale. apply IH. Qed.
  Lemma eq_evals_nil : eq_evals [] = [1 : K].
  Proof. reflexivity. Qed.
  Lemma eq_evals_cons x (r : list K) : eq_evals (x :: r) = map (fmul (1 - x)) (eq_evals r) ++ map (fmul x) (eq_evals r).
  Proof.
    unfold eq_evals. cbn [fold_left]. unfold eq_double at 2. cbn [flat_map app].
    change [1 - 1 * x; 1 * x] with ([1 - 1 * x] ++ [1 * x]). rewrite eq_fold_app.
    replace [1 - 1 * x] with (map (fmul (1 - x)) [1 : K]) by (cbn [map]; f_equal; ring).
    replace [1 * x] with (map (fmul x) [1 : K]) by (cbn [map]; f_equal; ring).
    rewrite !eq_fold_scale. reflexivity.
  Qed.
  Lemma eq_evals_snoc (r : list K) x : eq_evals (r ++ [x]) = eq_double (eq_evals r) x.
  Proof. unfold eq_evals. rewrite fold_left_app. reflexivity. Qed.
  Lemma eq_evals_length (r : list K) : length (eq_evals r) = (2 ^ length r)%nat.
  Proof.
    induction r as [|x r IH]; [reflexivity|]. rewrite eq_evals_cons, app_length, !map_length, IH. cbn [length Nat.pow]. lia.
  Qed.

  Lemma chi_cons_lo x (r : list K) i : (i < 2 ^ length r)%nat -> chi (x :: r) i = (1 - x) * chi r i.
  Proof.
    intro H. cbn [chi]. rewrite Nat.testbit_eqb. rewrite Nat.div_small by exact H. reflexivity.
  Qed.
  Lemma testbit_add_pow n i k : (k < n)%nat -> Nat.testbit (2 ^ n + i) k = Nat.testbit i k.
  Proof.
    intro H. rewrite !Nat.testbit_eqb. f_equal.
    replace (2 ^ n)%nat with (2 ^ (n - k - 1) * 2 * 2 ^ k)%nat.
    - rewrite Nat.add_comm, Nat.div_add by (apply Nat.pow_nonzero; lia).
      rewrite Nat.mod_add by lia. reflexivity.
    - rewrite <- Nat.mul_assoc. change (2 * 2 ^ k)%nat with (2 ^ S k)%nat. rewrite <- Nat.pow_add_r. f_equal. lia.
  Qed.
  Lemma chi_high (r : list K) : forall n i, (length r <= n)%nat -> chi r (2 ^ n + i) = chi r i.
  Proof.
    induction r as [|x r IH]; intros n i H; [reflexivity|]. cbn [chi length] in *.
    rewrite testbit_add_pow by lia. rewrite IH by lia. reflexivity.
  Qed.
  Lemma chi_cons_hi x (r : list K) i : (i < 2 ^ length r)%nat -> chi (x :: r) (2 ^ length r + i) = x * chi r i.
  Proof.
    intro H. cbn [chi]. rewrite chi_high by lia. rewrite Nat.testbit_eqb.
    rewrite <- (Nat.mul_1_l (2 ^ length r)) at 1. rewrite Nat.div_add_l by (apply Nat.pow_nonzero; lia).
    rewrite Nat.div_small by exact H. reflexivity.
  Qed.
  Lemma eq_evals_tab (r : list K) : eq_evals r = tab (2 ^ length r) (chi r).
  Proof.
    induction r as [|x r IH]; [reflexivity|]. rewrite eq_evals_cons, IH, !map_tab.
    cbn [length]. rewrite pow2_S, tab_add. f_equal; apply tab_ext; intros i Hi.
    - symmetry. apply chi_cons_lo, Hi.
    - symmetry. apply chi_cons_hi, Hi.
  Qed.
  Lemma eq_evals_nth (r : list K) i : (i < 2 ^ length r)%nat -> nth i (eq_evals r) 0 = chi r i.
  Proof. intro H. rewrite eq_evals_tab. apply nth_tab, H. Qed.

  (** ** Multilinear extension *)
  Lemma mle_dot (Z r : list K) : length Z = (2 ^ length r)%nat -> mle Z r = dot Z (eq_evals r).
  Proof.
    intro H. unfold mle. rewrite (dot_sumn K _ _ (2 ^ length r)) by (rewrite ?eq_evals_length; auto).
    apply sumn_ext. intros i Hi. rewrite eq_evals_nth by exact Hi. reflexivity.
  Qed.
  Lemma mle_nil (Z : list K) : mle Z [] = nth 0 Z 0.
  Proof. unfold mle. cbn [length Nat.pow]. rewrite sumn_S, sumn_nil. cbn [chi]. ring. Qed.
  Lemma mle_cons (Z : list K) x r : mle Z (x :: r) =
    (1 - x) * mle Z r + x * mle (skipn (2 ^ length r) Z) r.
  Proof.
    unfold mle. cbn [length]. rewrite pow2_S, sumn_add, <- !sumn_scale. f_equal; apply sumn_ext; intros i Hi.
    - rewrite chi_cons_lo by exact Hi. ring.
    - rewrite chi_cons_hi, skipn_nth by exact Hi. ring.
  Qed.
  Lemma mle_ext (Z Z' r : list K) : (forall i, (i < 2 ^ length r)%nat -> nth i Z 0 = nth i Z' 0) -> mle Z r = mle Z' r.
  Proof. intro H. unfold mle. apply sumn_ext. intros i Hi. rewrite H by exact Hi. reflexivity. Qed.
  Lemma mle_firstn (Z r : list K) k : (2 ^ length r <= k)%nat -> mle (firstn k Z) r = mle Z r.
  Proof. intro H. apply mle_ext. intros i Hi. apply firstn_nth. lia. Qed.
  Lemma mle_app (A B : list K) x r : length A = (2 ^ length r)%nat ->
    mle (A ++ B) (x :: r) = (1 - x) * mle A r + x * mle B r.
  Proof.
    intro H. rewrite mle_cons. f_equal; f_equal.
    - apply mle_ext. intros i Hi. apply app_nth1. lia.
    - rewrite <- H, skipn_app, skipn_all, Nat.sub_diag. reflexivity.
  Qed.
  Lemma mle_lin c d (A B r : list K) :
    mle (tab (2 ^ length r) (fun i => c * nth i A 0 + d * nth i B 0)) r = c * mle A r + d * mle B r.
  Proof.
    unfold mle. rewrite <- !sumn_scale, <- sumn_plus. apply sumn_ext. intros i Hi. rewrite nth_tab by exact Hi. ring.
  Qed.
  Lemma mle_zero k (r : list K) : mle (repeat 0 k) r = 0.
  Proof.
    unfold mle. apply sumn_zero. intros i Hi.
    replace (nth i (repeat 0 k) 0) with (0 : K); [ring|]. symmetry. apply nth_repeat.
  Qed.
  (** the last variable *)
  Lemma chi_snoc (r : list K) : forall x i, chi (r ++ [x]) i = chi r (i / 2) * (if Nat.odd i then x else 1 - x).
  Proof.
    induction r as [|y r IH]; intros x i.
    - cbn [app chi length]. rewrite Nat.bit0_odd. destruct (Nat.odd i); ring.
    - cbn [app chi]. rewrite IH, app_length. cbn [length].
      replace (Nat.testbit i (length r + 1)) with (Nat.testbit (i / 2) (length r)).
      + destruct (Nat.testbit (i / 2) (length r)); ring.
      + rewrite Nat.add_1_r, <- Nat.div2_div. reflexivity.
  Qed.
  Lemma mle_snoc (Z r : list K) x :
    mle Z (r ++ [x]) = mle (tab (2 ^ length r) (fun i => nth (2 * i) Z 0 + x * (nth (2 * i + 1) Z 0 - nth (2 * i) Z 0))) r.
  Proof.
    unfold mle. rewrite app_length. cbn [length]. rewrite Nat.add_1_r. cbn [Nat.pow].
    replace (2 * 2 ^ length r)%nat with (2 ^ length r * 2)%nat by lia. rewrite sumn_mul. apply sumn_ext. intros i Hi.
    rewrite nth_tab by exact Hi. rewrite !sumn_S, sumn_nil, !chi_snoc.
    replace (i * 2 + 0)%nat with (2 * i)%nat by lia. replace (i * 2 + 1)%nat with (2 * i + 1)%nat by lia.
    replace (Nat.odd (2 * i)) with false by (symmetry; rewrite <- Nat.negb_even, Nat.even_mul; reflexivity).
    replace (Nat.odd (2 * i + 1)) with true.
    2: { symmetry. rewrite Nat.odd_add, Nat.odd_mul. reflexivity. }
    replace (2 * i / 2)%nat with i by (rewrite Nat.mul_comm, Nat.div_mul; lia).
    replace ((2 * i + 1) / 2)%nat with i.
    2: { rewrite Nat.mul_comm, Nat.div_add_l by lia. change (1 / 2)%nat with 0%nat. lia. }
    ring.
  Qed.
  (** rows *)
  Lemma mle_concat (c : list K) : forall rows r, length rows = (2 ^ length c)%nat ->
    (forall row, In row rows -> length row = (2 ^ length r)%nat) ->
    mle (concat rows) (c ++ r) = mle (map (fun row => mle row r) rows) c.
  Proof.
    induction c as [|x c IH]; intros rows r HL HR.
    - cbn in HL. destruct rows as [|row [|]]; cbn in HL; try lia. cbn [concat app map]. rewrite app_nil_r, mle_nil. reflexivity.
    - cbn [length Nat.pow] in HL. 
      rewrite <- (firstn_skipn (2 ^ length c) rows). set (a := firstn _ rows). set (b := skipn _ rows).
      assert (Ha : length a = (2 ^ length c)%nat) by (unfold a; rewrite firstn_length; lia).
      assert (Hb : length b = (2 ^ length c)%nat) by (unfold b; rewrite skipn_length; lia).
      assert (HRa : forall row, In row a -> length row = (2 ^ length r)%nat).
      { intros row Hrow. apply HR. rewrite <- (firstn_skipn (2 ^ length c) rows). apply in_or_app. left. exact Hrow. }
      assert (HRb : forall row, In row b -> length row = (2 ^ length r)%nat).
      { intros row Hrow. apply HR. rewrite <- (firstn_skipn (2 ^ length c) rows). apply in_or_app. right. exact Hrow. }
      rewrite concat_app, map_app. cbn [app]. rewrite !mle_app.
      + rewrite !IH by assumption. reflexivity.
      + rewrite map_length. exact Ha.
      + rewrite app_length, Nat.pow_add_r, <- Ha. clear -HRa. induction a as [|row a IH]; [reflexivity|].
        cbn [concat length]. rewrite app_length, IH, (HRa row); [lia|left; reflexivity|].
        intros row' H. apply HRa. right. exact H.
  Qed.
End Proofs.
