(** Secp256k1Mul: what every accepted advice computes, and what the witness
    generator computes. *)
From Coq Require Import ZArith Znumtheory List Bool Arith Lia Field Ring.
From Verif Require Import Base Primes Field Zq CurveSpec CurveProofs Secp SecpOrder CircModel CircSpec CircProofs CircBits.
Import ListNotations.
Local Open Scope Z_scope.

Add Field Kfm : (fth Fp).

Lemma num2bits_ex n b (x : Fp) o : num2bits n b x = Some o -> exists v, o = zbits n v.
Proof. intro H. apply num2bits_iff in H. destruct H as (-> & v & _ & -> & _). exists v. reflexivity. Qed.
Lemma some_inj {A} (a b : A) : Some a = Some b -> a = b. Proof. congruence. Qed.
Lemma k_bits w s kb : k_tmpl w s = Some kb -> exists k, 0 <= k < 2 ^ 256 /\ kb = zbits 256 k.
Proof.
  unfold k_tmpl. cbv zeta. intro H.
  repeat match type of H with (match ?e with Some _ => _ | None => None end) = _ =>
    destruct e eqn:?; [|discriminate] end.
  apply some_inj in H. subst kb.
  match goal with E1 : num2bits 256 _ _ = Some ?a, E2 : num2bits 256 _ _ = Some ?b |- context [firstn 128 ?b ++ _] =>
    apply num2bits_ex in E1; apply num2bits_ex in E2; destruct E1 as (hi & ->); destruct E2 as (lo & ->) end.
  rewrite !zbits_firstn by lia. rewrite <- (zbits_mod 128 lo), <- (zbits_mod 128 hi). change (2 ^ Z.of_nat 128) with (2 ^ 128).
  pose proof (Z.mod_pos_bound lo (2 ^ 128) ltac:(lia)). pose proof (Z.mod_pos_bound hi (2 ^ 128) ltac:(lia)).
  exists (lo mod 2 ^ 128 + hi mod 2 ^ 128 * 2 ^ 128). split; [lia|].
  rewrite zbits_app by (change (2 ^ Z.of_nat 128) with (2 ^ 128); lia). reflexivity.
Qed.

Lemma secp_no0 (y : Fp) : fmul y y <> cb secp.
Proof. exact (seven_no_square y). Qed.

Lemma emul_m1 (x y : Fp) : emul (-1) (Some (x, y)) = Some (x, fopp y). Proof. reflexivity. Qed.

Section Mul.
  Variables x y : Fp.
  Notation P := (Some (x, y)).
  Hypothesis HP : on_curve secp P = true.
  Hypothesis Hn : emul n P = None.
  Lemma Pn : P <> None. Proof. discriminate. Qed.

  Lemma onm k : on_curve secp (emul k P) = true. Proof. apply (on_emul secp). exact HP. Qed.
  Lemma mul_none k : emul k P = None <-> (n | k). Proof. exact (order_iff P HP Hn Pn k). Qed.
  Lemma mul_eq a b : emul a P = emul b P <-> (n | a - b). Proof. exact (order_eq P HP Hn Pn a b). Qed.
  Lemma mul_add a b : emul (a + b) P = eadd (emul a P) (emul b P). Proof. apply (emul_add secp). exact HP. Qed.

  Lemma ndiv d : 0 < Z.abs d < n -> ~ (n | d).
  Proof. intros H [k ->]. rewrite Z.abs_mul in H. change (Z.abs n) with n in H. assert (0 < n) by reflexivity.
    destruct (Z.eq_dec k 0) as [-> |N]; [cbn in H; lia|]. pose proof (Z.mul_le_mono_nonneg_r 1 (Z.abs k) n ltac:(lia) ltac:(lia)). lia. Qed.
  Lemma diff_x a b x1 y1 x2 y2 : Some (x1, y1) = emul a P -> Some (x2, y2) = emul b P ->
    ~ (n | a - b) -> ~ (n | a + b) -> x1 <> x2.
  Proof.
    intros A B D S <-. pose proof (onm a) as OA. pose proof (onm b) as OB. rewrite <- A in OA. rewrite <- B in OB.
    destruct (same_x secp _ _ _ OA OB) as [-> | ->].
    - apply D. apply mul_eq. congruence.
    - apply S. apply (order_neg P HP Hn Pn). rewrite <- A, <- B. cbn [eopp]. rewrite oppopp. reflexivity.
  Qed.

  (** one incomplete step *)
  Section Step.
    Variables m e : Z.
    Variables ys : Fp.
    Hypothesis He : e = 1 \/ e = -1.
    Hypothesis Hys : Some (x, ys) = emul e P.
    Hypothesis Hm : 2 <= m /\ 2 * m + 1 < n.
    Lemma step_n1 : ~ (n | e - m) /\ ~ (n | e + m) /\ ~ (n | m - (m + e)) /\ ~ (n | m + (m + e)) /\ ~ (n | m + e) /\ ~ (n | 2 * m + e).
    Proof. repeat split; apply ndiv; lia. Qed.
    Lemma step_sound w1 w2 acc p acc' : Some acc = emul m P ->
      add_incomplete w1 x ys (fst acc) (snd acc) = Some p ->
      add_incomplete w2 (fst acc) (snd acc) (fst p) (snd p) = Some acc' -> Some acc' = emul (2 * m + e) P.
    Proof.
      destruct step_n1 as (D1 & D2 & D3 & D4 & D5 & D6). destruct acc as [ax ay], p as [px py]. cbn [fst snd]. intros A H1 H2.
      apply add_incomplete_sound in H1; [|apply (diff_x e m x ys ax ay Hys A); assumption].
      rewrite Hys, A, <- mul_add in H1. replace (e + m) with (m + e) in H1 by lia.
      apply add_incomplete_sound in H2; [|apply (diff_x m (m + e) ax ay px py A (eq_sym H1)); assumption].
      rewrite <- H1, A, <- mul_add in H2. rewrite <- H2. f_equal. lia.
    Qed.
    Lemma step_honest dv acc : division dv -> Some acc = emul m P ->
      exists p, add_incomplete (h_add_incomplete dv x ys (fst acc) (snd acc)) x ys (fst acc) (snd acc) = Some p /\
      add_incomplete (h_add_incomplete dv (fst acc) (snd acc) (fst p) (snd p)) (fst acc) (snd acc) (fst p) (snd p) = emul (2 * m + e) P.
    Proof.
      intro Hd. destruct step_n1 as (D1 & D2 & D3 & D4 & D5 & D6). destruct acc as [ax ay]. cbn [fst snd]. intros A.
      destruct (emul (m + e) P) as [[px py]|] eqn:B; [|exfalso; apply mul_none in B; auto].
      exists (px, py). cbn [fst snd]. split.
      - rewrite add_incomplete_complete; [|exact Hd|apply (diff_x e m x ys ax ay Hys A); assumption].
        rewrite Hys, A, <- mul_add. rewrite <- B. f_equal. lia.
      - rewrite add_incomplete_complete; [|exact Hd|apply (diff_x m (m + e) ax ay px py A (eq_sym B)); assumption].
        rewrite A, <- B, <- mul_add. f_equal. lia.
    Qed.
  End Step.

  (** the signed point added at bit j *)
  Variable k : Z.
  Hypothesis Hk : 0 <= k < 2 ^ 256.
  Definition V : Z := 2 ^ 256 + k.
  Definition sgn (j : Z) : Z := if Z.testbit k j then 1 else -1.
  Lemma sgn_cases j : sgn j = 1 \/ sgn j = -1. Proof. unfold sgn. destruct (Z.testbit k j); tauto. Qed.
  Lemma sgn_ys j : (j < 256)%nat ->
    Some (x, fmul (fsub (fmul cst2 (nth j (zbits 256 k) f0)) f1) y) = emul (sgn (Z.of_nat j)) P.
  Proof.
    intro H. rewrite zbits_nth by exact H. unfold sgn. destruct (Z.testbit k (Z.of_nat j)); cbn [Z.b2z].
    - rewrite fp_1. cbn [emul emul_pos]. do 2 f_equal. unfold cst2. ring.
    - rewrite fp_0, emul_m1. do 2 f_equal. unfold cst2. ring.
  Qed.
  Definition acoef (j : Z) : Z := 2 * Z.shiftr V j + 1.
  Lemma acoef_step j : 0 <= j < 256 -> acoef j = 2 * acoef (j + 1) + sgn j.
  Proof.
    intro H. unfold acoef, sgn. rewrite <- (Z.shiftr_shiftr V j 1) by lia. rewrite <- Z.div2_spec.
    pose proof (Z.div2_odd (Z.shiftr V j)) as E.
    assert (T : Z.odd (Z.shiftr V j) = Z.testbit k j).
    { rewrite <- Z.bit0_odd, Z.shiftr_spec, Z.add_0_l by lia. unfold V.
      replace (2 ^ 256 + k) with (k + 1 * 2 ^ 256) by lia. rewrite <- (Z.mod_pow2_bits_low (k + 1 * 2 ^ 256) 256 j) by lia.
      rewrite Z.mod_add, Z.mod_small by lia. reflexivity. }
    rewrite T in E. destruct (Z.testbit k j); cbn [Z.b2z] in E; lia.
  Qed.
  Lemma acoef_bounds j : 0 <= j <= 256 -> 2 ^ (256 - j) * 2 + 1 <= acoef j < 2 ^ (256 - j) * 4.
  Proof.
    intro H. unfold acoef. rewrite Z.shiftr_div_pow2 by lia. set (d := 2 ^ j).
    assert (Hd : 0 < d) by (apply Z.pow_pos_nonneg; lia). set (e := 2 ^ (256 - j)).
    assert (E : 2 ^ 256 = e * d) by (unfold e, d; rewrite <- Z.pow_add_r by lia; f_equal; lia).
    assert (e <= V / d) by (apply Z.div_le_lower_bound; unfold V; lia).
    assert (V / d < 2 * e) by (apply Z.div_lt_upper_bound; unfold V; nia). lia.
  Qed.
  Lemma acoef_256 : acoef 256 = 3.
  Proof. pose proof (acoef_bounds 256 ltac:(lia)) as B. change (2 ^ (256 - 256)) with 1 in B. unfold acoef in *. lia. Qed.

  Lemma inc_m j : 4 <= j < 256 -> 2 <= acoef (j + 1) /\ 2 * acoef (j + 1) + 1 < n.
  Proof.
    intro H. pose proof (acoef_bounds (j + 1) ltac:(lia)) as B.
    assert (2 ^ (256 - (j + 1)) <= 2 ^ 251) by (apply Z.pow_le_mono_r; lia).
    assert (0 < 2 ^ (256 - (j + 1))) by (apply Z.pow_pos_nonneg; lia). unfold n. lia.
  Qed.

  Notation kb := (zbits 256 k).
  Lemma inc_loop_sound ws : forall i acc acc', (1 <= i)%nat -> (i + length ws = 253)%nat ->
    Some acc = emul (acoef (257 - Z.of_nat i)) P -> inc_loop kb x y i ws acc = Some acc' -> Some acc' = emul (acoef 4) P.
  Proof.
    induction ws as [|w ws IH]; intros i acc acc' Hi HL A H; cbn [inc_loop length] in *.
    - injection H as <-. rewrite A. f_equal. f_equal. lia.
    - destruct (inc_step kb x y i w acc) as [a2|] eqn:E; [|discriminate].
      apply (IH (S i) a2 acc'); try lia; [|exact H]. unfold inc_step in E. destruct (Nat.eqb_spec i 0); [lia|].
      destruct (add_incomplete (fst w) x _ _ _) as [[px py]|] eqn:E1; [|discriminate].
      replace (257 - Z.of_nat (S i)) with (256 - Z.of_nat i) by lia. rewrite acoef_step by lia.
      assert (Ej : Z.of_nat (256 - i) = 256 - Z.of_nat i) by lia.
      pose proof (sgn_ys (256 - i) ltac:(lia)) as Y. rewrite Ej in Y.
      apply (step_sound _ _ _ (sgn_cases _) Y (inc_m (256 - Z.of_nat i) ltac:(lia)) (fst w) (snd w) acc (px, py)); try assumption.
      rewrite A. f_equal. f_equal. lia.
  Qed.
  Lemma inc_loop_honest dv : division dv -> forall c i acc, (1 <= i)%nat -> (i + c = 253)%nat ->
    Some acc = emul (acoef (257 - Z.of_nat i)) P -> inc_loop kb x y i (h_inc dv kb x y i c acc) acc = emul (acoef 4) P.
  Proof.
    intro Hd. induction c as [|c IH]; intros i acc Hi HL A; cbn [inc_loop h_inc].
    - rewrite A. f_equal. f_equal. lia.
    - assert (E : inc_step kb x y i (h_inc_step dv kb x y i acc) acc = emul (acoef (256 - Z.of_nat i)) P).
      { unfold inc_step, h_inc_step. destruct (Nat.eqb_spec i 0); [lia|].
        assert (Ej : Z.of_nat (256 - i) = 256 - Z.of_nat i) by lia.
        pose proof (sgn_ys (256 - i) ltac:(lia)) as Y. rewrite Ej in Y.
        destruct (step_honest _ _ _ (sgn_cases _) Y (inc_m (256 - Z.of_nat i) ltac:(lia)) dv acc Hd) as (p & E1 & E2).
        - rewrite A. f_equal. f_equal. lia.
        - rewrite E1. cbn [get]. destruct p as [px py]. cbn [fst snd] in *. rewrite E1, E2. rewrite (acoef_step (256 - Z.of_nat i)) by lia. reflexivity. }
      assert (NN : exists a2, emul (acoef (256 - Z.of_nat i)) P = Some a2).
      { destruct (emul (acoef (256 - Z.of_nat i)) P) eqn:Z0; [eauto|]. exfalso. apply mul_none in Z0. revert Z0. apply ndiv.
        pose proof (inc_m (256 - Z.of_nat i) ltac:(lia)). rewrite acoef_step by lia. destruct (sgn_cases (256 - Z.of_nat i)); lia. }
      destruct NN as [a2 NN]. rewrite E, NN. cbn [get]. apply IH; try lia. rewrite <- NN. f_equal. f_equal. lia.
  Qed.

  (** complete additions of multiples *)
  Lemma cadd_sound w u v a b o : a = enc (emul u P) -> b = enc (emul v P) ->
    ~ (n | u - v) \/ emul u P = None -> ~ degenerate (emul u P) (emul v P) ->
    add_complete w (fst a) (snd a) (fst b) (snd b) = Some o -> o = enc (emul (u + v) P).
  Proof.
    intros -> -> Hne Hdg H. destruct (add_complete_sound secp secp_no0 w _ _ o (onm u) (onm v) H) as [(E & a & b & l & E1 & _)|[_ ->]].
    - exfalso. destruct Hne as [Hne|Hne]; [apply Hne, mul_eq; exact E|congruence].
    - destruct (bad (emul u P) (emul v P)) eqn:B; [apply bad_iff in B; contradiction|]. rewrite mul_add. reflexivity.
  Qed.
  Lemma cadd_honest dv u v a b : division dv -> a = enc (emul u P) -> b = enc (emul v P) -> ~ degenerate (emul u P) (emul v P) ->
    add_complete (h_add_complete dv (fst a) (snd a) (fst b) (snd b)) (fst a) (snd a) (fst b) (snd b) = Some (enc (emul (u + v) P)).
  Proof.
    intros Hd -> -> Hdg. rewrite (add_complete_complete secp secp_no0 dv _ _ Hd (onm u) (onm v)).
    destruct (bad (emul u P) (emul v P)) eqn:B; [apply bad_iff in B; contradiction|]. rewrite mul_add. reflexivity.
  Qed.

  Hypothesis Hok : tail_ok k P.

  Lemma tail_p j : 1 <= j <= 3 -> ~ degenerate (emul (sgn j) P) (emul (acoef (j + 1)) P).
  Proof.
    intro H. apply Hok. unfold tail_pairs, acoef, sgn, V.
    assert (j = 1 \/ j = 2 \/ j = 3) as [-> |[-> | ->]] by lia; cbn [In]; tauto.
  Qed.
  Lemma tail_a j : 1 <= j <= 3 -> ~ degenerate (emul (acoef (j + 1)) P) (emul (acoef (j + 1) + sgn j) P).
  Proof.
    intro H. apply Hok. unfold tail_pairs, acoef, sgn, V.
    assert (j = 1 \/ j = 2 \/ j = 3) as [-> |[-> | ->]] by lia; cbn [In]; tauto.
  Qed.
  Lemma tail_o : ~ degenerate (emul (acoef 1) P) (emul (if Z.testbit k 0 then 0 else -1) P).
  Proof. apply Hok. unfold tail_pairs, acoef, V. cbn [In]. tauto. Qed.

  (** the coefficients met in the complete steps are odd, so they differ from +-1 *)
  Lemma tail_ne j : 1 <= j <= 3 -> ~ (n | sgn j - acoef (j + 1)).
  Proof.
    intros H [d D]. pose proof (acoef_bounds (j + 1) ltac:(lia)) as B.
    assert (Bj : 2 ^ (256 - (j + 1)) * 4 <= 2 ^ 256 /\ 1 <= 2 ^ (256 - (j + 1))).
    { assert (j = 1 \/ j = 2 \/ j = 3) as [-> |[-> | ->]] by lia; split; vm_compute; discriminate. }
    assert (d = 0 \/ d = -1) as [-> | ->] by (unfold n in *; destruct (sgn_cases j); nia).
    - unfold acoef in *. destruct (sgn_cases j); lia.
    - unfold acoef, n in *. destruct (sgn_cases j); lia.
  Qed.

  Lemma acoef_last : acoef 1 + (if Z.testbit k 0 then 0 else -1) = V.
  Proof.
    pose proof (acoef_step 0 ltac:(lia)) as E. change (0 + 1) with 1 in E. unfold acoef in *. rewrite Z.shiftr_0_r in E. unfold sgn in E.
    destruct (Z.testbit k 0); lia.
  Qed.
  Lemma sgn_enc j : 0 <= j < 256 -> (x, fmul (fsub (fmul cst2 (nth (Z.to_nat j) kb f0)) f1) y) = enc (emul (sgn j) P).
  Proof. intro H. pose proof (sgn_ys (Z.to_nat j) ltac:(lia)) as Y. rewrite Z2Nat.id in Y by lia. rewrite <- Y. reflexivity. Qed.

  Lemma comp_step_sound j i w acc acc' : 1 <= j <= 3 -> (3 - i)%nat = Z.to_nat j -> acc = enc (emul (acoef (j + 1)) P) ->
    comp_step kb x y i w acc = Some acc' -> acc' = enc (emul (acoef j) P).
  Proof.
    intros Hj Hi A H. unfold comp_step in H. rewrite Hi in H.
    destruct (add_complete (fst w) _ _ _ _) as [p|] eqn:E; [|discriminate].
    apply (cadd_sound (fst w) (sgn j) (acoef (j + 1)) (x, _) acc p (sgn_enc j ltac:(lia)) A) in E;
      [|left; apply tail_ne; exact Hj|apply tail_p; exact Hj].
    replace (sgn j + acoef (j + 1)) with (acoef (j + 1) + sgn j) in E by lia. destruct p as [px py].
    apply (cadd_sound (snd w) (acoef (j + 1)) (acoef (j + 1) + sgn j) acc (px, py) acc' A E) in H;
      [|left; replace (acoef (j + 1) - (acoef (j + 1) + sgn j)) with (- sgn j) by lia; apply ndiv; unfold n; destruct (sgn_cases j); lia|apply tail_a; exact Hj].
    rewrite H. do 2 f_equal. rewrite (acoef_step j) by lia. lia.
  Qed.
  Lemma comp_step_honest dv j i acc : division dv -> 1 <= j <= 3 -> (3 - i)%nat = Z.to_nat j -> acc = enc (emul (acoef (j + 1)) P) ->
    comp_step kb x y i (h_comp_step dv kb x y i acc) acc = Some (enc (emul (acoef j) P)).
  Proof.
    intros Hd Hj Hi A. unfold comp_step, h_comp_step. rewrite Hi.
    pose proof (cadd_honest dv _ _ (x, _) acc Hd (sgn_enc j ltac:(lia)) A (tail_p j Hj)) as E. cbn [fst snd] in E. rewrite E. cbn [get].
    replace (sgn j + acoef (j + 1)) with (acoef (j + 1) + sgn j) in * by lia.
    destruct (enc (emul (acoef (j + 1) + sgn j) P)) as [px py] eqn:Ep. cbn [fst snd]. rewrite E.
    pose proof (cadd_honest dv _ _ acc (px, py) Hd A (eq_sym Ep) (tail_a j Hj)) as E2. cbn [fst snd] in E2. rewrite E2.
    do 3 f_equal. rewrite (acoef_step j) by lia. lia.
  Qed.

  Lemma comp_loop_sound ws acc acc' : length ws = 3%nat -> acc = enc (emul (acoef 4) P) ->
    comp_loop kb x y 0 ws acc = Some acc' -> acc' = enc (emul (acoef 1) P).
  Proof.
    intros L A H. destruct ws as [|w1 [|w2 [|w3 [|]]]]; try discriminate. cbn [comp_loop] in H.
    destruct (comp_step kb x y 0 w1 acc) as [a1|] eqn:E1; [|discriminate]. apply (comp_step_sound 3) in E1; [|lia|reflexivity|exact A].
    destruct (comp_step kb x y 1 w2 a1) as [a2|] eqn:E2; [|discriminate]. apply (comp_step_sound 2) in E2; [|lia|reflexivity|exact E1].
    destruct (comp_step kb x y 2 w3 a2) as [a3|] eqn:E3; [|discriminate]. apply (comp_step_sound 1) in E3; [|lia|reflexivity|exact E2].
    apply some_inj in H. subst. reflexivity.
  Qed.
  Lemma comp_loop_honest dv acc : division dv -> acc = enc (emul (acoef 4) P) ->
    comp_loop kb x y 0 (h_comp dv kb x y 0 3 acc) acc = Some (enc (emul (acoef 1) P)).
  Proof.
    intros Hd A. cbn [h_comp comp_loop].
    rewrite (comp_step_honest dv 3 0 acc Hd ltac:(lia) eq_refl A). cbn [get].
    rewrite (comp_step_honest dv 2 1 (enc (emul (acoef 3) P)) Hd ltac:(lia) eq_refl eq_refl). cbn [get].
    rewrite (comp_step_honest dv 1 2 (enc (emul (acoef 2) P)) Hd ltac:(lia) eq_refl eq_refl). cbn [get]. reflexivity.
  Qed.

  Lemma last_enc : (fmul (fsub f1 (nth 0 kb f0)) x, fmul (fsub f1 (nth 0 kb f0)) (fopp y)) = enc (emul (if Z.testbit k 0 then 0 else -1) P).
  Proof.
    rewrite zbits_nth by lia. change (Z.of_nat 0) with 0. destruct (Z.testbit k 0); cbn [Z.b2z].
    - rewrite fp_1. cbn [emul enc]. f_equal; ring.
    - rewrite fp_0, emul_m1. cbn [enc]. f_equal; ring.
  Qed.

  (** the only scalar for which the last addition is a doubling *)
  Lemma last_ne : k <> kfree -> ~ (n | acoef 1 - (if Z.testbit k 0 then 0 else -1)) \/ emul (acoef 1) P = None.
  Proof.
    intro Hf. destruct (Z.testbit k 0) eqn:T0.
    - rewrite Z.sub_0_r. destruct (Zdivide_dec n (acoef 1)) as [D|D]; [right; apply mul_none; exact D|left; exact D].
    - left. intros [d D]. pose proof (acoef_bounds 1 ltac:(lia)) as B. pose proof acoef_last as L. rewrite T0 in L.
      change (2 ^ (256 - 1)) with (2 ^ 255) in B.
      assert (d = 2) by (unfold acoef, n in *; lia). subst d. apply Hf. unfold kfree, V in *. lia.
  Qed.

  Lemma acc0_ok : eadd P P = emul 2 P. Proof. reflexivity. Qed.
  Lemma y_nz : y <> f0. Proof. exact (on_nz secp _ _ HP). Qed.
  Lemma first_m : 2 <= 2 /\ 2 * 2 + 1 < n. Proof. unfold n. lia. Qed.

  Theorem mul_sound w s o : k_tmpl (ma_k w) s = Some kb -> k <> kfree ->
    secp_mul w s x y = Some o -> o = enc (emul V P).
  Proof.
    intros HK Hf H. unfold secp_mul in H. rewrite HK in H.
    destruct (double (ma_acc0 w) x y) as [a0|] eqn:E0; [|discriminate].
    apply (double_sound secp _ _ _ _ y_nz) in E0. rewrite acc0_ok in E0.
    destruct ((length (ma_inc w) =? 253) && (length (ma_comp w) =? 3))%nat eqn:EL; [|discriminate].
    apply andb_prop in EL. destruct EL as [L1 L2]. apply Nat.eqb_eq in L1, L2.
    destruct (ma_inc w) as [|w0 ws] eqn:EW; [discriminate|]. cbn [inc_loop] in H.
    destruct (inc_step kb x y 0 w0 a0) as [a1|] eqn:E1; [|discriminate].
    unfold inc_step in E1. cbn [Nat.eqb] in E1. destruct (add_incomplete (fst w0) x _ _ _) as [[px py]|] eqn:E1p; [|discriminate].
    pose proof (step_sound 2 (-1) (fopp y) (or_intror eq_refl) (eq_sym (emul_m1 x y)) first_m _ _ a0 (px, py) a1 (eq_sym E0) E1p E1) as A1.
    destruct (inc_loop kb x y 1 ws a1) as [a2|] eqn:E2; [|discriminate].
    apply inc_loop_sound in E2; [|lia|cbn [length] in L1; lia|rewrite A1; change (257 - Z.of_nat 1) with 256; rewrite acoef_256; reflexivity].
    destruct (comp_loop kb x y 0 (ma_comp w) a2) as [a3|] eqn:E3; [|discriminate].
    apply comp_loop_sound in E3; [|exact L2|rewrite <- E2; reflexivity].
    apply (cadd_sound _ _ _ a3 (_, _) o E3 last_enc (last_ne Hf) tail_o) in H. rewrite acoef_last in H. exact H.
  Qed.

  (** the advice of the witness generator from given scalar bits on *)
  Definition h_mul_k (dv : Fp -> Fp -> Fp) (wk : k_adv) : mul_adv :=
    let l0 := h_double dv x y in
    let acc0 := get (double l0 x y) in
    let wi := h_inc dv kb x y 0 253 acc0 in
    let acc1 := get (inc_loop kb x y 0 wi acc0) in
    let wc := h_comp dv kb x y 0 3 acc1 in
    let acc2 := get (comp_loop kb x y 0 wc acc1) in
    MkMadv wk l0 wi wc
      (h_add_complete dv (fst acc2) (snd acc2) (fmul (fsub f1 (nth 0 kb f0)) x) (fmul (fsub f1 (nth 0 kb f0)) (fopp y))).

  Lemma h_inc_length dv kb' c : forall i acc, length (h_inc dv kb' x y i c acc) = c.
  Proof. induction c as [|c IH]; intros; cbn [h_inc length]; [reflexivity|]. rewrite IH. reflexivity. Qed.
  Lemma h_comp_length dv kb' c : forall i acc, length (h_comp dv kb' x y i c acc) = c.
  Proof. induction c as [|c IH]; intros; cbn [h_comp length]; [reflexivity|]. rewrite IH. reflexivity. Qed.

  Lemma inc_S dv c i acc : inc_loop kb x y i (h_inc dv kb x y i (S c) acc) acc =
    match inc_step kb x y i (h_inc_step dv kb x y i acc) acc with
    | Some a => inc_loop kb x y (S i) (h_inc dv kb x y (S i) c a) a
    | None => None
    end.
  Proof. cbn [h_inc inc_loop]. destruct (inc_step kb x y i _ acc); reflexivity. Qed.
  Lemma pre_honest dv : division dv -> exists a0,
    double (h_double dv x y) x y = Some a0 /\
    inc_loop kb x y 0 (h_inc dv kb x y 0 253 a0) a0 = emul (acoef 4) P.
  Proof.
    intro Hd. pose proof (double_complete secp dv x y Hd y_nz) as E0. rewrite acc0_ok in E0.
    destruct (emul 2 P) as [a0|] eqn:A0; [|exfalso; apply mul_none in A0; revert A0; apply ndiv; unfold n; lia].
    exists a0. split; [exact E0|]. rewrite (inc_S dv 252 0 a0).
    assert (E : inc_step kb x y 0 (h_inc_step dv kb x y 0 a0) a0 = emul 3 P).
    { unfold inc_step, h_inc_step. cbn [Nat.eqb].
      destruct (step_honest 2 (-1) (fopp y) (or_intror eq_refl) (eq_sym (emul_m1 x y)) first_m dv a0 Hd (eq_sym A0)) as (p & E1 & E2).
      rewrite E1. cbn [get]. destruct p as [px py]. cbn [fst snd] in *. rewrite E1, E2. reflexivity. }
    destruct (emul 3 P) as [a1|] eqn:A1; [|exfalso; apply mul_none in A1; revert A1; apply ndiv; unfold n; lia].
    rewrite E. apply (inc_loop_honest dv Hd 252 1 a1); [lia|reflexivity|].
    change (257 - Z.of_nat 1) with 256. rewrite acoef_256. symmetry. exact A1.
  Qed.

  Lemma acoef4_some : exists a, emul (acoef 4) P = Some a.
  Proof.
    destruct (emul (acoef 4) P) eqn:E; [eauto|]. exfalso. apply mul_none in E. revert E. apply ndiv.
    pose proof (acoef_bounds 4 ltac:(lia)) as B. change (2 ^ (256 - 4)) with (2 ^ 252) in B. unfold n. lia.
  Qed.

  Theorem mul_honest dv wk s : division dv -> k_tmpl wk s = Some kb ->
    secp_mul (h_mul_k dv wk) s x y = Some (enc (emul V P)).
  Proof.
    intros Hd HK. destruct (pre_honest dv Hd) as (a0 & E0 & E1). destruct acoef4_some as [a1 A1].
    unfold secp_mul, h_mul_k. cbv zeta. rewrite E0. cbn [get]. rewrite E1, A1. cbn [get ma_k ma_acc0 ma_inc ma_comp ma_out].
    rewrite HK, E0, h_inc_length, h_comp_length. cbn [Nat.eqb andb]. rewrite E1, A1.
    rewrite comp_loop_honest by (try exact Hd; rewrite A1; reflexivity). cbn [get].
    pose proof (cadd_honest dv _ _ _ (_, _) Hd eq_refl last_enc tail_o) as E. rewrite acoef_last in E. exact E.
  Qed.

  (** for the scalar [kfree] the last addition doubles -P and its slope is free *)
  Theorem mul_free (dv : Fp -> Fp -> Fp) wk s l : division dv -> k = kfree -> k_tmpl wk s = Some kb ->
    exists w, secp_mul w s x y = Some (free_double x (fopp y) l).
  Proof.
    intros Hd Hf HK. destruct (pre_honest dv Hd) as (a0 & E0 & E1). destruct acoef4_some as [a1 A1].
    assert (T0 : Z.testbit k 0 = false) by (rewrite Hf; reflexivity).
    assert (AL : emul (acoef 1) P = Some (x, fopp y)).
    { pose proof acoef_last as L. rewrite T0 in L. rewrite <- emul_m1. apply mul_eq. exists 2. unfold V in L. rewrite Hf in L. unfold kfree in L. lia. }
    destruct (add_complete_free secp secp_no0 dv x (fopp y) l Hd) as [wo Ho]; [exact (on_opp secp _ HP)|].
    exists (MkMadv wk (h_double dv x y) (h_inc dv kb x y 0 253 a0) (h_comp dv kb x y 0 3 a1) wo).
    unfold secp_mul. cbn [ma_k ma_acc0 ma_inc ma_comp ma_out].
    rewrite HK, E0, h_inc_length, h_comp_length. cbn [Nat.eqb andb]. rewrite E1, A1.
    rewrite comp_loop_honest by (try exact Hd; rewrite A1; reflexivity). rewrite AL. cbn [enc fst snd].
    pose proof last_enc as LE. rewrite T0, emul_m1 in LE. cbn [enc] in LE. apply pair_equal_spec in LE. destruct LE as [-> ->]. exact Ho.
  Qed.
End Mul.
