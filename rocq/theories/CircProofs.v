From Coq Require Import ZArith List Bool Arith Lia Field Ring.
From Verif Require Import Base Primes Field Zq CurveSpec CurveAlg CurveProofs Secp SecpOrder CircModel CircSpec.
Import ListNotations.
Local Open Scope fld_scope.

Section Gen.
  Context {K : Fld}.
  Add Field Kcp : (fth K).
  Variable C : Curve K.
  Notation on P := (on_curve C P = true).

  Lemma constrain_inv {A} (a b : K) (f : option A) r : (constrain a === b; f) = Some r -> a = b /\ f = Some r.
  Proof. destruct (feqb_spec K a b); [tauto|discriminate]. Qed.
  Lemma constrain_ok {A} (a b : K) (f : option A) : a = b -> (constrain a === b; f) = f.
  Proof. intros ->. rewrite feqb_refl. reflexivity. Qed.

  Definition b2k (b : bool) : K := if b then 1 else 0.

  Lemma is_zero_sound inv x o : is_zero inv x = Some o -> o = b2k (feqb x 0).
  Proof.
    unfold is_zero. intro H. apply constrain_inv in H. destruct H as [H E]. injection E as <-. unfold b2k.
    destruct (feqb_spec K x 0) as [->|N]; [ring|]. apply fmul_eq_0 in H. destruct H; [contradiction|assumption].
  Qed.
  Lemma is_equal_sound inv a b o : is_equal inv a b = Some o -> o = b2k (feqb a b).
  Proof.
    unfold is_equal. intro H. apply is_zero_sound in H. rewrite H. f_equal.
    destruct (feqb_spec K (b - a) 0) as [E|E], (feqb_spec K a b) as [F|F]; try reflexivity; exfalso.
    - apply F. symmetry. apply fsub_eq_0. exact E.
    - apply E. rewrite F. ring.
  Qed.

  Section Honest.
    Variable dv : K -> K -> K.
    Hypothesis Hdv : division dv.
    Lemma h_isz_ok x : h_isz dv x = b2k (feqb x 0).
    Proof.
      unfold h_isz, h_inv, b2k. destruct (feqb_spec K x 0) as [->|N]; [ring|].
      transitivity (1 - dv 1 x * x); [ring|]. rewrite (Hdv 1 x N). ring.
    Qed.
    Lemma h_is_zero x : is_zero (h_inv dv x) x = Some (h_isz dv x).
    Proof.
      unfold is_zero. fold (h_isz dv x). rewrite constrain_ok; [reflexivity|]. rewrite h_isz_ok. unfold b2k.
      destruct (feqb_spec K x 0) as [->|N]; ring.
    Qed.
  End Honest.

  (** ** AddIncomplete and Double *)
  Lemma add_incomplete_sound (l x1 y1 x2 y2 : K) o : x1 <> x2 -> add_incomplete l x1 y1 x2 y2 = Some o ->
    eadd (Some (x1, y1)) (Some (x2, y2)) = Some o.
  Proof.
    intros N H. unfold add_incomplete in H. apply constrain_inv in H. destruct H as [H E]. injection E as <-.
    rewrite add_ch by exact N. unfold ch, chord, cx, cy.
    assert (D : x2 - x1 <> 0) by (intro Z0; apply N; symmetry; apply fsub_eq_0; exact Z0).
    assert (L : sl K fsub fdiv x1 y1 x2 y2 = l).
    { unfold sl. apply (fmul_cancel_l K _ _ _ D). transitivity (- (y1 - y2)); [field; exact D|]. rewrite <- H. ring. }
    rewrite L. reflexivity.
  Qed.
  Lemma add_incomplete_complete dv (x1 y1 x2 y2 : K) : division dv -> x1 <> x2 ->
    add_incomplete (h_add_incomplete dv x1 y1 x2 y2) x1 y1 x2 y2 = eadd (Some (x1, y1)) (Some (x2, y2)).
  Proof.
    intros Hd N. destruct (add_incomplete _ x1 y1 x2 y2) as [o|] eqn:E.
    - symmetry. apply (add_incomplete_sound _ _ _ _ _ _ N E).
    - exfalso. unfold add_incomplete, h_add_incomplete in E. rewrite constrain_ok in E; [discriminate|].
      rewrite (Rmul_comm (F_R (fth K))). apply Hd. intro Z0. apply N. apply fsub_eq_0. exact Z0.
  Qed.
  Lemma cst_nz (y : K) : y <> 0 -> cst2 * y <> (0 : K).
  Proof. intro Y. apply fmul_neq_0; [exact (cchar K C)|exact Y]. Qed.
  Lemma double_sound (l x y : K) o : y <> 0 -> double l x y = Some o -> eadd (Some (x, y)) (Some (x, y)) = Some o.
  Proof.
    intros Y H. unfold double in H. apply constrain_inv in H. destruct H as [H E]. injection E as <-.
    rewrite (add_ta C) by exact Y. unfold ta, tang, cx, cy.
    assert (L : tl K f1 fadd fmul fdiv x y = l).
    { unfold tl. apply (fmul_cancel_l K _ _ _ (cst_nz y Y)). transitivity (cst3 * (x * x)).
      - unfold cst2, cst3. assert (T := cst_nz y Y). unfold cst2 in T. set (d := (1 + 1) * y) in *. field. exact T.
      - rewrite <- H. ring. }
    rewrite L. unfold cst2. f_equal. f_equal; ring.
  Qed.
  Lemma double_complete dv (x y : K) : division dv -> y <> 0 ->
    double (h_double dv x y) x y = eadd (Some (x, y)) (Some (x, y)).
  Proof.
    intros Hd Y. destruct (double _ x y) as [o|] eqn:E.
    - symmetry. apply (double_sound _ _ _ _ Y E).
    - exfalso. unfold double, h_double in E. rewrite constrain_ok in E; [discriminate|].
      rewrite <- (Rmul_assoc (F_R (fth K))). apply Hd. apply cst_nz. exact Y.
  Qed.

  (** ** AddComplete *)
  Hypothesis no0 : forall y : K, y * y <> cb C.

  Lemma on_x0 (x y : K) : on (Some (x, y)) -> x <> 0.
  Proof. intros H ->. apply onE in H. apply (no0 y). rewrite H. ring. Qed.
  Lemma enc_x0 P : on P -> feqb (fst (enc P)) 0 = match P with None => true | _ => false end.
  Proof.
    destruct P as [[x y]|]; cbn [enc fst]; intro H; [|apply feqb_refl].
    destruct (feqb_spec K x 0) as [E|E]; [|reflexivity]. exfalso. exact (on_x0 _ _ H E).
  Qed.

  Definition bad (P Q : option (K * K)) : bool :=
    negb (feqb (fst (enc P)) (fst (enc Q))) && feqb (snd (enc P) + snd (enc Q)) 1.
  Lemma bad_iff P Q : bad P Q = true <-> degenerate P Q.
  Proof.
    unfold bad, degenerate. rewrite andb_true_iff, negb_true_iff, feqb_true.
    destruct (feqb_spec K (fst (enc P)) (fst (enc Q))); split; intros [? ?]; split; try congruence.
  Qed.

  (** the outputs of the zero tests *)
  Lemma isz_prod p q : feqb ((1 - b2k p) * (1 - b2k q)) 0 = orb p q.
  Proof.
    unfold b2k. destruct p, q; cbn [orb]; try (apply feqb_true; ring).
    destruct (feqb_spec K ((1 - 0) * (1 - 0)) 0) as [E|]; [|reflexivity].
    exfalso. apply (f1_neq_0 K). rewrite <- E. ring.
  Qed.
  Lemma zeroize_eq e s : feqb (b2k e) (1 - s) = if e then feqb s 0 else feqb s 1.
  Proof.
    unfold b2k. destruct e; match goal with |- feqb ?a ?b = feqb ?c ?d => destruct (feqb_spec K a b) as [E|E], (feqb_spec K c d) as [F|F] end; try reflexivity; exfalso.
    - apply F. transitivity (1 - (1 - s)); [ring|rewrite <- E; ring].
    - apply E. rewrite F. ring.
    - apply F. transitivity (1 - (1 - s)); [ring|rewrite <- E; ring].
    - apply E. rewrite F. ring.
  Qed.

  (** what the constraints of AddComplete leave possible when P = Q *)
  Definition free_double (x y l : K) : K * K := let ox := l * l - cst2 * x in (ox, l * (x - ox) - y).

  Lemma add_complete_sound w P Q o : on P -> on Q ->
    add_complete w (fst (enc P)) (snd (enc P)) (fst (enc Q)) (snd (enc Q)) = Some o ->
    (P = Q /\ exists x y l, P = Some (x, y) /\ o = free_double x y l) \/
    ((P <> Q \/ P = None) /\ o = if bad P Q then (0, 0) else enc (eadd P Q)).
  Proof.
    intros HP HQ H. unfold add_complete in H.
    destruct (is_equal (ac_isXEqual w) _ _) as [e|] eqn:E1; [|discriminate]. apply is_equal_sound in E1.
    destruct (is_zero (ac_isXpZero w) _) as [zp|] eqn:E2; [|discriminate]. apply is_zero_sound in E2. rewrite (enc_x0 P HP) in E2.
    destruct (is_zero (ac_isXqZero w) _) as [zq|] eqn:E3; [|discriminate]. apply is_zero_sound in E3. rewrite (enc_x0 Q HQ) in E3.
    destruct (is_zero (ac_isXEitherZero w) _) as [ze|] eqn:E4; [|discriminate]. apply is_zero_sound in E4. rewrite E2, E3, isz_prod in E4.
    apply constrain_inv in H. destruct H as [HA H]. apply constrain_inv in H. destruct H as [HB H].
    destruct (is_equal (ac_zeroizeA w) _ _) as [z|] eqn:E5; [|discriminate]. apply is_equal_sound in E5. rewrite E1, zeroize_eq in E5.
    injection H as <-. unfold bad, or_gate, and_gate, b2k in *.
    destruct P as [[x1 y1]|], Q as [[x2 y2]|]; cbn [enc fst snd orb] in *.
    - (* both affine *)
      subst zp zq ze. destruct (feqb_spec K x1 x2) as [<-|N]; cbn [negb andb] in *.
      + (* same x *)
        destruct (same_x C _ _ _ HP HQ) as [-> | ->].
        * (* doubling *)
          left. split; [reflexivity|]. exists x1, y1, (ac_lambdaB w + ac_lambdaA w). split; [reflexivity|].
          pose proof (on_nz C _ _ HP) as Y.
          assert (Z0 : feqb (y1 + y1) 0 = false).
          { destruct (feqb_spec K (y1 + y1) 0) as [T|]; [|reflexivity]. exfalso. apply (cst_nz _ Y). unfold cst2. rewrite <- T. ring. }
          rewrite Z0 in E5. subst e z. unfold free_double, cst2. cbv zeta. f_equal; ring.
        * right. split.
          { left. intro E. injection E as E. apply (on_nz C _ _ HP). apply (fmul_cancel_l K _ _ _ (cchar K C)). transitivity (y1 + y1); [ring|]. rewrite E at 1. ring. }
          rewrite add_op. cbn [enc].
          assert (Z0 : feqb (y1 + - y1) 0 = true) by (apply feqb_true; ring). rewrite Z0 in E5. subst z e. f_equal; ring.
      + (* distinct x *)
        right. split; [left; congruence|]. subst e.
        destruct (feqb (y1 + y2) 1); subst z; [f_equal; ring|].
        rewrite add_ch by exact N. cbn [enc]. unfold ch, chord, cx, cy.
        assert (D : x2 - x1 <> 0) by (intro Z0; apply N; symmetry; apply fsub_eq_0; exact Z0).
        assert (L : sl K fsub fdiv x1 y1 x2 y2 = ac_lambdaA w).
        { unfold sl. apply (fmul_cancel_l K _ _ _ D). rewrite HA. field. exact D. }
        rewrite L. f_equal; ring.
    - (* Q = O *)
      right. split; [left; discriminate|]. subst zp zq ze. pose proof (on_x0 _ _ HP) as X.
      destruct (feqb_spec K x1 0) as [E|_]; [contradiction|]. cbn [negb andb] in *. subst e.
      rewrite add_0_r. cbn [enc]. destruct (feqb (y1 + 0) 1); subst z; f_equal; ring.
    - (* P = O *)
      right. split; [left; discriminate|]. subst zp zq ze. pose proof (on_x0 _ _ HQ) as X.
      destruct (feqb_spec K 0 x2) as [E|_]; [congruence|]. cbn [negb andb] in *. subst e.
      rewrite add_0_l. cbn [enc]. destruct (feqb (0 + y2) 1); subst z; f_equal; ring.
    - right. split; [right; reflexivity|]. subst zp zq ze. rewrite feqb_refl in *. cbn [negb andb eadd enc].
      assert (Z0 : feqb ((0 : K) + 0) 0 = true) by (apply feqb_true; ring). rewrite Z0 in E5. subst z e. f_equal; ring.
  Qed.

  Lemma zeroA_nz (y : K) : y <> 0 -> feqb (y + y) 0 = false.
  Proof. intro Y. destruct (feqb_spec K (y + y) 0) as [T|]; [|reflexivity]. exfalso. apply (cst_nz _ Y). unfold cst2. rewrite <- T. ring. Qed.

  (** the witness generator is accepted on every pair of points *)
  Lemma add_complete_complete dv P Q : division dv -> on P -> on Q ->
    add_complete (h_add_complete dv (fst (enc P)) (snd (enc P)) (fst (enc Q)) (snd (enc Q)))
      (fst (enc P)) (snd (enc P)) (fst (enc Q)) (snd (enc Q)) = Some (if bad P Q then (0, 0) else enc (eadd P Q)).
  Proof.
    intros Hd HP HQ. pose proof (add_complete_sound (h_add_complete dv (fst (enc P)) (snd (enc P)) (fst (enc Q)) (snd (enc Q))) P Q) as S.
    destruct (add_complete _ (fst (enc P)) (snd (enc P)) (fst (enc Q)) (snd (enc Q))) as [o|] eqn:E.
    - destruct (S o HP HQ eq_refl) as [(-> & x & y & l & -> & El)|[_ ->]]; [|reflexivity].
      (* doubling: the honest slope *)
      pose proof (on_nz C _ _ HP) as Y. f_equal. unfold bad. cbn [enc fst snd]. rewrite feqb_refl. cbn [negb andb].
      clear S El. unfold add_complete, h_add_complete, is_equal in E. cbn [ac_isXEqual ac_isXpZero ac_isXqZero ac_isXEitherZero ac_lambdaA ac_lambdaB ac_zeroizeA enc fst snd] in E.
      rewrite !(h_is_zero dv Hd), !(h_isz_ok dv Hd) in E.
      replace (feqb (x - x) 0) with true in E by (symmetry; apply feqb_true; ring).
      replace (feqb x 0) with false in E by (symmetry; exact (enc_x0 _ HP)). rewrite isz_prod in E. cbn [orb b2k] in E.
      apply constrain_inv in E. destruct E as [_ E]. apply constrain_inv in E. destruct E as [HB E].
      replace (feqb (1 - (y + y) - 1) 0) with false in E.
      + injection E as <-. assert (DD : double (dv (cst3 * (x * x)) (cst2 * y)) x y = Some (free_double x y (dv (cst3 * (x * x)) (cst2 * y)))).
        { unfold double. rewrite constrain_ok by exact HB. reflexivity. }
        rewrite (double_sound _ _ _ _ Y DD). cbn [enc]. unfold free_double, or_gate, and_gate, b2k, cst2. cbv zeta. f_equal; ring.
      + symmetry. destruct (feqb_spec K (1 - (y + y) - 1) 0) as [T|]; [|reflexivity]. exfalso.
        apply (cst_nz _ Y). unfold cst2. transitivity (- (1 - (y + y) - 1)); [ring|rewrite T; ring].
    - exfalso. clear S. unfold add_complete, h_add_complete, is_equal in E.
      cbn [ac_isXEqual ac_isXpZero ac_isXqZero ac_isXEitherZero ac_lambdaA ac_lambdaB ac_zeroizeA] in E.
      rewrite !(h_is_zero dv Hd) in E.
      rewrite constrain_ok in E.
      + rewrite constrain_ok in E; [discriminate|].
        destruct P as [[x y]|]; cbn [enc fst snd].
        * rewrite <- (Rmul_assoc (F_R (fth K))). apply Hd. apply cst_nz. exact (on_nz C _ _ HP).
        * ring.
      + set (dx := fst (enc Q) - fst (enc P)). rewrite (h_isz_ok dv Hd). unfold b2k.
        destruct (feqb_spec K dx 0) as [->|Nd]; [ring|].
        transitivity (dv (snd (enc Q) - snd (enc P)) dx * dx * (1 - 0)); [ring|]. rewrite (Hd _ _ Nd). ring.
  Qed.

  (** in a doubling every slope is accepted *)
  Lemma add_complete_free (dv : K -> K -> K) (x y l : K) : division dv -> on (Some (x, y)) ->
    exists w, add_complete w x y x y = Some (free_double x y l).
  Proof.
    intros Hd HP. pose proof (on_nz C _ _ HP) as Y. set (h := h_add_complete dv x y x y).
    exists (MkAc (ac_isXEqual h) (ac_isXpZero h) (ac_isXqZero h) (ac_isXEitherZero h) (l - ac_lambdaB h) (ac_lambdaB h) (ac_zeroizeA h)).
    unfold add_complete, is_equal. subst h. unfold h_add_complete. cbn [ac_isXEqual ac_isXpZero ac_isXqZero ac_isXEitherZero ac_lambdaA ac_lambdaB ac_zeroizeA].
    rewrite !(h_is_zero dv Hd), !(h_isz_ok dv Hd).
    replace (feqb (x - x) 0) with true by (symmetry; apply feqb_true; ring).
    replace (feqb x 0) with false by (symmetry; exact (enc_x0 _ HP)). rewrite isz_prod. cbn [orb b2k].
    rewrite constrain_ok by ring. rewrite constrain_ok.
    - replace (feqb (1 - (y + y) - 1) 0) with false.
      + unfold free_double, or_gate, and_gate, b2k, cst2. cbv zeta. f_equal. f_equal; ring.
      + symmetry. destruct (feqb_spec K (1 - (y + y) - 1) 0) as [T|]; [|reflexivity]. exfalso.
        apply (cst_nz _ Y). unfold cst2. transitivity (- (1 - (y + y) - 1)); [ring|rewrite T; ring].
    - rewrite <- (Rmul_assoc (F_R (fth K))). apply Hd. apply cst_nz. exact Y.
  Qed.
End Gen.
