(** The curve of [CurveSpec.v] is an abelian group. *)
From Coq Require Import ZArith List Bool Field Ring Eqdep_dec Lia.
From Verif Require Import Field CurveSpec CurveAlg.
Local Open Scope fld_scope.

Section Group.
  Context {K : Fld}.
  Variable C : Curve K.
  Add Field Kec : (fth K).
  Notation pt := (option (K * K)).
  Notation on P := (on_curve C P = true).
  Notation "P +++ Q" := (eadd P Q) (at level 50, left associativity).

  Lemma fdec (x y : K) : {x = y} + {x <> y}.
  Proof. destruct (feqb_spec K x y); [left|right]; assumption. Qed.

  Definition ch (x1 y1 x2 y2 : K) := chord K fmul fsub fdiv x1 y1 x2 y2.
  Definition ta (x y : K) := tang K f1 fadd fmul fsub fdiv x y.

  Lemma add_ch x1 y1 x2 y2 : x1 <> x2 -> Some (x1, y1) +++ Some (x2, y2) = Some (ch x1 y1 x2 y2).
  Proof. intro N. cbn. destruct (feqb_spec K x1 x2); [contradiction|]. reflexivity. Qed.
  Lemma add_ta x y : y <> 0 -> Some (x, y) +++ Some (x, y) = Some (ta x y).
  Proof.
    intro N. cbn. rewrite feqb_refl. destruct (feqb_spec K y (- y)) as [E|_]; [|reflexivity].
    exfalso. assert (T : (1 + 1) * y = 0) by (transitivity (y + y); [ring|rewrite E at 1; ring]).
    apply fmul_eq_0 in T. destruct T; [exact (cchar K C H)|contradiction].
  Qed.
  Lemma add_op (x y : K) : Some (x, y) +++ Some (x, - y) = None.
  Proof. cbn. rewrite !feqb_refl. reflexivity. Qed.

  Lemma onE x y : on (Some (x, y)) <-> y * y = x * x * x + cb C.
  Proof. cbn. apply feqb_true. Qed.
  Lemma on_nz x y : on (Some (x, y)) -> y <> 0.
  Proof. intros H Z. apply onE in H. apply (cno2 K C x). rewrite <- H, Z. ring. Qed.
  Lemma opp_nz (y : K) : y <> 0 -> - y <> 0.
  Proof. intros H Z. apply H. transitivity (- - y); [ring|rewrite Z; ring]. Qed.
  Lemma oppopp (y : K) : - - y = y. Proof. ring. Qed.

  (** two points with the same x are equal or opposite *)
  Lemma same_x x y1 y2 : on (Some (x, y1)) -> on (Some (x, y2)) -> y2 = y1 \/ y2 = - y1.
  Proof.
    intros H1 H2. apply onE in H1. apply onE in H2.
    assert (Z : (y2 - y1) * (y2 - - y1) = 0) by (transitivity (y2 * y2 - y1 * y1); [ring|rewrite H1, H2; ring]).
    apply fmul_eq_0 in Z. destruct Z as [Z|Z]; apply (proj1 (fsub_eq_0 K _ _)) in Z; tauto.
  Qed.

  (** the possible shapes of a sum *)
  Inductive shape : pt -> pt -> Prop :=
  | ShL Q : shape None Q
  | ShR P : shape P None
  | ShO x y : shape (Some (x, y)) (Some (x, - y))
  | ShT x y : shape (Some (x, y)) (Some (x, y))
  | ShC x1 y1 x2 y2 : x1 <> x2 -> shape (Some (x1, y1)) (Some (x2, y2)).

  Lemma shape_all P Q : on P -> on Q -> shape P Q.
  Proof.
    destruct P as [[x1 y1]|]; [|constructor]. destruct Q as [[x2 y2]|]; [|constructor]. intros H1 H2.
    destruct (fdec x1 x2) as [<-|N]; [|constructor; exact N].
    destruct (same_x _ _ _ H1 H2) as [->| ->]; constructor.
  Qed.

  Lemma on_opp P : on P -> on (eopp P).
  Proof. destruct P as [[x y]|]; [|reflexivity]. cbn [eopp]. intro H. apply onE. apply onE in H. rewrite <- H. ring. Qed.
  Lemma opp_opp (P : pt) : eopp (eopp P) = P.
  Proof. destruct P as [[x y]|]; [|reflexivity]. cbn. rewrite oppopp. reflexivity. Qed.

  Lemma on_add P Q : on P -> on Q -> on (P +++ Q).
  Proof.
    intros H1 H2. destruct (shape_all P Q H1 H2) as [Q|P|x y|x y|x1 y1 x2 y2 N].
    - exact H2.
    - destruct P as [[? ?]|]; exact H1.
    - rewrite add_op. reflexivity.
    - assert (Y := on_nz _ _ H1). rewrite (add_ta _ _ Y). apply onE in H1.
      pose proof (tang_on K _ _ _ _ _ _ _ _ (fth K) (cb C) (cchar K C) x y H1 Y) as T.
      unfold ta. destruct (tang _ _ _ _ _ _ x y). apply onE. exact T.
    - rewrite (add_ch _ _ _ _ N). apply onE in H1. apply onE in H2.
      pose proof (chord_on K _ _ _ _ _ _ _ _ (fth K) (cb C) x1 y1 x2 y2 H1 H2 N) as T.
      unfold ch. destruct (chord _ _ _ _ x1 y1 x2 y2). apply onE. exact T.
  Qed.

  Lemma add_0_r (P : pt) : P +++ None = P. Proof. destruct P as [[? ?]|]; reflexivity. Qed.
  Lemma add_0_l (P : pt) : None +++ P = P. Proof. reflexivity. Qed.
  Lemma add_opp (P : pt) : P +++ eopp P = None.
  Proof. destruct P as [[x y]|]; [|reflexivity]. apply add_op. Qed.

  Lemma add_comm P Q : on P -> on Q -> P +++ Q = Q +++ P.
  Proof.
    intros H1 H2. destruct (shape_all P Q H1 H2) as [Q|P|x y|x y|x1 y1 x2 y2 N].
    - rewrite add_0_r. reflexivity.
    - rewrite add_0_r. reflexivity.
    - rewrite add_op. rewrite <- (oppopp y) at 2. rewrite add_op. reflexivity.
    - reflexivity.
    - rewrite add_ch by exact N. rewrite add_ch by congruence. f_equal. apply (chord_comm K _ _ _ _ _ _ _ _ (fth K)). exact N.
  Qed.

  Lemma opp_add P Q : on P -> on Q -> eopp (P +++ Q) = eopp P +++ eopp Q.
  Proof.
    intros H1 H2. destruct (shape_all P Q H1 H2) as [Q|P|x y|x y|x1 y1 x2 y2 N].
    - reflexivity.
    - rewrite !add_0_r. reflexivity.
    - rewrite add_op. symmetry. apply add_op.
    - assert (Y := on_nz _ _ H1). cbn [eopp]. rewrite (add_ta _ _ Y), (add_ta _ _ (opp_nz _ Y)). unfold ta, tang, tl, cx, cy. cbn.
      pose proof (cchar K C). f_equal. f_equal; field; repeat split; try exact Y; try exact H; try exact (opp_nz _ Y).
    - cbn [eopp]. rewrite !add_ch by exact N. unfold ch, chord, sl, cx, cy. cbn.
      assert (x2 - x1 <> 0) by (intro Z; apply (proj1 (fsub_eq_0 K _ _)) in Z; congruence).
      f_equal. f_equal; field; assumption.
  Qed.

  (** (P + Q) - Q = P *)
  Lemma add_sub P Q : on P -> on Q -> (P +++ Q) +++ eopp Q = P.
  Proof.
    intros H1 H2. destruct (shape_all P Q H1 H2) as [Q|P|x y|x y|x1 y1 x2 y2 N].
    - rewrite add_0_l. apply add_opp.
    - cbn [eopp]. rewrite !add_0_r. reflexivity.
    - rewrite add_op. cbn [eopp]. rewrite oppopp. reflexivity.
    - assert (Y := on_nz _ _ H1). pose proof (on_add _ _ H1 H1) as Hs. rewrite (add_ta _ _ Y) in *. cbn [eopp].
      pose proof (cancel_double K _ _ _ _ _ _ _ _ (fth K) fdec (cb C) (cchar K C) x y) as T. unfold ta in *.
      assert (B : fst (tang K f1 fadd fmul fsub fdiv x y) = x -> snd (tang K f1 fadd fmul fsub fdiv x y) = - y).
      { unfold tang, cy. cbn [fst snd]. intros ->. ring. }
      destruct (tang _ _ _ _ _ _ x y) as [xs ys] eqn:E. cbn [fst snd] in B. destruct (fdec xs x) as [->|N].
      + (* 2P = -P *)
        rewrite (B eq_refl) in *.
        rewrite (add_ta _ _ (opp_nz _ Y)). pose proof (opp_add _ _ H1 H1) as O. cbn [eopp] in O.
        rewrite (add_ta _ _ Y), (add_ta _ _ (opp_nz _ Y)) in O. unfold ta in *. rewrite E in O. cbn [eopp] in O.
        rewrite oppopp in O. symmetry. exact O.
      + apply onE in H1. rewrite add_ch by exact N. unfold ch. rewrite (T H1 Y N). reflexivity.
    - assert (Y2 := on_nz _ _ H2). pose proof (on_add _ _ H1 H2) as Hs. rewrite (add_ch _ _ _ _ N) in *. cbn [eopp]. unfold ch in *.
      pose proof (cancel_chord K _ _ _ _ _ _ _ _ (fth K) fdec (cb C) x1 y1 x2 y2) as T.
      pose proof (cancel_tang K _ _ _ _ _ _ _ _ (fth K) (cb C) (cchar K C) x1 y1 x2 y2) as T2.
      apply onE in H1. apply onE in H2. specialize (T H1 H2 N). specialize (T2 H1 H2 N Y2).
      destruct (chord _ _ _ _ x1 y1 x2 y2) as [xs ys]. destruct (fdec xs x2) as [->|M].
      + destruct (T2 eq_refl) as [Ys Tt]. cbn in Ys. subst ys. rewrite (add_ta _ _ (opp_nz _ Y2)). unfold ta. rewrite Tt. reflexivity.
      + rewrite add_ch by exact M. unfold ch. rewrite (T M). reflexivity.
  Qed.

  Lemma sub_add P Q : on P -> on Q -> (P +++ eopp Q) +++ Q = P.
  Proof. intros H1 H2. rewrite <- (opp_opp Q) at 2. apply add_sub; [exact H1|apply on_opp; exact H2]. Qed.
  Lemma add_sub_l P Q : on P -> on Q -> eopp P +++ (P +++ Q) = Q.
  Proof.
    intros H1 H2. rewrite (add_comm (eopp P)); [|apply on_opp; exact H1|apply on_add; assumption].
    rewrite (add_comm P Q H1 H2). apply add_sub; assumption.
  Qed.
  Lemma cancel_r P Q R : on P -> on Q -> on R -> P +++ R = Q +++ R -> P = Q.
  Proof. intros H1 H2 H3 E. rewrite <- (add_sub P R H1 H3), E. apply add_sub; assumption. Qed.
  Lemma cancel_l P Q R : on P -> on Q -> on R -> P +++ Q = P +++ R -> Q = R.
  Proof. intros H1 H2 H3 E. rewrite <- (add_sub_l P Q H1 H2), E. apply add_sub_l; assumption. Qed.
  Lemma self_opp P : on P -> P = eopp P -> P = None.
  Proof.
    destruct P as [[x y]|]; [|reflexivity]. intros H E. exfalso. cbn in E. injection E as E.
    apply on_nz in H. assert (T : (1 + 1) * y = 0) by (transitivity (y + y); [ring|rewrite E at 1; ring]).
    apply fmul_eq_0 in T. destruct T as [T|T]; [exact (cchar K C T)|contradiction].
  Qed.

  Definition assoc (P Q R : pt) := (P +++ Q) +++ R = P +++ (Q +++ R).

  (** associativity when some sum is the neutral element *)
  Lemma assoc_0 P Q R : on P -> on Q -> on R ->
    P = None \/ Q = None \/ R = None \/ Q = eopp P \/ R = eopp Q \/ R = eopp (P +++ Q) \/ P = eopp (Q +++ R) -> assoc P Q R.
  Proof.
    intros H1 H2 H3 D. unfold assoc. destruct D as [->|[->|[->|[->|[->|[->|E]]]]]].
    - reflexivity.
    - rewrite add_0_r. reflexivity.
    - rewrite !add_0_r. reflexivity.
    - rewrite add_opp, add_0_l. symmetry. rewrite <- (opp_opp P) at 1. apply add_sub_l; [apply on_opp; exact H1|exact H3].
    - rewrite add_opp, add_0_r. apply add_sub; assumption.
    - rewrite add_opp. rewrite (opp_add _ _ H1 H2). rewrite (add_comm (eopp P)) by (apply on_opp; assumption).
      rewrite <- (opp_opp Q) at 1. rewrite add_sub_l by (repeat apply on_opp; assumption). rewrite add_opp. reflexivity.
    - assert (Hq := on_add _ _ H2 H3). rewrite E. rewrite (add_comm _ (Q +++ R)) by (try apply on_opp; assumption).
      rewrite add_opp. rewrite (opp_add _ _ H2 H3). rewrite (add_comm (eopp Q)) by (apply on_opp; assumption).
      rewrite sub_add by (try apply on_opp; assumption). rewrite add_comm by (try apply on_opp; assumption). apply add_opp.
  Qed.

  Lemma not_opp x y x' y' : on (Some (x, y)) -> on (Some (x', y')) -> Some (x', y') <> eopp (Some (x, y)) ->
    x <> x' \/ Some (x', y') = Some (x, y).
  Proof.
    intros H1 H2 N. destruct (fdec x x') as [<-|D]; [right|left; exact D].
    destruct (same_x _ _ _ H1 H2) as [->| ->]; [reflexivity|]. exfalso. apply N. reflexivity.
  Qed.

  Lemma some_or P : P = None \/ exists x y : K, P = Some (x, y).
  Proof. destruct P as [[x y]|]; [right; exists x, y; reflexivity|left; reflexivity]. Qed.

  (** (P - Q) + (P + Q) = 2P *)
  Lemma add_diff P Q : on P -> on Q -> P <> None -> Q <> None -> P <> Q -> P <> eopp Q ->
    (P +++ eopp Q) +++ (P +++ Q) = P +++ P.
  Proof.
    destruct P as [[x y]|]; [|congruence]. destruct Q as [[u v]|]; [|congruence]. intros H1 H2 _ _ N1 N2.
    assert (N : x <> u).
    { intros <-. destruct (same_x _ _ _ H1 H2) as [->| ->]; [apply N1; reflexivity|]. apply N2. cbn. rewrite oppopp. reflexivity. }
    assert (Y := on_nz _ _ H1). assert (V := on_nz _ _ H2). cbn [eopp].
    rewrite (add_ch x y u (- v) N), (add_ch x y u v N), (add_ta _ _ Y). unfold ch, ta. apply onE in H1. apply onE in H2.
    pose proof (sum_diff K _ _ _ _ _ _ _ _ (fth K) fdec (cb C) (cchar K C) x y u v H1 H2 N Y V) as T.
    destruct (chord _ _ _ _ x y u (- v)) as [xd yd]. destruct (chord _ _ _ _ x y u v) as [xs ys]. destruct T as [D T].
    rewrite (add_ch _ _ _ _ D). unfold ch. rewrite T. reflexivity.
  Qed.

  (** associativity when one of the outer sums is a doubling *)
  Lemma assoc_d P Q : on P -> on Q -> assoc P Q (P +++ Q).
  Proof.
    intros H1 H2. assert (Hs := on_add _ _ H1 H2).
    destruct (some_or P) as [->|Np]; [apply assoc_0; auto|].
    destruct (some_or Q) as [->|Nq]; [apply assoc_0; auto|].
    destruct (some_or (P +++ Q)) as [Z|Ns]; [apply assoc_0; auto|].
    assert (nP : P <> None) by (destruct Np as (? & ? & ->); discriminate).
    assert (nQ : Q <> None) by (destruct Nq as (? & ? & ->); discriminate).
    assert (nS : P +++ Q <> None) by (destruct Ns as (? & ? & ->); discriminate).
    unfold assoc. set (S := P +++ Q) in *.
    assert (Ep : P = S +++ eopp Q) by (symmetry; apply add_sub; assumption).
    assert (Dec : S = eopp Q \/ S <> eopp Q).
    { destruct Ns as (xs & ys & ->). destruct (eopp Q) as [[u v]|]; [|right; discriminate].
      destruct (fdec xs u) as [->|]; [|right; congruence]. destruct (fdec ys v) as [->|]; [left; reflexivity|right; congruence]. }
    destruct Dec as [Z|N2]; [apply assoc_0; auto 8|].
    rewrite (add_comm Q S H2 Hs). transitivity ((S +++ eopp Q) +++ (S +++ Q)); [|rewrite <- Ep; reflexivity].
    symmetry. apply add_diff; try assumption.
    intro E. apply nP. apply (cancel_r P None Q H1 eq_refl H2). rewrite add_0_l. exact E.
  Qed.

  Lemma pt_dec (P Q : pt) : {P = Q} + {P <> Q}.
  Proof.
    destruct P as [[x y]|], Q as [[u v]|]; try (right; discriminate); [|left; reflexivity].
    destruct (fdec x u) as [->|]; [|right; congruence]. destruct (fdec y v) as [->|]; [left; reflexivity|right; congruence].
  Qed.

  Lemma assoc_comm P Q R : on P -> on Q -> on R -> assoc R Q P -> assoc P Q R.
  Proof.
    intros H1 H2 H3 A. unfold assoc in *. rewrite (add_comm (P +++ Q)), (add_comm P Q), (add_comm P), (add_comm Q R);
      try assumption; try (apply on_add; assumption). symmetry. exact A.
  Qed.

  Lemma add_assoc P Q R : on P -> on Q -> on R -> (P +++ Q) +++ R = P +++ (Q +++ R).
  Proof.
    intros H1 H2 H3. change (assoc P Q R). assert (Hs := on_add _ _ H1 H2). assert (Ht := on_add _ _ H2 H3).
    destruct (pt_dec P None) as [Z|nP]; [apply assoc_0; auto|]. destruct (pt_dec Q None) as [Z|nQ]; [apply assoc_0; auto|].
    destruct (pt_dec R None) as [Z|nR]; [apply assoc_0; auto|]. destruct (pt_dec Q (eopp P)) as [Z|o1]; [apply assoc_0; auto|].
    destruct (pt_dec R (eopp Q)) as [Z|o2]; [apply assoc_0; auto 8|].
    destruct (pt_dec R (eopp (P +++ Q))) as [Z|o3]; [apply assoc_0; auto 8|].
    destruct (pt_dec P (eopp (Q +++ R))) as [Z|o4]; [apply assoc_0; auto 9|].
    destruct (pt_dec R (P +++ Q)) as [->|d1]; [apply assoc_d; assumption|].
    destruct (pt_dec P (Q +++ R)) as [->|d2].
    { apply assoc_comm; try assumption. rewrite (add_comm Q R) by assumption. apply assoc_d; assumption. }
    destruct P as [[x1 y1]|]; [|congruence]. destruct Q as [[x2 y2]|]; [|congruence]. destruct R as [[x3 y3]|]; [|congruence].
    assert (Y1 := on_nz _ _ H1). assert (Y2 := on_nz _ _ H2). assert (Y3 := on_nz _ _ H3).
    assert (G3 : forall x y, Some (x1, y1) +++ Some (x2, y2) = Some (x, y) -> x <> x3).
    { intros x y E. rewrite E in *. destruct (not_opp _ _ _ _ Hs H3 o3) as [N|N]; [exact N|congruence]. }
    assert (G4 : forall x y, Some (x2, y2) +++ Some (x3, y3) = Some (x, y) -> x1 <> x).
    { intros x y E. rewrite E in *. destruct (not_opp _ _ _ _ Ht H1 o4) as [N|N]; [congruence|congruence]. }
    destruct (not_opp _ _ _ _ H1 H2 o1) as [N1|E1]; destruct (not_opp _ _ _ _ H2 H3 o2) as [N2|E2].
    - (* all chords *)
      unfold assoc. rewrite (add_ch _ _ _ _ N1), (add_ch _ _ _ _ N2) in *. unfold ch in *. apply onE in H1, H2, H3.
      pose proof (assoc1 K _ _ _ _ _ _ _ _ (fth K) fdec (cb C) x1 y1 x2 y2 x3 y3 H1 H2 H3 N1 N2) as T.
      destruct (chord _ _ _ _ x1 y1 x2 y2) as [xs ys]. destruct (chord _ _ _ _ x2 y2 x3 y3) as [xt yt].
      specialize (G3 _ _ eq_refl). specialize (G4 _ _ eq_refl). rewrite (add_ch _ _ _ _ G3), (add_ch _ _ _ _ G4). unfold ch.
      rewrite (T G3 G4). reflexivity.
    - (* Q = R *)
      apply assoc_comm; try assumption. injection E2 as -> ->. unfold assoc. assert (N1' : x2 <> x1) by congruence.
      rewrite (add_comm (Some (x2, y2)) (Some (x1, y1))) by assumption. rewrite (add_comm (Some (x1, y1)) (Some (x2, y2))) in * by assumption.
      rewrite (add_ch _ _ _ _ N1'), (add_ta _ _ Y2) in *. unfold ch, ta in *. apply onE in H1, H2.
      pose proof (assoc2 K _ _ _ _ _ _ _ _ (fth K) fdec (cb C) (cchar K C) x2 y2 x1 y1 H2 H1 Y2 N1') as T.
      destruct (chord _ _ _ _ x2 y2 x1 y1) as [xs ys]. destruct (tang _ _ _ _ _ _ x2 y2) as [xt yt].
      specialize (G3 _ _ eq_refl). specialize (G4 _ _ eq_refl). rewrite add_ch by congruence. rewrite add_ch by congruence. unfold ch.
      rewrite T by congruence. reflexivity.
    - (* P = Q *)
      injection E1 as -> ->. unfold assoc. rewrite (add_ch _ _ _ _ N2), (add_ta _ _ Y1) in *. unfold ch, ta in *. apply onE in H1, H3.
      pose proof (assoc2 K _ _ _ _ _ _ _ _ (fth K) fdec (cb C) (cchar K C) x1 y1 x3 y3 H1 H3 Y1 N2) as T.
      destruct (chord _ _ _ _ x1 y1 x3 y3) as [xs ys]. destruct (tang _ _ _ _ _ _ x1 y1) as [xt yt].
      specialize (G3 _ _ eq_refl). specialize (G4 _ _ eq_refl). rewrite add_ch by congruence. rewrite add_ch by congruence. unfold ch.
      rewrite T by congruence. reflexivity.
    - (* P = Q = R *)
      injection E1 as -> ->. injection E2 as -> ->. unfold assoc. apply add_comm; assumption.
  Qed.

  (** integer multiples *)
  Lemma add_swap P Q R : on P -> on Q -> on R -> P +++ Q +++ R = P +++ R +++ Q.
  Proof. intros. rewrite !add_assoc by assumption. f_equal. apply add_comm; assumption. Qed.

  Lemma on_emul_pos k P : on P -> on (emul_pos k P).
  Proof. intro H. induction k as [k IH|k IH|]; cbn; repeat apply on_add; assumption. Qed.
  Lemma on_emul k P : on P -> on (emul k P).
  Proof. intro H. destruct k; cbn [emul]; [reflexivity|apply on_emul_pos; exact H|apply on_opp, on_emul_pos; exact H]. Qed.

  Lemma emul_pos_succ k P : on P -> emul_pos (Pos.succ k) P = emul_pos k P +++ P.
  Proof.
    intro H. induction k as [k IH|k IH|]; cbn [Pos.succ emul_pos]; try reflexivity.
    rewrite IH. pose proof (on_emul_pos k P H) as Hk. set (R := emul_pos k P) in *. assert (HR := on_add _ _ Hk Hk).
    assert (HP := on_add _ _ Hk H). rewrite <- (add_assoc (R +++ P) R P) by assumption.
    f_equal. rewrite (add_swap R P R) by assumption. reflexivity.
  Qed.
  Lemma emul_succ k P : on P -> emul (Z.succ k) P = emul k P +++ P.
  Proof.
    intro H. destruct k as [|k|k].
    - reflexivity.
    - rewrite <- Pos2Z.inj_succ. cbn [emul]. apply emul_pos_succ. exact H.
    - destruct (Pos.succ_pred_or k) as [->|E].
      + cbn [emul emul_pos Z.succ Z.add Z.pos_sub]. symmetry. rewrite add_comm by (try apply on_opp; assumption). apply add_opp.
      + rewrite <- E. replace (Z.succ (Z.neg (Pos.succ (Pos.pred k)))) with (Z.neg (Pos.pred k)) by (rewrite Pos2Z.neg_xI || lia).
        cbn [emul]. rewrite emul_pos_succ by exact H. pose proof (on_emul_pos (Pos.pred k) P H) as Hk.
        rewrite opp_add by assumption. rewrite sub_add by (try apply on_opp; assumption). reflexivity.
  Qed.
  Lemma emul_pred k P : on P -> emul (Z.pred k) P = emul k P +++ eopp P.
  Proof.
    intro H. rewrite <- (Z.succ_pred k) at 2. rewrite emul_succ by exact H.
    symmetry. apply add_sub; [apply on_emul; exact H|exact H].
  Qed.
  Lemma emul_add a b P : on P -> emul (a + b) P = emul a P +++ emul b P.
  Proof.
    intro H. pose proof (on_emul a P H) as Ha. revert b. apply Z.peano_ind.
    - rewrite Z.add_0_r. symmetry. apply add_0_r.
    - intros b IH. rewrite Z.add_succ_r, !emul_succ, IH by exact H. apply add_assoc; try assumption. apply on_emul; exact H.
    - intros b IH. rewrite Z.add_pred_r, !emul_pred, IH by exact H. apply add_assoc; try assumption. apply on_emul; exact H. apply on_opp; exact H.
  Qed.
  Lemma emul_opp a P : on P -> emul (- a) P = eopp (emul a P).
  Proof. intro H. destruct a; cbn [Z.opp emul]; try reflexivity. rewrite opp_opp. reflexivity. Qed.
  Lemma emul_sub a b P : on P -> emul (a - b) P = emul a P +++ eopp (emul b P).
  Proof. intro H. unfold Z.sub. rewrite emul_add, emul_opp by exact H. reflexivity. Qed.
  Lemma emul_mul a b P : on P -> emul (a * b) P = emul a (emul b P).
  Proof.
    intro H. pose proof (on_emul b P H) as Hb. revert a. apply Z.peano_ind.
    - reflexivity.
    - intros a IH. rewrite Z.mul_succ_l, emul_add, emul_succ, IH by assumption. reflexivity.
    - intros a IH. rewrite Z.mul_pred_l, emul_sub, emul_pred, IH by assumption. reflexivity.
  Qed.
  Lemma emul_dist a P Q : on P -> on Q -> emul a (P +++ Q) = emul a P +++ emul a Q.
  Proof.
    intros HP HQ. assert (HS := on_add _ _ HP HQ). revert a. apply Z.peano_ind.
    - reflexivity.
    - intros a IH. rewrite !emul_succ, IH by assumption. pose proof (on_emul a P HP). pose proof (on_emul a Q HQ).
      rewrite <- (add_assoc (emul a P +++ emul a Q)) by (try apply on_add; assumption).
      rewrite (add_swap (emul a P) (emul a Q) P) by assumption. rewrite (add_assoc (emul a P +++ P)) by (try apply on_add; assumption). reflexivity.
    - intros a IH. rewrite !emul_pred, IH by assumption. pose proof (on_emul a P HP). pose proof (on_emul a Q HQ).
      pose proof (on_opp P HP). pose proof (on_opp Q HQ). rewrite opp_add by assumption.
      rewrite <- (add_assoc (emul a P +++ emul a Q)) by (try apply on_add; assumption).
      rewrite (add_swap (emul a P) (emul a Q) (eopp P)) by assumption. rewrite (add_assoc (emul a P +++ eopp P)) by (try apply on_add; assumption). reflexivity.
  Qed.
  Lemma emul_0 a : emul a (None : pt) = None.
  Proof. destruct a as [|k|k]; cbn; [reflexivity| |]; (assert (E : emul_pos k (None : pt) = None) by (induction k as [k IH|k IH|]; cbn; rewrite ?IH; reflexivity)); rewrite E; reflexivity. Qed.
  Lemma emul_1 (P : pt) : emul 1 P = P. Proof. reflexivity. Qed.
End Group.
