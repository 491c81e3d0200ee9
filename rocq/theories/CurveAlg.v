(** Algebraic identities behind the group law of [CurveSpec.v]. *)
From Coq Require Import ZArith List Bool Field Ring Eqdep_dec Lia.
From Verif Require Import Field CurveSpec.

Section Algebra.
  (* a field given by its operations rather than by a record: [field] unfolds record projections *)
  Variable K : Type.
  Variables (o i : K) (ad mu su : K -> K -> K) (op : K -> K) (di : K -> K -> K) (iv : K -> K).
  Variable th : field_theory o i ad mu su op di iv (@eq K).
  Variable dec : forall x y : K, {x = y} + {x <> y}.
  Local Notation "0" := o.
  Local Notation "1" := i.
  Local Notation "x + y" := (ad x y).
  Local Notation "x * y" := (mu x y).
  Local Notation "x - y" := (su x y).
  Local Notation "- x" := (op x).
  Local Notation "x / y" := (di x y).
  Add Field Kec : th.
  Variable b : K.
  Local Notation "3" := (1 + 1 + 1).
  Local Notation "2" := (1 + 1).
  Hypothesis two : 2 <> 0.

  Lemma a_eq_0 (x y : K) : x * y = 0 -> x = 0 \/ y = 0.
  Proof.
    intro H. destruct (dec x 0) as [E|E]; [left; exact E|right].
    transitivity (iv x * (x * y)); [field; exact E|rewrite H; ring].
  Qed.
  Lemma a_neq_0 (x y : K) : x <> 0 -> y <> 0 -> x * y <> 0.
  Proof. intros Hx Hy H. apply a_eq_0 in H. tauto. Qed.
  Lemma a_sub_0 (x y : K) : x - y = 0 -> x = y.
  Proof. intro H. transitivity ((x - y) + y); [ring|rewrite H; ring]. Qed.
  Lemma a_cancel (a x y : K) : a <> 0 -> a * x = a * y -> x = y.
  Proof.
    intros Ha H. transitivity (iv a * (a * x)); [field; exact Ha|].
    rewrite H. field. exact Ha.
  Qed.

  Definition cx (l x1 x2 : K) := l * l - x1 - x2.
  Definition cy (l x1 y1 x3 : K) := l * (x1 - x3) - y1.
  Definition sl (x1 y1 x2 y2 : K) := (y2 - y1) / (x2 - x1).
  Definition tl (x1 y1 : K) := (3 * (x1 * x1)) / (2 * y1).
  Definition chord (x1 y1 x2 y2 : K) := let l := sl x1 y1 x2 y2 in let x := cx l x1 x2 in (x, cy l x1 y1 x).
  Definition tang (x1 y1 : K) := let l := tl x1 y1 in let x := cx l x1 x1 in (x, cy l x1 y1 x).

  Ltac dn := repeat split; try assumption.

  Lemma neq_sub (x y : K) : x <> y -> y - x <> 0.
  Proof. intros N H. apply N. symmetry. apply a_sub_0. exact H. Qed.

  Lemma mul3 (x y z : K) : x <> 0 -> y <> 0 -> z <> 0 -> x * y * z <> 0.
  Proof. intros. repeat apply a_neq_0; assumption. Qed.

  (** a denominator [t], equal to [d * d * (u - v)], is nonzero *)
  Lemma den (d u v t : K) : d <> 0 -> u - v <> 0 -> t = d * d * (u - v) -> t <> 0.
  Proof. intros D N -> H. apply a_eq_0 in H. destruct H as [H|H]; [apply a_eq_0 in H; tauto|tauto]. Qed.

  Lemma chord_on x1 y1 x2 y2 : y1 * y1 = x1 * x1 * x1 + b -> y2 * y2 = x2 * x2 * x2 + b -> x1 <> x2 ->
    let '(x, y) := chord x1 y1 x2 y2 in y * y = x * x * x + b.
  Proof.
    intros E1 E2 N. apply neq_sub in N. unfold chord, cx, cy, sl. cbv zeta.
    assert (B : b = y1 * y1 - x1 * x1 * x1) by (rewrite E1; ring). subst b.
    assert (E3 : y2 * y2 = x2 * x2 * x2 + y1 * y1 - x1 * x1 * x1) by (rewrite E2; ring).
    field [E3]. exact N.
  Qed.

  Lemma tang_on x1 y1 : y1 * y1 = x1 * x1 * x1 + b -> y1 <> 0 ->
    let '(x, y) := tang x1 y1 in y * y = x * x * x + b.
  Proof.
    intros E1 N. unfold tang, cx, cy, tl. cbv zeta. field [E1]. tauto.
  Qed.

  Lemma chord_comm x1 y1 x2 y2 : x1 <> x2 -> chord x1 y1 x2 y2 = chord x2 y2 x1 y1.
  Proof.
    intros N. assert (M := neq_sub _ _ N). assert (M' : x1 - x2 <> 0) by (apply neq_sub; congruence).
    unfold chord, cx, cy, sl. cbv zeta. f_equal; field; tauto.
  Qed.

  (** (P + Q) - Q = P *)
  Lemma cancel_chord x1 y1 x2 y2 : y1 * y1 = x1 * x1 * x1 + b -> y2 * y2 = x2 * x2 * x2 + b -> x1 <> x2 ->
    let '(x, y) := chord x1 y1 x2 y2 in x <> x2 -> chord x y x2 (- y2) = (x1, y1).
  Proof.
    intros E1 E2 N. apply neq_sub in N. unfold chord, cx, cy, sl. cbv zeta. intros M. apply neq_sub in M.
    f_equal.
    - field [E1 E2]. dn.
      refine (den _ _ _ _ N M _). field. exact N.
    - field [E1 E2]. dn.
      refine (den _ _ _ _ N M _). field. exact N.
  Qed.

  (** ... when P + Q = -Q the line is the tangent at Q *)
  Lemma cancel_tang x1 y1 x2 y2 : y1 * y1 = x1 * x1 * x1 + b -> y2 * y2 = x2 * x2 * x2 + b -> x1 <> x2 -> y2 <> 0 ->
    fst (chord x1 y1 x2 y2) = x2 -> snd (chord x1 y1 x2 y2) = - y2 /\ tang x2 (- y2) = (x1, y1).
  Proof.
    intros E1 E2 N Y. assert (D := neq_sub _ _ N). unfold chord, cx, cy, sl. cbv zeta. cbn [fst snd].
    set (l := (y2 - y1) / (x2 - x1)). intro X. rewrite X.
    assert (L : l * (x2 - x1) = y2 - y1) by (unfold l; field; exact D).
    split; [transitivity (- (l * (x2 - x1)) - y1); [ring|rewrite L; ring]|].
    (* the slope of the chord is the slope of the tangent *)
    assert (Q : l * (y1 + y2) = x1 * x1 + x1 * x2 + x2 * x2).
    { apply (a_cancel (x2 - x1) _ _ D). transitivity (l * (x2 - x1) * (y1 + y2)); [ring|]. rewrite L.
      transitivity (y2 * y2 - y1 * y1); [ring|rewrite E1, E2; ring]. }
    assert (T : l * (2 * y2) = 3 * (x2 * x2)).
    { assert (Z : l * l - x1 - x2 = x2) by exact X.
      transitivity (l * (y1 + y2) + l * (y2 - y1)); [ring|]. rewrite <- L, Q.
      transitivity (x1 * x1 + x1 * x2 + x2 * x2 + (l * l - x1 - x2 + x1 + x2) * (x2 - x1)); [ring|]. rewrite Z. ring. }
    assert (Lt : tl x2 (- y2) = - l).
    { unfold tl. rewrite <- T. field. split; [|exact two]. intro H. apply Y. transitivity (- - y2); [ring|rewrite H; ring]. }
    unfold tang. cbv zeta. rewrite Lt. unfold cx, cy.
    assert (X1 : - l * - l - x2 - x2 = x1) by (transitivity ((l * l - x1 - x2) - x2 + x1); [ring|rewrite X; ring]).
    rewrite X1. f_equal. transitivity (y2 - l * (x2 - x1)); [ring|rewrite L; ring].
  Qed.

  (** 2P - P = P *)
  Lemma cancel_double x1 y1 : y1 * y1 = x1 * x1 * x1 + b -> y1 <> 0 ->
    let '(x, y) := tang x1 y1 in x <> x1 -> chord x y x1 (- y1) = (x1, y1).
  Proof.
    intros E1 N. unfold tang, chord, cx, cy, sl, tl. cbv zeta. intros M. apply neq_sub in M.
    assert (N2 : 2 * y1 <> 0) by (apply a_neq_0; assumption).
    f_equal.
    - field [E1]. dn. refine (den _ _ _ _ N2 M _). field. tauto.
    - field [E1]. dn. refine (den _ _ _ _ N2 M _). field. tauto.
  Qed.

  (** the four generic associativity identities *)

  Lemma assoc1 x1 y1 x2 y2 x3 y3 : y1 * y1 = x1 * x1 * x1 + b -> y2 * y2 = x2 * x2 * x2 + b -> y3 * y3 = x3 * x3 * x3 + b ->
    x1 <> x2 -> x2 <> x3 ->
    let '(xs, ys) := chord x1 y1 x2 y2 in let '(xt, yt) := chord x2 y2 x3 y3 in
    xs <> x3 -> x1 <> xt -> chord xs ys x3 y3 = chord x1 y1 xt yt.
  Proof.
    intros E1 E2 E3 N1 N2. apply neq_sub in N1. apply neq_sub in N2. unfold chord, cx, cy, sl. cbv zeta.
    intros N3 N4. apply neq_sub in N3. apply neq_sub in N4.
    f_equal.
    - field [E1 E2 E3]. dn. { refine (den _ _ _ _ N2 N4 _). field. exact N2. } { refine (den _ _ _ _ N1 N3 _). field. exact N1. }
    - field [E1 E2 E3]. dn. { refine (den _ _ _ _ N2 N4 _). field. exact N2. } { refine (den _ _ _ _ N1 N3 _). field. exact N1. }
  Qed.

  Lemma assoc2 x1 y1 x3 y3 : y1 * y1 = x1 * x1 * x1 + b -> y3 * y3 = x3 * x3 * x3 + b -> y1 <> 0 -> x1 <> x3 ->
    let '(xs, ys) := tang x1 y1 in let '(xt, yt) := chord x1 y1 x3 y3 in
    xs <> x3 -> x1 <> xt -> chord xs ys x3 y3 = chord x1 y1 xt yt.
  Proof.
    intros E1 E3 Y N2. apply neq_sub in N2. unfold chord, tang, cx, cy, sl, tl. cbv zeta.
    intros N3 N4. apply neq_sub in N3. apply neq_sub in N4.
    assert (Y2 : 2 * y1 <> 0) by (apply a_neq_0; assumption).
    f_equal.
    - field [E1 E3]. dn. { refine (den _ _ _ _ N2 N4 _). field. exact N2. } { refine (den _ _ _ _ Y2 N3 _). field. tauto. }
    - field [E1 E3]. dn. { refine (den _ _ _ _ N2 N4 _). field. exact N2. } { refine (den _ _ _ _ Y2 N3 _). field. tauto. }
  Qed.
  (** (P - Q) + (P + Q) = 2P *)
  Lemma sum_diff x y u v : y * y = x * x * x + b -> v * v = u * u * u + b -> x <> u -> y <> 0 -> v <> 0 ->
    let '(xd, yd) := chord x y u (- v) in let '(xs, ys) := chord x y u v in
    xd <> xs /\ chord xd yd xs ys = tang x y.
  Proof.
    intros E1 E2 N Y V. assert (D := neq_sub _ _ N). unfold chord, tang, cx, cy, sl, tl. cbv zeta.
    assert (T4 : 2 * v * (2 * y) <> 0) by (repeat apply a_neq_0; assumption).
    split.
    - intro H. apply T4.
      transitivity ((u - x) * (u - x) * (((- v - y) / (u - x) * ((- v - y) / (u - x)) - x - u) - ((v - y) / (u - x) * ((v - y) / (u - x)) - x - u)));
        [field; exact D|rewrite H; ring].
    - assert (B : b = y * y - x * x * x) by (rewrite E1; ring). subst b.
      assert (E3 : v * v = u * u * u + y * y - x * x * x) by (rewrite E2; ring).
      assert (Z : (v - y) * (v - y) - x * ((u - x) * (u - x)) - u * ((u - x) * (u - x)) -
        ((- v - y) * (- v - y) - x * ((u - x) * (u - x)) - u * ((u - x) * (u - x))) <> 0).
      { intro H. apply T4. transitivity (- ((v - y) * (v - y) - x * ((u - x) * (u - x)) - u * ((u - x) * (u - x)) -
        ((- v - y) * (- v - y) - x * ((u - x) * (u - x)) - u * ((u - x) * (u - x))))); [ring|rewrite H; ring]. }
      f_equal.
      + field [E3]; dn.
      + field [E3]; dn.
  Qed.
End Algebra.
