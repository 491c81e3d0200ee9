(** The optimised map of hashtocurve.rs computes the map of the RFC. *)
From Coq Require Import ZArith Znumtheory List Bool Lia Field Ring.
From Verif Require Import Base Fermat Primes Field Zq CurveSpec Secq HashModel HashSpec HashField HashIso.
Import ListNotations.
Local Open Scope Z_scope.
Add Field Kns : (fth Fn).
Local Open Scope fld_scope.

Lemma odd_opp (y : Fn) : y <> 0 -> Z.odd (zval (- y)) = negb (Z.odd (zval y)).
Proof.
  intro N. change (zval (- y)) with ((- zval y) mod n)%Z. pose proof (zval_range n y) as R.
  assert (zval y <> 0%Z) by (intro E; apply N, zval_0, E).
  replace ((- zval y) mod n)%Z with (n - zval y)%Z by (apply Z.mod_unique with (-1)%Z; [left; lia|ring]).
  rewrite Z.odd_sub. change (Z.odd n) with true. reflexivity.
Qed.

Lemma opp_nz (x : Fn) : x <> 0 -> - x <> 0.
Proof. intros N E. apply N. transitivity (- - x); [ring|rewrite E; ring]. Qed.
Ltac nz := repeat split; first [exact aE_nz|exact zE_nz|assumption|apply opp_nz; assumption].

(** the exceptional case, in which the first candidate is a constant *)
Lemma exc_square : leg ((bE * bE + aE * (aE * zE * (aE * zE))) * bE + bE * (aE * zE * (aE * zE) * (aE * zE))) (aE * zE * (aE * zE) * (aE * zE)) = 1.
Proof.
  assert (V : aE * zE * (aE * zE) * (aE * zE) <> 0) by (intro E; apply (f_equal (@zval n)) in E; vm_compute in E; discriminate E).
  apply leg_square; [|exact V|].
  - intro E. apply (f_equal (@zval n)) in E. vm_compute in E. discriminate E.
  - exists (fn 113963015829023416685631210563009476524040961062505007817471599185805156216085). 
    set (s := fn _). set (u := _ + bE * _). set (v := _ * (aE * zE)).
    assert (E : s * s * v = u) by (apply (zq_eq n); vm_compute; reflexivity).
    rewrite <- E. field. exact V.
Qed.

Lemma swu_ok u : exists x y, map_to_curve_simple_swu fn_traits u aE bE zE = Ok (x, y) /\ sswu u x y.
Proof.
  unfold map_to_curve_simple_swu. cbv zeta.
  change (t_mul fn_traits) with (@fmul Fn). change (t_add fn_traits) with (@fadd Fn). change (t_neg fn_traits) with (@fopp Fn).
  change (t_one fn_traits) with (1 : Fn). change (t_zero fn_traits ?x) with (feqb x 0).
  change (t_odd fn_traits ?x) with (Z.odd (zval x)).
  set (tv1 := zE * (u * u)). set (tv2 := tv1 * tv1 + tv1). set (tv3 := bE * (tv2 + 1)).
  set (d := sel zE (- tv2) (negb (feqb tv2 0))). set (tv4 := aE * d).
  set (num := (tv3 * tv3 + aE * (tv4 * tv4)) * tv3 + bE * (tv4 * tv4 * tv4)). set (den := tv4 * tv4 * tv4).
  assert (Nd : d <> 0).
  { unfold d, sel. destruct (feqb_spec Fn tv2 0) as [E|E]; cbn [negb]; [exact zE_nz|]. intro X. apply E.
    transitivity (- - tv2); [ring|rewrite X; ring]. }
  assert (N4 : tv4 <> 0) by exact (fmul_nz _ _ aE_nz Nd).
  assert (Nden : den <> 0) by exact (fmul_nz _ _ (fmul_nz _ _ N4 N4) N4).
  assert (T : zE * zE * (u * u * (u * u)) + zE * (u * u) = tv2) by (unfold tv2, tv1; ring).
  (* the first candidate *)
  assert (X1 : sswu_x1 u = tv3 / tv4).
  { unfold sswu_x1. rewrite T. cbv zeta. unfold tv4, d, sel. destruct (feqb_spec Fn tv2 0) as [E|E]; cbn [negb].
    - unfold tv3. rewrite E. field. nz.
    - unfold tv3. field. nz. }
  assert (G1 : gE (sswu_x1 u) = num / den).
  { rewrite X1. unfold gE, num, den. field. exact N4. }
  assert (Nnum : num <> 0).
  { intro E. apply (g_no_root (sswu_x1 u)). rewrite G1, E. field. exact Nden. }
  pose proof (sqrt_ratio_ok num den) as SR. destruct (sqrt_ratio fn_traits num den) as [b y1]. destruct SR as (Eb & S1 & S2).
  assert (SQ : b = true <-> is_square (gE (sswu_x1 u))).
  { split.
    - intro B. exists y1. rewrite G1, <- (S1 B). field. exact Nden.
    - intro S. rewrite G1 in S. rewrite Eb. apply feqb_t, leg_square; assumption. }
  replace (t_invert fn_traits tv4) with (Some (finv tv4)).
  2: { change (t_invert fn_traits tv4) with (if feqb tv4 0 then None else Some (finv tv4)). destruct (feqb_spec Fn tv4 0); [contradiction|reflexivity]. }
  cbn [of_opt bind].
  set (y := sel (tv1 * u * y1) y1 b). set (x := sel (tv1 * tv3) tv3 b * finv tv4).
  assert (H : y * y = gE x).
  { unfold y, x, sel. destruct b.
    - transitivity (gE (sswu_x1 u)).
      + rewrite G1, <- (S1 eq_refl). field. exact Nden.
      + rewrite X1. reflexivity.
    - assert (E2 : tv2 <> 0).
      { intro E. assert (L : leg num den = 1).
        { unfold num, den, tv4, tv3, d, sel. destruct (feqb_spec Fn tv2 0) as [_|Q]; [|contradiction]. cbn [negb].
          rewrite E. replace (bE * (0 + 1)) with bE by ring. exact exc_square. }
        symmetry in Eb. rewrite L in Eb. assert (X : feqb (1 : Fn) 1 = true) by (apply feqb_t; reflexivity). congruence. }
      assert (Y1 : y1 * y1 = zE * num / den) by (rewrite <- (S2 eq_refl Nden); field; exact Nden).
      transitivity (tv1 * tv1 * (u * u) * (y1 * y1)); [ring|]. rewrite Y1.
      assert (D : d = - tv2) by (unfold d, sel; destruct (feqb_spec Fn tv2 0); [contradiction|reflexivity]).
      unfold gE, num, den, tv4, tv3. rewrite D.
      assert (E2' : tv1 * tv1 + tv1 <> 0) by exact E2.
      transitivity (tv1 * tv1 * tv1 * ((bE * (tv2 + 1) * (bE * (tv2 + 1)) + aE * (aE * - tv2 * (aE * - tv2))) * (bE * (tv2 + 1)) + bE * (aE * - tv2 * (aE * - tv2) * (aE * - tv2))) / (aE * - tv2 * (aE * - tv2) * (aE * - tv2))).
      { unfold tv1 at 3. field. nz. }
      unfold tv2. field. nz. }
  assert (Ny : y <> 0) by (intro E; apply (g_no_root x); rewrite <- H, E; ring).
  eexists. eexists. split; [reflexivity|]. fold x. unfold sswu. split; [|split; [|split]].
  - intro S. unfold x, sel. rewrite (proj2 SQ S), X1. field. exact N4.
  - intro S. unfold x, sel. destruct b; [exfalso; apply S, SQ; reflexivity|].
    unfold sswu_x2. rewrite X1. fold tv1. field. exact N4.
  - unfold sel. destruct (Bool.eqb _ _); [exact H|]. rewrite <- H. ring.
  - unfold sel at 1. destruct (Bool.eqb (Z.odd (zval u)) (Z.odd (zval y))) eqn:E.
    + apply eqb_prop in E. symmetry. exact E.
    + rewrite odd_opp by exact Ny. destruct (Z.odd (zval u)), (Z.odd (zval y)); try reflexivity; discriminate.
Qed.
