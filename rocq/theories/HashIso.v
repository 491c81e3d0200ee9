(** The isogeny has no pole on the curve E' and its image lies on secq256k1: identities of
    polynomials, checked on their coefficients.  E' has no point of order two. *)
From Coq Require Import ZArith Znumtheory List Bool Lia Field Ring.
From Verif Require Import Base Fermat Primes Field Zq CurveSpec CurveProofs Secq HashModel HashSpec HashField.
Import ListNotations.
Local Open Scope Z_scope.

(** polynomials with coefficients in Z, lowest first, and their values in the field *)
Fixpoint ev (c : list Z) (x : Fn) : Fn := match c with [] => f0 | a :: t => fadd (fn a) (fmul x (ev t x)) end.
Fixpoint padd (a b : list Z) : list Z :=
  match a, b with [], _ => b | _, [] => a | x :: a, y :: b => (x + y) mod n :: padd a b end.
Definition pscale (k : Z) (a : list Z) : list Z := map (fun x => (k * x) mod n) a.
Fixpoint pmul (a b : list Z) : list Z := match a with [] => [] | x :: a => padd (pscale x b) (0 :: pmul a b) end.

Add Field Knp : (fth Fn).
Local Open Scope fld_scope.
Lemma fn_add a b : fn (a + b) = fn a + fn b. Proof. symmetry. exact (zof_add n prime_n a b). Qed.
Lemma fn_mod a : fn (a mod n) = fn a. Proof. exact (zof_mod n prime_n a). Qed.
Lemma ev_padd a : forall b x, ev (padd a b) x = ev a x + ev b x.
Proof.
  induction a as [|u a IH]; intros [|v b] x; cbn [padd ev]; try ring. rewrite IH, fn_mod, fn_add. ring.
Qed.
Lemma ev_pscale k a x : ev (pscale k a) x = fn k * ev a x.
Proof. induction a as [|u a IH]; cbn [pscale map ev]; [ring|]. unfold pscale in IH. rewrite IH, fn_mod, fn_mul. ring. Qed.
Lemma ev_pmul a : forall b x, ev (pmul a b) x = ev a x * ev b x.
Proof.
  induction a as [|u a IH]; intros b x; cbn [pmul ev]; [ring|]. rewrite ev_padd, ev_pscale. cbn [ev]. rewrite IH.
  change (fn 0) with (0 : Fn). ring.
Qed.

Definition aZ : Z := 3642995984045157452672683439396299070953881827175886364060394186787010798372.
Definition gpoly : list Z := [1771; aZ; 0; 1]%Z.
Lemma ev_g x : ev gpoly x = gE x.
Proof. unfold gpoly, gE, aE, bE, aZ. cbn [ev]. change (fn 0) with (0 : Fn). change (fn 1) with (1 : Fn). ring. Qed.

Lemma fn_sub a b : fn (a - b) = fn a - fn b. Proof. symmetry. exact (zof_sub n prime_n a b). Qed.
(** the constants of the isogeny *)
Definition x0 : Fn := fn 105902687109483644508510882941872789413462263116073589764741806721895579004147.
Definition w0 : Fn := fn 81015703798631348150689561056143737187497285712733842644840126792321139789740.
Lemma g_w0 : gE x0 = zE * (w0 * w0). Proof. apply (zq_eq n). vm_compute. reflexivity. Qed.
Lemma g_x0 y : y * y <> gE x0.
Proof.
  rewrite g_w0. intro H. apply (zE_square_times w0 y); [|exact H]. intro E. apply (f_equal (@zval n)) in E. discriminate E.
Qed.
Definition xnum := Eval cbv in [nth 3 kZ 0; nth 2 kZ 0; nth 1 kZ 0; nth 0 kZ 0]%Z.
Definition xden := Eval cbv in [nth 5 kZ 0; nth 4 kZ 0; 1]%Z.
Definition ynum := Eval cbv in [nth 9 kZ 0; nth 8 kZ 0; nth 7 kZ 0; nth 6 kZ 0]%Z.
Definition yden := Eval cbv in [nth 12 kZ 0; nth 11 kZ 0; nth 10 kZ 0; 1]%Z.
Definition p3 (a : list Z) := pmul a (pmul a a).
Lemma iso_poly : pmul (pmul gpoly (pmul ynum ynum)) (p3 xden) = pmul (padd (p3 xnum) (pscale 7 (p3 xden))) (pmul yden yden).
Proof. vm_compute. reflexivity. Qed.
Definition lin : list Z := [- 105902687109483644508510882941872789413462263116073589764741806721895579004147; 1]%Z.
Lemma xden_poly : pmul lin lin = xden. Proof. vm_compute. reflexivity. Qed.
Lemma yden_poly : p3 lin = yden. Proof. vm_compute. reflexivity. Qed.
Lemma ev_lin x : ev lin x = x - x0.
Proof.
  unfold lin, x0. cbn [ev]. change (- 105902687109483644508510882941872789413462263116073589764741806721895579004147)%Z with (0 - 105902687109483644508510882941872789413462263116073589764741806721895579004147)%Z. rewrite fn_sub. change (fn 0) with (0 : Fn). change (fn 1) with (1 : Fn). ring.
Qed.
Lemma ev_p3 a x : ev (p3 a) x = ev a x * (ev a x * ev a x).
Proof. unfold p3. rewrite !ev_pmul. reflexivity. Qed.

Lemma iso_ok x y : y * y = gE x ->
  exists X Y, iso_map fn_traits x y (map fn kZ) = Ok (X, Y) /\ (X, Y) = iso3 x y /\ Y * Y = X * X * X + fn 7.
Proof.
  intro H.
  assert (N : ev lin x <> 0).
  { rewrite ev_lin. intro E. apply (g_x0 y). rewrite H. f_equal. transitivity (x - x0 + x0); [ring|rewrite E; ring]. }
  assert (ND : ev xden x <> 0) by (rewrite <- xden_poly, ev_pmul; exact (fmul_nz _ _ N N)).
  assert (NY : ev yden x <> 0) by (rewrite <- yden_poly, ev_p3; exact (fmul_nz _ _ N (fmul_nz _ _ N N))).
  unfold iso_map. cbv zeta.
  change (t_sq fn_traits x) with (x * x). change (t_mul fn_traits) with (@fmul Fn). change (t_add fn_traits) with (@fadd Fn).
  replace (x * x + nth 4 (map fn kZ) (t_one fn_traits) * x + nth 5 (map fn kZ) (t_one fn_traits)) with (ev xden x)
    by (unfold xden, kZ; cbn [ev nth map]; change (fn 1) with (1 : Fn); ring).
  replace (x * x * x + nth 10 (map fn kZ) (t_one fn_traits) * (x * x) + nth 11 (map fn kZ) (t_one fn_traits) * x + nth 12 (map fn kZ) (t_one fn_traits)) with (ev yden x)
    by (unfold yden, kZ; cbn [ev nth map]; change (fn 1) with (1 : Fn); ring).
  replace (nth 0 (map fn kZ) (t_one fn_traits) * (x * x * x) + nth 1 (map fn kZ) (t_one fn_traits) * (x * x) + nth 2 (map fn kZ) (t_one fn_traits) * x + nth 3 (map fn kZ) (t_one fn_traits)) with (ev xnum x)
    by (unfold xnum, kZ; cbn [ev nth map]; ring).
  replace (nth 6 (map fn kZ) (t_one fn_traits) * (x * x * x) + nth 7 (map fn kZ) (t_one fn_traits) * (x * x) + nth 8 (map fn kZ) (t_one fn_traits) * x + nth 9 (map fn kZ) (t_one fn_traits)) with (ev ynum x)
    by (unfold ynum, kZ; cbn [ev nth map]; ring).
  assert (IV : forall z, z <> 0 -> t_invert fn_traits z = Some (finv z)).
  { intros z Hz. change (t_invert fn_traits z) with (if feqb z 0 then None else Some (finv z)). destruct (feqb_spec Fn z 0); [contradiction|reflexivity]. }
  rewrite (IV _ ND), (IV _ NY). cbn [of_opt bind]. eexists. eexists. split; [reflexivity|]. split.
  { unfold iso3. cbv zeta. change (ev xnum x) with (ev xnum x).
    replace (x * x + kq 4 * x + kq 5) with (ev xden x) by (unfold xden, kq, kZ; cbn [ev nth map]; change (fn 1) with (1 : Fn); ring).
    replace (x * x * x + kq 10 * (x * x) + kq 11 * x + kq 12) with (ev yden x) by (unfold yden, kq, kZ; cbn [ev nth map]; change (fn 1) with (1 : Fn); ring).
    replace (kq 0 * (x * x * x) + kq 1 * (x * x) + kq 2 * x + kq 3) with (ev xnum x) by (unfold xnum, kq, kZ; cbn [ev nth map]; ring).
    replace (kq 6 * (x * x * x) + kq 7 * (x * x) + kq 8 * x + kq 9) with (ev ynum x) by (unfold ynum, kq, kZ; cbn [ev nth map]; ring).
    generalize dependent (ev xden x). generalize dependent (ev yden x). intros d Nd c Nc. f_equal; field; assumption. }
  assert (E := f_equal (fun c => ev c x) iso_poly). cbv beta in E.
  rewrite !ev_pmul, ev_padd, ev_pscale, !ev_p3, ev_g in E.
  generalize dependent (ev xden x). generalize dependent (ev yden x). generalize (ev xnum x), (ev ynum x). intros a b d Nd c Nc E.
  assert (E' : y * (b * finv d) * (y * (b * finv d)) = (y * y * (b * b) * (c * (c * c))) * (finv (d * d) * finv (c * (c * c)))) by (field; repeat split; assumption).
  rewrite E', H. rewrite E. field. repeat split; assumption.
Qed.

(** E' has no point of order two: its image would be one on secq256k1 *)
Lemma g_no_root r : gE r <> 0.
Proof.
  intro G. assert (H : 0 * 0 = gE r) by (rewrite G; ring).
  destruct (iso_ok r 0 H) as (X & Y & _ & E & C).
  assert (Y0 : Y = 0).
  { unfold iso3 in E. cbv zeta in E. injection E as _ E. rewrite E. generalize (r * r * r + kq 10 * (r * r) + kq 11 * r + kq 12), (kq 6 * (r * r * r) + kq 7 * (r * r) + kq 8 * r + kq 9). intros c e. transitivity (0 * e * finv c); [reflexivity|ring]. }
  rewrite Y0 in C. apply (seven_no_cube X). rewrite <- C. ring.
Qed.
