(** Hashing to the curve, in the field of [n] elements. *)
From Coq Require Import ZArith Znumtheory List Bool Lia Field Ring Zpow_facts.
From Verif Require Import Base Fermat Primes Field Zq CurveSpec CurveProofs Secq HashModel HashSpec.
Import ListNotations.
Local Open Scope Z_scope.

(** powers with integer exponents *)
Definition fpw (x : Fn) (e : Z) : Fn := fn (zval x ^ e).
Lemma fn_mul a b : fn (a * b) = fmul (fn a) (fn b). Proof. symmetry. exact (zof_mul n prime_n a b). Qed.
Lemma fn_zval (x : Fn) : fn (zval x) = x. Proof. exact (zof_zval n prime_n x). Qed.
Lemma fn_eq a b : a mod n = b mod n -> fn a = fn b. Proof. intro H. apply (zof_eq n prime_n). exact H. Qed.
Lemma fpw_add x a b : 0 <= a -> 0 <= b -> fpw x (a + b) = fmul (fpw x a) (fpw x b).
Proof. intros. unfold fpw. rewrite Z.pow_add_r, fn_mul by assumption. reflexivity. Qed.
Lemma fpw_1 x : fpw x 1 = x.
Proof. unfold fpw. rewrite Z.pow_1_r. apply fn_zval. Qed.
Lemma fpw_base (a e : Z) : 0 <= e -> fpw (fn a) e = fn (a ^ e).
Proof.
  intro He. unfold fpw. apply fn_eq. change (zval (fn a)) with (a mod n).
  symmetry. apply Zpower_mod. reflexivity.
Qed.
Lemma fpw_mul x y e : 0 <= e -> fpw (fmul x y) e = fmul (fpw x e) (fpw y e).
Proof.
  intro He. rewrite <- (fn_zval x), <- (fn_zval y). rewrite <- fn_mul, !fpw_base by exact He.
  rewrite Z.pow_mul_l. apply fn_mul.
Qed.
Lemma fpw_fpw x a b : 0 <= a -> 0 <= b -> fpw (fpw x a) b = fpw x (a * b).
Proof.
  intros Ha Hb. unfold fpw at 2. rewrite fpw_base by exact Hb. unfold fpw. rewrite Z.pow_mul_r by assumption. reflexivity.
Qed.
Lemma fpw_2 x : fpw x 2 = fmul x x.
Proof. change 2 with (1 + 1). rewrite fpw_add, fpw_1 by lia. reflexivity. Qed.
Lemma fpw_one e : 0 <= e -> fpw f1 e = f1.
Proof. intro He. change (f1 : Fn) with (fn 1). rewrite fpw_base, Z.pow_1_l by lia. reflexivity. Qed.
Lemma zval_0 (x : Fn) : zval x = 0 <-> x = f0.
Proof. split; [intro H; apply (zq_eq n); exact H|intros ->; reflexivity]. Qed.
Lemma fpw_fermat x : x <> f0 -> fpw x (n - 1) = f1.
Proof.
  intro H. unfold fpw. change (f1 : Fn) with (fn 1). apply fn_eq. rewrite (Z.mod_small 1) by (split; reflexivity || discriminate).
  apply fermat_Z1; [exact prime_n|]. intro D. apply H, zval_0. pose proof (zval_range n x).
  destruct (Z.eq_dec (zval x) 0) as [E|E]; [exact E|]. apply Z.divide_pos_le in D; lia.
Qed.
(** computation of powers *)
Lemma fpw_powm x e : 0 <= e -> fpw x e = fn (powm n (zval x) e).
Proof. intro He. rewrite powm_ok by (reflexivity || exact He). unfold fpw. symmetry. apply (zof_mod n prime_n). Qed.
Lemma fpw_val x e v : 0 <= e -> powm n (zval x) e = v -> fpw x e = fn v.
Proof. intros He <-. apply fpw_powm, He. Qed.

Add Field Knf : (fth Fn).
Local Open Scope fld_scope.

Lemma fn_zero : fn 0 = 0 :> Fn. Proof. reflexivity. Qed.
Lemma fdec (x y : Fn) : {x = y} + {x <> y}.
Proof. destruct (feqb_spec Fn x y); auto. Qed.
Lemma fmul_0 (x y : Fn) : x * y = 0 -> x = 0 \/ y = 0.
Proof.
  intro H. destruct (fdec x 0) as [E|E]; [left; exact E|]. right.
  transitivity (finv x * (x * y)); [|rewrite H; ring]. field. exact E.
Qed.
Lemma fmul_nz (x y : Fn) : x <> 0 -> y <> 0 -> x * y <> 0.
Proof. intros A B H. destruct (fmul_0 _ _ H); contradiction. Qed.
Lemma sq_one (x : Fn) : x * x = 1 -> x = 1 \/ x = - (1).
Proof.
  intro H. destruct (fmul_0 (x - 1) (x + 1)) as [E|E].
  { transitivity (x * x - 1); [ring|]. rewrite H. ring. }
  - left. transitivity (x - 1 + 1); [ring|rewrite E; ring].
  - right. transitivity (x + 1 - 1); [ring|rewrite E; ring].
Qed.

(** the operations, in the field *)
Definition fn_traits : traits Fn := MkTraits Fn
  1 fadd fsub fmul fopp feqb (fun x => feqb x 0) (fun x => Z.odd (zval x))
  (fun x => if feqb x 0 then None else Some (finv x))
  fn (fun x e => fpw x (zval e)) (fun x => x * x)
  6 (fn 904625697166532776746648320380374280100293470930272690489102837043110636674) (fn 63) (fn 32) (fn 110311768741588258819775753290068347910167536649173269426897453508275181317711) (fn 94159471864959118282773103057807800350405967619523989516086101139055882323203).

Definition c2 : Z := 1809251394333065553493296640760748560200586941860545380978205674086221273349.
Definition half : Z := Eval vm_compute in (n - 1) / 2.
Lemma half_c2 : (32 * c2 = half)%Z. Proof. reflexivity. Qed.
Lemma half_2 : (2 * half = n - 1)%Z. Proof. reflexivity. Qed.
Lemma m1_neq : (- (1) : Fn) <> 1.
Proof. intro H. apply (f_equal (@zval n)) in H. discriminate H. Qed.
Lemma C6_pow : C6 fn_traits = fpw zE c2.
Proof.
  change zE with (fn (-14)). rewrite fpw_base by discriminate. change c2 with (Zpos (Z.to_pos c2)). apply fn_eq.
  rewrite <- (powr_ok n pred_n) by (reflexivity || exact pred_n_ok). vm_compute. reflexivity.
Qed.
Lemma zE_half : fpw zE half = - (1).
Proof.
  rewrite <- half_c2, Z.mul_comm, <- fpw_fpw, <- C6_pow by discriminate.
  rewrite (fpw_val (C6 fn_traits) 32 (n - 1)%Z); [apply (zq_eq n); reflexivity|discriminate|vm_compute; reflexivity].
Qed.
Lemma C7_sq : C7 fn_traits * C7 fn_traits = zE * C6 fn_traits.
Proof. apply (zq_eq n). vm_compute. reflexivity. Qed.
Lemma zE_nz : zE <> 0. Proof. intro H. apply (f_equal (@zval n)) in H. discriminate H. Qed.
Lemma aE_nz : aE <> 0. Proof. intro H. apply (f_equal (@zval n)) in H. discriminate H. Qed.
Lemma bE_nz : bE <> 0. Proof. intro H. apply (f_equal (@zval n)) in H. discriminate H. Qed.

(** the loop: [tv4] has order dividing [2^k], [tv1] has order [2^(k+1)] *)
Lemma step_exp k : (k <= 4)%nat ->
  zval (t_pow fn_traits (t_from fn_traits 2) (t_sub fn_traits (t_from fn_traits (Z.of_nat (2 + k))) (t_from fn_traits 2))) = (2 ^ Z.of_nat k)%Z.
Proof. intro H. do 5 (destruct k as [|k]; [vm_compute; reflexivity|]). lia. Qed.

Lemma pow2_S (x : Fn) k : fpw x (2 ^ Z.of_nat (S k)) = fpw x (2 ^ Z.of_nat k) * fpw x (2 ^ Z.of_nat k).
Proof.
  rewrite Nat2Z.inj_succ, Z.pow_succ_r by lia. replace (2 * 2 ^ Z.of_nat k)%Z with (2 ^ Z.of_nat k + 2 ^ Z.of_nat k)%Z by ring.
  apply fpw_add; apply Z.pow_nonneg; lia.
Qed.
Lemma pow2_sq (x : Fn) k : fpw (x * x) (2 ^ Z.of_nat k) = fpw x (2 ^ Z.of_nat (S k)).
Proof. rewrite pow2_S. apply fpw_mul, Z.pow_nonneg. lia. Qed.

Lemma loop_ok v w k : (k <= 5)%nat -> forall tv1 tv3 tv4,
  fpw tv4 (2 ^ Z.of_nat k) = 1 -> fpw tv1 (2 ^ Z.of_nat k) = - (1) -> v * (tv3 * tv3) = w * tv4 ->
  let '(_, y, _) := fold_left (sr_step fn_traits) (rev (seq 2 k)) (tv1, tv3, tv4) in v * (y * y) = w.
Proof.
  induction k as [|k IH]; intros Hk tv1 tv3 tv4 H4 H1 E.
  - cbn [seq rev fold_left]. rewrite E. change (2 ^ Z.of_nat 0)%Z with 1%Z in H4. rewrite fpw_1 in H4. rewrite H4. ring.
  - rewrite seq_S, rev_app_distr. cbn [rev app fold_left].
    change (t_pow fn_traits) with (fun (x e : Fn) => fpw x (zval e)).
    unfold sr_step at 2. cbv zeta.
    change (t_pow fn_traits tv4 ?e) with (fpw tv4 (zval e)).
    rewrite (step_exp k) by lia.
    change (t_mul fn_traits) with (@fmul Fn). change (t_eq fn_traits) with (@feqb Fn). change (t_one fn_traits) with (1 : Fn).
    destruct (feqb_spec Fn (fpw tv4 (2 ^ Z.of_nat k)) 1) as [T|T]; unfold sel.
    + apply IH; [lia|exact T|rewrite pow2_sq; exact H1|exact E].
    + apply IH; [lia| |rewrite pow2_sq; exact H1|].
      * rewrite fpw_mul by (apply Z.pow_nonneg; lia). rewrite pow2_sq, H1.
        rewrite pow2_S in H4. destruct (sq_one _ H4) as [X|X]; [contradiction|]. rewrite X. ring.
      * transitivity (v * (tv3 * tv3) * (tv1 * tv1)); [ring|]. rewrite E. ring.
Qed.

Lemma feqb_t (x y : Fn) : feqb x y = true <-> x = y.
Proof. destruct (feqb_spec Fn x y); split; congruence. Qed.

(** the Legendre symbol of u / v, up to the square v^128 *)
Definition leg (u v : Fn) : Fn := fpw (u * fpw v 127) half.

Lemma sqrt_ratio_ok u v :
  let '(b, y) := sqrt_ratio fn_traits u v in
  b = feqb (leg u v) 1 /\ (b = true -> v * (y * y) = u) /\ (b = false -> v <> 0 -> v * (y * y) = zE * u).
Proof.
  unfold sqrt_ratio. cbv zeta.
  change (t_mul fn_traits) with (@fmul Fn). change (t_eq fn_traits) with (@feqb Fn). change (t_one fn_traits) with (1 : Fn).
  change (t_pow fn_traits v (C4 fn_traits)) with (fpw v 63).
  change (t_pow fn_traits (fpw v 63) (t_from fn_traits 2)) with (fpw (fpw v 63) 2).
  set (s := u * (fpw (fpw v 63) 2 * v)).
  change (t_pow fn_traits s (C3 fn_traits)) with (fpw s (zval (C3 fn_traits))).
  set (e3 := zval (C3 fn_traits)).
  set (t5 := fpw s e3 * fpw v 63).
  set (t4 := t5 * u * (t5 * v)).
  change (t_pow fn_traits t4 (C5 fn_traits)) with (fpw t4 32).
  assert (Es : s = u * fpw v 127).
  { unfold s. rewrite fpw_fpw by lia. replace 127%Z with (63 * 2 + 1)%Z by reflexivity. rewrite fpw_add, fpw_1 by lia. reflexivity. }
  assert (E3 : (2 * e3 + 1 = c2)%Z) by (vm_compute; reflexivity).
  assert (P3 : (0 <= e3)%Z) by (vm_compute; discriminate).
  assert (E4 : t4 = fpw s c2).
  { unfold t4, t5. rewrite <- E3, fpw_add, fpw_1 by lia. replace (2 * e3)%Z with (e3 + e3)%Z by ring.
    rewrite fpw_add by lia. set (q := fpw s e3). unfold s. rewrite fpw_2. ring. }
  assert (E32 : fpw t4 32 = leg u v).
  { rewrite E4, fpw_fpw by (vm_compute; discriminate). unfold leg. rewrite <- Es, <- half_c2.
    replace (c2 * 32)%Z with (32 * c2)%Z by ring. reflexivity. }
  rewrite E32.
  assert (HV : v * (t5 * u * (t5 * u)) = u * t4) by (unfold t4; ring).
  destruct (feqb_spec Fn (leg u v) 1) as [L|L]; unfold sel.
  - change (C1 fn_traits - 1)%nat with 5%nat.
    pose proof (loop_ok v u 5 (le_n 5) (C6 fn_traits) (t5 * u) t4) as Q.
    destruct (fold_left _ _ _) as [[a y] c]. split; [reflexivity|]. split; [|discriminate]. intros _. apply Q.
    + rewrite <- L, <- E32. reflexivity.
    + rewrite C6_pow, fpw_fpw by (vm_compute; discriminate). change (c2 * 2 ^ Z.of_nat 5)%Z with half. exact zE_half.
    + exact HV.
  - change (C1 fn_traits - 1)%nat with 5%nat.
    pose proof (loop_ok v (zE * u) 5 (le_n 5) (C6 fn_traits) (t5 * u * C7 fn_traits) (t4 * C6 fn_traits)) as Q.
    destruct (fdec u 0) as [U|U].
    + assert (Z0 : forall k tv1 tv4, let '(_, y, _) := fold_left (sr_step fn_traits) (rev (seq 2 k)) (tv1, 0, tv4) in y = 0).
      { induction k as [|k IH]; intros tv1 tv4; [reflexivity|]. rewrite seq_S, rev_app_distr. cbn [rev app fold_left].
        unfold sr_step at 2. cbv zeta. change (t_mul fn_traits) with (@fmul Fn).
        replace (0 * tv1) with (0 : Fn) by ring. unfold sel at 1. destruct (t_eq fn_traits _ _); apply IH. }
      replace (t5 * u * C7 fn_traits) with (0 : Fn) by (rewrite U; ring).
      specialize (Z0 5%nat (C6 fn_traits) (t4 * C6 fn_traits)).
      destruct (fold_left _ _ (C6 fn_traits, 0, _)) as [[a y] c]. rewrite Z0. split; [reflexivity|]. split; [discriminate|].
      intros _ _. rewrite U. ring.
    + destruct (fold_left _ _ _) as [[a y] c]. split; [reflexivity|]. split; [discriminate|]. intros _ NV. apply Q.
      * rewrite fpw_mul by (vm_compute; discriminate). change (2 ^ Z.of_nat 5)%Z with 32%Z. rewrite E32.
        rewrite C6_pow, fpw_fpw by (vm_compute; discriminate). change (c2 * 32)%Z with half. rewrite zE_half.
        assert (W : u * fpw v 127 <> 0).
        { apply fmul_nz; [exact U|]. intro W. apply NV.
          assert (X : fpw v (n - 1) = 0) by (replace (n - 1)%Z with (127 + (n - 128))%Z by ring; rewrite fpw_add, W by (vm_compute; discriminate); ring).
          destruct (fdec v 0) as [V0|V0]; [exact V0|]. rewrite (fpw_fermat v V0) in X. exfalso. exact (f1_neq_0 Fn X). }
        destruct (sq_one (leg u v)) as [X|X]; [|contradiction|rewrite X; ring].
        unfold leg. rewrite <- fpw_2, fpw_fpw by (vm_compute; discriminate). rewrite Z.mul_comm, half_2. apply fpw_fermat, W.
      * rewrite C6_pow, fpw_fpw by (vm_compute; discriminate). change (c2 * 2 ^ Z.of_nat 5)%Z with half. exact zE_half.
      * transitivity (v * (t5 * u * (t5 * u)) * (C7 fn_traits * C7 fn_traits)); [ring|]. rewrite HV, C7_sq. ring.
Qed.

(** a nonzero square ratio is recognised *)
Lemma leg_square u v : u <> 0 -> v <> 0 -> is_square (u / v) -> leg u v = 1.
Proof.
  intros U V (s & Hs). unfold leg.
  assert (E : u * fpw v 127 = (s * fpw v 64) * (s * fpw v 64)).
  { transitivity (s * s * (fpw v 64 * fpw v 64)); [|ring]. rewrite Hs. replace (fpw v 64 * fpw v 64) with (fpw v 127 * v).
    - field. exact V.
    - rewrite <- fpw_add by lia. change (64 + 64)%Z with (127 + 1)%Z. rewrite fpw_add, fpw_1 by lia. reflexivity. }
  rewrite E, <- fpw_2, fpw_fpw by (vm_compute; discriminate). rewrite half_2. apply fpw_fermat.
  intro H. rewrite H in E.
  assert (X : u * fpw v 127 = 0) by (rewrite E; ring).
  destruct (fmul_0 _ _ X) as [Y|Y]; [contradiction|].
  assert (X2 : fpw v (n - 1) = 0) by (replace (n - 1)%Z with (127 + (n - 128))%Z by ring; rewrite fpw_add, Y by (vm_compute; discriminate); ring).
  rewrite (fpw_fermat v V) in X2. exact (f1_neq_0 Fn X2).
Qed.

(** zE is no square, so neither is a square times zE *)
Lemma zE_square_times w s : w <> 0 -> s * s = zE * (w * w) -> False.
Proof.
  intros W H.
  assert (S : s <> 0). { intro E. rewrite E in H. assert (X : zE * (w * w) = 0) by (rewrite <- H; ring). destruct (fmul_0 _ _ X) as [Y|Y]; [exact (zE_nz Y)|]. destruct (fmul_0 _ _ Y); contradiction. }
  assert (A : fpw (s * s) half = 1) by (rewrite <- fpw_2, fpw_fpw, half_2 by discriminate; apply fpw_fermat, S).
  rewrite H, fpw_mul, zE_half, <- fpw_2, fpw_fpw, half_2, (fpw_fermat w W) in A by discriminate.
  apply m1_neq. transitivity (- (1) * 1 : Fn); [ring|exact A].
Qed.
