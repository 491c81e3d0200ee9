(** The curve secq256k1: y^2 = x^3 + 7 over the prime field of [Primes.n], of order [Primes.p].
    packages/secq256k1/src/lib.rs:25-75. *)
From Coq Require Import ZArith Znumtheory List Bool Lia Zpow_facts.
From Verif Require Import Base Fermat Primes Field Zq CurveSpec CurveProofs.
Local Open Scope Z_scope.

Definition pred_n (x : Z) : Z := red 256 432420386565659656852420866394968145599 x.
Lemma pred_n_ok x : pred_n x mod n = x mod n.
Proof. unfold pred_n, red. rewrite !red1_ok; try reflexivity; try discriminate. Qed.

(** a k-th power has (n-1)/k-th power one *)
Lemma not_power (a : Z) (k m : positive) : (Zpos k * Zpos m = n - 1) ->
  (powr pred_n a m mod n =? 1) = false -> a mod n <> 0 -> forall x, (x ^ Zpos k) mod n <> a mod n.
Proof.
  intros E F N x H. apply Z.eqb_neq in F. apply F. rewrite (powr_ok n pred_n) by (try apply pred_n_ok; reflexivity).
  assert (Hx : ~ (n | x)).
  { intro D. apply N. rewrite <- H. apply Z.mod_divide; [discriminate|]. destruct D as [d ->].
    replace (Zpos k) with (Z.succ (Zpos k - 1)) by lia. rewrite Z.pow_succ_r by lia. exists (d * (d * n) ^ (Zpos k - 1)). ring. }
  rewrite <- (fermat_Z1 x n prime_n Hx). rewrite <- E, Z.pow_mul_r by lia.
  rewrite Zpower_mod, <- H, <- Zpower_mod by reflexivity. reflexivity.
Qed.

Lemma seven_no_cube (x : Fn) : fadd (fmul (fmul x x) x) (fn 7) <> f0.
Proof.
  intro H. apply (f_equal (@zval n)) in H. cbn in H.
  refine (not_power (-7) 3 _ _ _ _ (zval x) _).
  - instantiate (1 := 38597363079105398474523661669562635950945854759691634794201721047172720498112%positive). reflexivity.
  - vm_compute. reflexivity.
  - discriminate.
  - replace (zval x ^ 3) with (zval x * zval x * zval x) by ring.
    rewrite Zplus_mod, Zmod_mod, Zmult_mod_idemp_l in H. change ((7 mod n) mod n) with (7 mod n) in H.
    rewrite <- Zplus_mod in H. replace (zval x * zval x * zval x) with ((zval x * zval x * zval x + 7) + (-7)) by ring.
    rewrite Zplus_mod, H. reflexivity.
Qed.

Lemma two_n : fadd (f1 : Fn) f1 <> f0.
Proof. intro H. apply (f_equal (@zval n)) in H. discriminate H. Qed.

Definition secq : Curve Fn := MkCurve Fn (fn 7) two_n seven_no_cube.

(** the base point *)
Definition gx : Z := 0x76c39f5585cb160eb6b06c87a2ce32e23134e45a097781a6a24288e37702eda6.
Definition gy : Z := 0x3ffc646c7b2918b5dc2d265a8e82a7f7d18983d26e8dc055a4120ddad952677f.
Definition base : option (Fn * Fn) := Some (fn gx, fn gy).

Section Order.
  Variable P : option (Fn * Fn).
  Hypothesis HP : on_curve secq P = true.
  Hypothesis Hn : emul p P = None.
  Hypothesis N : P <> None.

  Lemma order_iff k : emul k P = None <-> (p | k).
  Proof.
    split.
    - intro H. destruct (Zdivide_dec p k) as [D|D]; [exact D|]. exfalso.
      assert (R : rel_prime k p) by (apply rel_prime_sym, prime_rel_prime; [exact prime_p|exact D]).
      apply rel_prime_bezout in R. destruct R as [u v E]. apply N. rewrite <- (emul_1 P), <- E.
      rewrite (emul_add secq), !(emul_mul secq), H, Hn, !emul_0 by exact HP. reflexivity.
    - intros [d ->]. rewrite (emul_mul secq), Hn, emul_0 by exact HP. reflexivity.
  Qed.

  Lemma order_eq a b : emul a P = emul b P <-> (p | a - b).
  Proof.
    rewrite <- order_iff, (emul_sub secq) by exact HP. split.
    - intros ->. apply add_opp.
    - intro H. apply (cancel_r secq) with (eopp (emul b P)); try (apply on_emul; exact HP); [apply on_opp, on_emul; exact HP|].
      rewrite add_opp. exact H.
  Qed.
  Lemma order_neg a b : emul a P = eopp (emul b P) <-> (p | a + b).
  Proof. rewrite <- (emul_opp secq) by exact HP. rewrite order_eq. replace (a - - b) with (a + b) by ring. reflexivity. Qed.
  Lemma emul_mod k : emul (k mod p) P = emul k P.
  Proof. apply order_eq. exists (- (k / p)). pose proof (Z.div_mod k p ltac:(discriminate)). lia. Qed.
End Order.
