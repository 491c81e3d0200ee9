(** The curve secp256k1: y^2 = x^3 + 7 over the prime field of [Primes.p]. *)
From Coq Require Import ZArith Znumtheory List Bool Lia Zpow_facts.
From Verif Require Import Base Fermat Primes Field Zq CurveSpec CurveProofs.
Local Open Scope Z_scope.

Definition pred_p (x : Z) : Z := red 256 4294968273 x.
Lemma pred_p_ok x : pred_p x mod p = x mod p.
Proof. unfold pred_p, red. rewrite !red1_ok; try reflexivity; try discriminate. Qed.

(** a k-th power has (p-1)/k-th power one *)
Lemma not_power (a : Z) (k m : positive) : (Zpos k * Zpos m = p - 1) ->
  (powr pred_p a m mod p =? 1) = false -> a mod p <> 0 -> forall x, (x ^ Zpos k) mod p <> a mod p.
Proof.
  intros E F N x H. apply Z.eqb_neq in F. apply F. rewrite (powr_ok p pred_p) by (try apply pred_p_ok; reflexivity).
  assert (Hx : ~ (p | x)).
  { intro D. apply N. rewrite <- H. apply Z.mod_divide; [discriminate|]. destruct D as [d ->].
    replace (Zpos k) with (Z.succ (Zpos k - 1)) by lia. rewrite Z.pow_succ_r by lia. exists (d * (d * p) ^ (Zpos k - 1)). ring. }
  rewrite <- (fermat_Z1 x p prime_p Hx). rewrite <- E, Z.pow_mul_r by lia.
  rewrite Zpower_mod, <- H, <- Zpower_mod by reflexivity. reflexivity.
Qed.

Lemma seven_no_square (y : Fp) : fmul y y <> fp 7.
Proof.
  intro H. apply (f_equal (@zval p)) in H. cbn in H.
  refine (not_power 7 2 _ _ _ _ (zval y) _).
  - instantiate (1 := 57896044618658097711785492504343953926634992332820282019728792003954417335831%positive). reflexivity.
  - vm_compute. reflexivity.
  - discriminate.
  - rewrite Z.pow_2_r. exact H.
Qed.

Lemma seven_no_cube (x : Fp) : fadd (fmul (fmul x x) x) (fp 7) <> f0.
Proof.
  intro H. apply (f_equal (@zval p)) in H. cbn in H.
  refine (not_power (-7) 3 _ _ _ _ (zval x) _).
  - instantiate (1 := 38597363079105398474523661669562635951089994888546854679819194669302944890554%positive). reflexivity.
  - vm_compute. reflexivity.
  - discriminate.
  - replace (zval x ^ 3) with (zval x * zval x * zval x) by ring.
    rewrite Zplus_mod, Zmod_mod, Zmult_mod_idemp_l in H. change ((7 mod p) mod p) with (7 mod p) in H.
    rewrite <- Zplus_mod in H. replace (zval x * zval x * zval x) with ((zval x * zval x * zval x + 7) + (-7)) by ring.
    rewrite Zplus_mod, H. reflexivity.
Qed.

Lemma two_p : fadd (f1 : Fp) f1 <> f0.
Proof. intro H. apply (f_equal (@zval p)) in H. discriminate H. Qed.

Definition secp : Curve Fp := MkCurve Fp (fp 7) two_p seven_no_cube.

(** the base point *)
Definition gx : Z := 0x79be667ef9dcbbac55a06295ce870b07029bfcdb2dce28d959f2815b16f81798.
Definition gy : Z := 0x483ada7726a3c4655da4fbfc0e1108a8fd17b448a68554199c47d08ffb10d4b8.
Definition base : option (Fp * Fp) := Some (fp gx, fp gy).

Section Order.
  Variable P : option (Fp * Fp).
  Hypothesis HP : on_curve secp P = true.
  Hypothesis Hn : emul n P = None.
  Hypothesis N : P <> None.

  Lemma order_iff k : emul k P = None <-> (n | k).
  Proof.
    split.
    - intro H. destruct (Zdivide_dec n k) as [D|D]; [exact D|]. exfalso.
      assert (R : rel_prime k n) by (apply rel_prime_sym, prime_rel_prime; [exact prime_n|exact D]).
      apply rel_prime_bezout in R. destruct R as [u v E]. apply N. rewrite <- (emul_1 P), <- E.
      rewrite (emul_add secp), !(emul_mul secp), H, Hn, !emul_0 by exact HP. reflexivity.
    - intros [d ->]. rewrite (emul_mul secp), Hn, emul_0 by exact HP. reflexivity.
  Qed.

  Lemma order_eq a b : emul a P = emul b P <-> (n | a - b).
  Proof.
    rewrite <- order_iff, (emul_sub secp) by exact HP. split.
    - intros ->. apply add_opp.
    - intro H. apply (cancel_r secp) with (eopp (emul b P)); try (apply on_emul; exact HP); [apply on_opp, on_emul; exact HP|].
      rewrite add_opp. exact H.
  Qed.
  Lemma order_neg a b : emul a P = eopp (emul b P) <-> (n | a + b).
  Proof. rewrite <- (emul_opp secp) by exact HP. rewrite order_eq. replace (a - - b) with (a + b) by ring. reflexivity. Qed.
  Lemma emul_mod k : emul (k mod n) P = emul k P.
  Proof. apply order_eq. exists (- (k / n)). pose proof (Z.div_mod k n ltac:(discriminate)). lia. Qed.
End Order.
