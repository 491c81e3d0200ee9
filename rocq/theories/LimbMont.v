(** Montgomery reduction, multiplication and squaring of [Limb.v]. *)
From Coq Require Import ZArith List Bool Lia Znumtheory.
From Verif Require Import Base Limb LimbSpec LimbProofs.
Import ListNotations.
Local Open Scope Z_scope.

Ltac kstep x k :=
    let E := fresh "Ek" in let U := fresh "Uk" in
    lazymatch goal with
    | |- context [mac x ?e _ 0] =>
      remember e as k eqn:E; assert (U : u64 k) by (rewrite E; apply u64_mod)
    end.
(** symbolic execution of one [mac]/[adc] at the head of the goal [Q (let ...)] *)
Ltac mstep x y :=
  let E := fresh "E" in let H1 := fresh "H" in let H2 := fresh "U" in let H3 := fresh "U" in
  lazymatch goal with
  | |- _ (let '(_, _) := mac ?a ?b ?c ?d in _) =>
      destruct (mac a b c d) as [x y] eqn:E;
      apply mac_spec in E; [|solve [auto with u64]..];
      destruct E as (H1 & H2 & H3)
  | |- _ (let '(_, _) := adc ?a ?b ?d in _) =>
      destruct (adc a b d) as [x y] eqn:E;
      apply adc_spec in E; [|solve [auto with u64]..];
      destruct E as (H1 & H2 & H3)
  end.

Definition T9 r0 r1 r2 r3 r4 r5 r6 r7 r8 : Z :=
  r0 + B64 * (r1 + B64 * (r2 + B64 * (r3 + B64 * (r4 + B64 * (r5 + B64 * (r6 + B64 * (r7 + B64 * r8))))))).

Lemma mont_spec P q r0 r1 r2 r3 r4 r5 r6 r7 r8 : valid P q ->
  u64 r0 -> u64 r1 -> u64 r2 -> u64 r3 -> u64 r4 -> u64 r5 -> u64 r6 -> u64 r7 -> u64 r8 ->
  T9 r0 r1 r2 r3 r4 r5 r6 r7 r8 < BB * q ->
  wf q (montgomery_reduce P r0 r1 r2 r3 r4 r5 r6 r7 r8) /\
  (val (montgomery_reduce P r0 r1 r2 r3 r4 r5 r6 r7 r8) * BB) mod q = T9 r0 r1 r2 r3 r4 r5 r6 r7 r8 mod q.
Proof.
  intros V. intros. rename H8 into HT.
  pose proof (q_lt _ _ V) as Hq. pose proof (v_q _ _ V) as Hq1.
  destruct (v_ml _ _ V) as (?&?&?&?&?).
  pose proof (v_m _ _ V) as Hqm. pose proof (v_inv _ _ V) as Hinv.
  set (Q := fun t : fe => wf q t /\ (val t * BB) mod q = T9 r0 r1 r2 r3 r4 r5 r6 r7 r8 mod q).
  change (Q (montgomery_reduce P r0 r1 r2 r3 r4 r5 r6 r7 r8)).
  unfold montgomery_reduce.
  kstep r0 k0.
  mstep x0 c0. mstep s1 c1. mstep s2 c2. mstep s3 c3. mstep s4 c4. mstep s5 e0.
  assert (X0 : x0 = 0) by (eapply low_zero; eassumption).
  kstep s1 k1.
  mstep x1 d0. mstep t2 d1. mstep t3 d2. mstep t4 d3. mstep t5 d4. mstep t6 e1.
  assert (X1 : x1 = 0) by (eapply low_zero; eassumption).
  kstep t2 k2.
  mstep x2 f0. mstep v3 f1. mstep v4 f2. mstep v5 f3. mstep v6 f4. mstep v7 e2.
  assert (X2 : x2 = 0) by (eapply low_zero; eassumption).
  kstep v3 k3.
  mstep x3 g0. mstep w4 g1. mstep w5 g2. mstep w6 g3. mstep w7 g4. mstep w8 lost.
  assert (X3 : x3 = 0) by (eapply low_zero; eassumption).
  set (K := k0 + B64 * (k1 + B64 * (k2 + B64 * k3))).
  assert (Hw : limbs_ok (Fe w4 w5 w6 w7 w8)) by (unfold limbs_ok; cbn; tauto).
  assert (EQ : T9 r0 r1 r2 r3 r4 r5 r6 r7 r8 + K * q =
    BB * val (Fe w4 w5 w6 w7 w8) + BB * BB * B64 * lost +
    (x0 + B64 * (x1 + B64 * (x2 + B64 * x3)))).
  { rewrite <- Hqm. unfold val, T9, K, BB. cbn [l0 l1 l2 l3 l4].
    clear Ek Ek0 Ek1 Ek2 X0 X1 X2 X3. clear - H13 H14 H15 H16 H17 H18 H19 H20 H21 H22 H23 H24 H25 H26 H27 H28 H29 H30 H31 H32 H33 H34 H35 H36.
    subst. ring. }
  rewrite X0, X1, X2, X3 in EQ. replace (0 + B64 * (0 + B64 * (0 + B64 * 0))) with 0 in EQ by ring.
  rewrite Z.add_0_r in EQ.
  assert (HK : 0 <= K < BB).
  { unfold K, BB, u64 in *. rewrite B64_val in *. lia. }
  pose proof (val_nonneg _ Hw) as Hwn.
  assert (Hlt : T9 r0 r1 r2 r3 r4 r5 r6 r7 r8 + K * q < BB * (2 * q)) by nia.
  assert (HBB : 0 < BB) by reflexivity.
  assert (Hlost0 : 0 <= lost) by (unfold u64 in *; lia).
  assert (Hlost : lost = 0).
  { destruct (Z.eq_dec lost 0) as [|N]; [assumption|exfalso].
    assert (BB * BB * B64 * 1 <= BB * BB * B64 * lost) by (apply Z.mul_le_mono_nonneg_l; [discriminate|lia]).
    assert (BB * (2 * q) <= BB * BB * B64).
    { rewrite <- Z.mul_assoc. apply Z.mul_le_mono_nonneg_l; [lia|]. rewrite B64_val. lia. }
    assert (0 <= BB * val (Fe w4 w5 w6 w7 w8)) by (apply Z.mul_nonneg_nonneg; lia).
    lia. }
  rewrite Hlost, Z.mul_0_r, Z.add_0_r in EQ.
  assert (Hv2 : val (Fe w4 w5 w6 w7 w8) < 2 * q).
  { rewrite EQ in Hlt. apply Z.mul_lt_mono_pos_l in Hlt; assumption. }
  destruct (sub_reduce P q _ V Hw Hv2) as [W1 W2].
  unfold Q. split; [exact W1|].
  rewrite W2. rewrite Z.mul_mod_idemp_l by lia.
  replace (val (Fe w4 w5 w6 w7 w8) * BB) with (T9 r0 r1 r2 r3 r4 r5 r6 r7 r8 + K * q) by lia.
  apply Z_mod_plus_full.
Qed.

Lemma limbs4 a : limbs_ok a -> val a < BB -> l4 a = 0.
Proof.
  intros (?&?&?&?&?) H'. unfold val, BB, u64 in *. rewrite B64_val in *. lia.
Qed.

(** [mul] is correct as soon as the left operand fits 256 bits and the right one is reduced *)
Lemma mul_spec_gen P q a b : valid P q -> limbs_ok a -> val a < BB -> wf q b ->
  wf q (mul P a b) /\ (val (mul P a b) * BB) mod q = (val a * val b) mod q.
Proof.
  intros V Ha Hla [Hb Hlb].
  pose proof (q_lt _ _ V) as Hq.
  pose proof (val_nonneg _ Ha) as Hna. pose proof (val_nonneg _ Hb) as Hnb.
  set (Q := fun t : fe => wf q t /\ (val t * BB) mod q = (val a * val b) mod q).
  change (Q (mul P a b)). unfold mul.
  assert (Hab : val a * val b < BB * q) by nia.
  destruct a as [a0 a1 a2 a3 a4], b as [b0 b1 b2 b3 b4].
  destruct Ha as (?&?&?&?&?), Hb as (?&?&?&?&?). cbn [l0 l1 l2 l3 l4] in *.
  mstep r0 c0. mstep r1 c1. mstep r2 c2. mstep r3 c3. mstep r4 r5.
  mstep s1 d0. mstep s2 d1. mstep s3 d2. mstep s4 d3. mstep s5 s6.
  mstep t2 e0. mstep t3 e1. mstep t4 e2. mstep t5 e3. mstep t6 t7.
  mstep u3 f0. mstep u4 f1. mstep u5 f2. mstep u6 f3. mstep u7 u8.
  mstep v4 g0. mstep v5 g1. mstep v6 g2. mstep v7 g3. mstep v8 lost.
  assert (EQ : val (Fe a0 a1 a2 a3 a4) * val (Fe b0 b1 b2 b3 b4) =
     T9 r0 s1 t2 u3 v4 v5 v6 v7 v8 + BB * BB * B64 * lost).
  { unfold val, T9, BB. cbn [l0 l1 l2 l3 l4]. clear Hab Hna Hnb Hla Hlb Q. subst. ring. }
  assert (HT0 : 0 <= T9 r0 s1 t2 u3 v4 v5 v6 v7 v8).
  { unfold T9, u64 in *. rewrite B64_val in *. lia. }
  assert (Hlost0 : 0 <= lost) by (unfold u64 in *; lia).
  assert (Hlost : lost = 0).
  { destruct (Z.eq_dec lost 0) as [|N]; [assumption|exfalso].
    assert (BB * BB * B64 * 1 <= BB * BB * B64 * lost) by (apply Z.mul_le_mono_nonneg_l; [discriminate|lia]).
    assert (BB * q <= BB * BB * B64).
    { rewrite <- Z.mul_assoc. apply Z.mul_le_mono_nonneg_l; [discriminate|]. rewrite B64_val. lia. }
    lia. }
  rewrite Hlost, Z.mul_0_r, Z.add_0_r in EQ.
  unfold Q. rewrite EQ. apply mont_spec; try assumption. rewrite <- EQ. assumption.
Qed.

Lemma mul_spec P q a b : valid P q -> wf q a -> wf q b ->
  wf q (mul P a b) /\ (val (mul P a b) * BB) mod q = (val a * val b) mod q.
Proof.
  intros V [Ha Hla] Hb. apply mul_spec_gen; try assumption.
  pose proof (q_lt _ _ V). lia.
Qed.

Lemma lor_shl x y : u64 x -> u64 y ->
  Z.lor (shl1 x) (y / 2 ^ 63) = 2 * x + y / 2 ^ 63 - B64 * (x / 2 ^ 63) /\
  u64 (Z.lor (shl1 x) (y / 2 ^ 63)).
Proof.
  intros Hx Hy. unfold shl1.
  assert (Hb : y / 2 ^ 63 = 0 \/ y / 2 ^ 63 = 1).
  { unfold u64 in Hy. assert (0 <= y / 2 ^ 63 < 2).
    { split; [apply Z.div_pos; lia|apply Z.div_lt_upper_bound; [reflexivity|]]. rewrite B64_val in Hy. lia. }
    lia. }
  assert (Em : (2 * x) mod B64 = 2 * (x mod 2 ^ 63)).
  { change B64 with (2 * 2 ^ 63). apply Zmult_mod_distr_l. }
  rewrite Em.
  assert (El : Z.lor (2 * (x mod 2 ^ 63)) (y / 2 ^ 63) = 2 * (x mod 2 ^ 63) + y / 2 ^ 63).
  { assert (Ez : Z.land (2 * (x mod 2 ^ 63)) (y / 2 ^ 63) = 0).
    { destruct Hb as [-> | ->]; [apply Z.land_0_r|].
      change 1 with (Z.ones 1). rewrite Z.land_ones by lia.
      rewrite Z.mul_comm. apply Z_mod_mult. }
    rewrite <- Z.lxor_lor by exact Ez. symmetry. apply Z.add_nocarry_lxor, Ez. }
  rewrite El.
  pose proof (Z.div_mod x (2 ^ 63) ltac:(discriminate)).
  pose proof (Z.mod_pos_bound x (2 ^ 63) ltac:(reflexivity)).
  unfold u64. rewrite B64_val. change (2 ^ 63) with 9223372036854775808 in *. lia.
Qed.

Lemma u64_shr y : u64 y -> u64 (y / 2 ^ 63).
Proof.
  unfold u64. intro H. split; [apply Z.div_pos; lia|].
  apply Z.div_lt_upper_bound; [reflexivity|]. rewrite B64_val in *. lia.
Qed.
Lemma shl1_spec x : u64 x -> shl1 x = 2 * x - B64 * (x / 2 ^ 63) /\ u64 (shl1 x).
Proof.
  intro H. destruct (lor_shl x 0 H u64_0) as [H1 H2]. change (0 / 2 ^ 63) with 0 in *.
  rewrite Z.lor_0_r in *. split; [lia|assumption].
Qed.

Lemma square_spec P q a : valid P q -> wf q a ->
  wf q (square P a) /\ (val (square P a) * BB) mod q = (val a * val a) mod q.
Proof.
  intros V [Ha Hla].
  pose proof (q_lt _ _ V) as Hq.
  pose proof (val_nonneg _ Ha) as Hna.
  pose proof (limbs4 a Ha ltac:(lia)) as H4.
  set (Q := fun t : fe => wf q t /\ (val t * BB) mod q = (val a * val a) mod q).
  change (Q (square P a)). unfold square.
  assert (Hab : val a * val a < BB * q) by nia.
  destruct a as [a0 a1 a2 a3 a4].
  destruct Ha as (?&?&?&?&?). cbn [l0 l1 l2 l3 l4] in *. subst a4.
  mstep r1 c1. mstep r2 c2. mstep r3 r4. mstep s3 c3. mstep s4 r5. mstep s5 r6.
  destruct (lor_shl r6 s5) as [L6 U6']; [assumption..|].
  destruct (lor_shl s5 s4) as [L5 U5']; [assumption..|].
  destruct (lor_shl s4 s3) as [L4 U4']; [assumption..|].
  destruct (lor_shl s3 r2) as [L3 U3']; [assumption..|].
  destruct (lor_shl r2 r1) as [L2 U2']; [assumption..|].
  destruct (shl1_spec r1) as [L1 U1']; [assumption..|].
  pose proof (u64_shr r6 ltac:(assumption)) as U7'.
  remember (Z.lor (shl1 r6) (s5 / 2 ^ 63)) as p6.
  remember (Z.lor (shl1 s5) (s4 / 2 ^ 63)) as p5.
  remember (Z.lor (shl1 s4) (s3 / 2 ^ 63)) as p4.
  remember (Z.lor (shl1 s3) (r2 / 2 ^ 63)) as p3.
  remember (Z.lor (shl1 r2) (r1 / 2 ^ 63)) as p2.
  remember (shl1 r1) as p1.
  clear Heqp6 Heqp5 Heqp4 Heqp3 Heqp2 Heqp1.
  mstep z0 d0. mstep z1 d1. mstep z2 d2. mstep z3 d3. mstep z4 d4. mstep z5 d5. mstep z6 d6. mstep z7 lost.
  assert (EQ : val (Fe a0 a1 a2 a3 0) * val (Fe a0 a1 a2 a3 0) =
     T9 z0 z1 z2 z3 z4 z5 z6 z7 0 + BB * BB * lost).
  { unfold val, T9, BB. cbn [l0 l1 l2 l3 l4]. clear Hab Hna Hla Q. subst. ring. }
  assert (HT0 : 0 <= T9 z0 z1 z2 z3 z4 z5 z6 z7 0).
  { unfold T9, u64 in *. rewrite B64_val in *. lia. }
  assert (Hlost0 : 0 <= lost) by (unfold u64 in *; lia).
  assert (Hlost : lost = 0).
  { destruct (Z.eq_dec lost 0) as [|N]; [assumption|exfalso].
    assert (BB * BB * 1 <= BB * BB * lost) by (apply Z.mul_le_mono_nonneg_l; [discriminate|lia]).
    assert (BB * q <= BB * BB) by (apply Z.mul_le_mono_nonneg_l; [discriminate|lia]).
    lia. }
  rewrite Hlost, Z.mul_0_r, Z.add_0_r in EQ.
  unfold Q. rewrite EQ. apply mont_spec; try assumption; auto with u64. rewrite <- EQ. assumption.
Qed.
