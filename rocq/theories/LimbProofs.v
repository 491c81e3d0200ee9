(** Correctness of the limb arithmetic of [Limb.v]: Montgomery representation. *)
From Coq Require Import ZArith List Bool Lia Znumtheory.
From Verif Require Import Base Limb LimbSpec.
Import ListNotations.
Local Open Scope Z_scope.

Definition val (a : fe) : Z :=
  l0 a + B64 * (l1 a + B64 * (l2 a + B64 * (l3 a + B64 * l4 a))).
Definition limbs_ok (a : fe) : Prop :=
  u64 (l0 a) /\ u64 (l1 a) /\ u64 (l2 a) /\ u64 (l3 a) /\ u64 (l4 a).
(** a well-formed element for the modulus [q] *)
Definition wf (q : Z) (a : fe) : Prop := limbs_ok a /\ val a < q.

Definition BB : Z := B64 * (B64 * (B64 * B64)).   (* 2^256 *)

Record valid (P : params) (q : Z) : Prop := MkValid {
  v_m : val (MODULUS P) = q;
  v_ml : limbs_ok (MODULUS P);
  v_m4 : l4 (MODULUS P) = 0;
  v_q : 1 < q;
  v_cop : Z.gcd BB q = 1;
  v_inv : (l0 (MODULUS P) * INV P + 1) mod B64 = 0;
  v_r : wf q (R P) /\ val (R P) = BB mod q;
  v_r2 : wf q (R2 P) /\ val (R2 P) = (BB * BB) mod q;
  v_r3 : wf q (R3 P) /\ val (R3 P) = (BB * BB * BB) mod q
}.

Lemma B64_pos : 0 < B64. Proof. reflexivity. Qed.
Lemma B64_val : B64 = 18446744073709551616. Proof. reflexivity. Qed.

Lemma hi64_small x : 0 <= x < B64 * B64 -> hi64 x = x / B64.
Proof.
  intro H. unfold hi64. apply Z.mod_small. split.
  - apply Z.div_pos; [lia|reflexivity].
  - apply Z.div_lt_upper_bound; [reflexivity|lia].
Qed.

Lemma lohi x : 0 <= x < B64 * B64 -> x = lo64 x + B64 * hi64 x /\ u64 (lo64 x) /\ u64 (hi64 x).
Proof.
  intro H. rewrite hi64_small by assumption. unfold lo64, u64.
  pose proof (Z.div_mod x B64 ltac:(discriminate)).
  pose proof (Z.mod_pos_bound x B64 B64_pos).
  assert (0 <= x / B64 < B64).
  { split; [apply Z.div_pos; [lia|reflexivity]|apply Z.div_lt_upper_bound; [reflexivity|lia]]. }
  lia.
Qed.

Lemma mac_spec a b c d x y :
  mac a b c d = (x, y) -> u64 a -> u64 b -> u64 c -> u64 d ->
  x = a + b * c + d - B64 * y /\ u64 x /\ u64 y.
Proof.
  unfold mac. intros E Ha Hb Hc Hd. apply pair_equal_spec in E; destruct E as [<- <-].
  destruct (lohi (a + b * c + d)) as (H1 & H2 & H3).
  - unfold u64 in *. split; [nia|].
    assert (b * c <= (B64 - 1) * (B64 - 1)) by nia. lia.
  - repeat split; try apply H2; try apply H3. lia.
Qed.

Lemma adc_spec a b d x y :
  adc a b d = (x, y) -> u64 a -> u64 b -> u64 d ->
  x = a + b + d - B64 * y /\ u64 x /\ u64 y.
Proof.
  unfold adc. intros E Ha Hb Hd. apply pair_equal_spec in E; destruct E as [<- <-].
  destruct (lohi (a + b + d)) as (H1 & H2 & H3).
  - unfold u64 in *. rewrite B64_val in *. lia.
  - repeat split; try apply H2; try apply H3. lia.
Qed.

Lemma sbb_spec a b d x y bit :
  sbb a b d = (x, y) -> u64 a -> u64 b -> d = bit * (B64 - 1) -> (bit = 0 \/ bit = 1) ->
  exists bit', y = bit' * (B64 - 1) /\ (bit' = 0 \/ bit' = 1) /\
               x = a - b - bit + B64 * bit' /\ u64 x.
Proof.
  unfold sbb. intros E Ha Hb Hd Hbit. apply pair_equal_spec in E; destruct E as [<- <-].
  assert (Hs : d / 2 ^ 63 = bit) by (destruct Hbit; subst; reflexivity).
  rewrite Hs. unfold u64 in *.
  destruct (Z_lt_ge_dec (a - b - bit) 0) as [L|L].
  - exists 1.
    assert (Em : (a - (b + bit)) mod 2 ^ 128 = 2 ^ 128 + (a - b - bit)).
    { symmetry. apply (Z.mod_unique_pos _ _ (-1)); change (2 ^ 128) with (B64 * B64);
      rewrite B64_val in *; lia. }
    rewrite Em.
    destruct (lohi (2 ^ 128 + (a - b - bit))) as (H1 & H2 & H3);
      [change (2 ^ 128) with (B64 * B64); rewrite B64_val in *; lia|].
    change (2 ^ 128) with (B64 * B64) in *.
    unfold u64 in *. rewrite B64_val in *. lia.
  - exists 0.
    rewrite (Z.mod_small _ (2 ^ 128)) by (change (2 ^ 128) with (B64 * B64); rewrite B64_val in *; lia).
    destruct (lohi (a - (b + bit))) as (H1 & H2 & H3); [rewrite B64_val in *; lia|].
    unfold u64 in *. rewrite B64_val in *. lia.
Qed.

Lemma land_mask m bit : u64 m -> (bit = 0 \/ bit = 1) -> Z.land m (bit * (B64 - 1)) = bit * m.
Proof.
  intros H [-> | ->].
  - rewrite !Z.mul_0_l. apply Z.land_0_r.
  - rewrite !Z.mul_1_l. change (B64 - 1) with (Z.ones 64). rewrite Z.land_ones by lia.
    apply Z.mod_small. exact H.
Qed.

Lemma u64_0 : u64 0. Proof. unfold u64. rewrite B64_val. lia. Qed.
Lemma u64_bit_mul bit m : u64 m -> (bit = 0 \/ bit = 1) -> u64 (bit * m).
Proof. intros H [-> | ->]; unfold u64 in *; lia. Qed.
Lemma u64_mod x : u64 (x mod B64).
Proof. apply Z.mod_pos_bound. reflexivity. Qed.
#[global] Hint Resolve u64_0 u64_bit_mul u64_mod : u64.

Ltac mac_step :=
  match goal with
  | |- context [let '(_, _) := mac ?a ?b ?c ?d in _] =>
      let x := fresh "r" in let y := fresh "c" in let E := fresh "E" in
      let H1 := fresh "H" in let H2 := fresh "U" in let H3 := fresh "U" in
      destruct (mac a b c d) as [x y] eqn:E;
      apply mac_spec in E; [|auto with u64..];
      destruct E as (H1 & H2 & H3)
  | |- context [let '(_, _) := adc ?a ?b ?d in _] =>
      let x := fresh "r" in let y := fresh "c" in let E := fresh "E" in
      let H1 := fresh "H" in let H2 := fresh "U" in let H3 := fresh "U" in
      destruct (adc a b d) as [x y] eqn:E;
      apply adc_spec in E; [|auto with u64..];
      destruct E as (H1 & H2 & H3)
  end.

Ltac sbb_step bit Hb :=
  match goal with
  | |- context [let '(_, _) := sbb ?a ?b ?d in _] =>
      let x := fresh "d" in let y := fresh "w" in let E := fresh "E" in
      destruct (sbb a b d) as [x y] eqn:E;
      apply (sbb_spec _ _ _ _ _ bit) in E; [|solve [auto with u64]..|try reflexivity; assumption|exact Hb];
      let b' := fresh "bit" in let Ey := fresh "Y" in let Hb' := fresh "HB" in
      let H1 := fresh "H" in let H2 := fresh "U" in
      destruct E as (b' & Ey & Hb' & H1 & H2)
  end.

(** [sub] on arbitrary limbs: the exact integer result with the borrow. *)
Lemma sub_raw P q a b : valid P q -> limbs_ok a -> limbs_ok b ->
  exists bit lost, (bit = 0 \/ bit = 1) /\ limbs_ok (sub P a b) /\
   (bit = 1 <-> val a < val b) /\
   val (sub P a b) = val a - val b + bit * q - (lost - bit) * (BB * B64) .
Proof.
  intros V Ha Hb. pose proof (v_ml _ _ V) as Hm. pose proof (v_m _ _ V) as Hq.
  destruct a as [a0 a1 a2 a3 a4], b as [b0 b1 b2 b3 b4].
  unfold sub. destruct (MODULUS P) as [m0 m1 m2 m3 m4]. unfold limbs_ok, val in *. cbn [l0 l1 l2 l3 l4] in *.
  destruct Ha as (?&?&?&?&?), Hb as (?&?&?&?&?), Hm as (?&?&?&?&?).
  sbb_step 0 (or_introl eq_refl : 0 = 0 \/ 0 = 1).
  sbb_step bit HB. sbb_step bit0 HB0. sbb_step bit1 HB1. sbb_step bit2 HB2.
  subst w3. rewrite !land_mask by assumption.
  do 5 mac_step.
  exists bit3, c3. cbn [l0 l1 l2 l3 l4].
  split; [assumption|]. split; [tauto|].
  split.
  - assert (Ev : d + B64 * (d0 + B64 * (d1 + B64 * (d2 + B64 * d3))) =
       a0 + B64 * (a1 + B64 * (a2 + B64 * (a3 + B64 * a4))) - (b0 + B64 * (b1 + B64 * (b2 + B64 * (b3 + B64 * b4)))) + BB * B64 * bit3).
    { subst d d0 d1 d2 d3. unfold BB. ring. }
    assert (0 <= d + B64 * (d0 + B64 * (d1 + B64 * (d2 + B64 * d3))) < BB * B64).
    { unfold u64, BB in *. rewrite B64_val in *. lia. }
    unfold BB in *. rewrite B64_val in *. lia.
  - subst. unfold BB. ring.
Qed.

(** subtraction used as a final reduction, and between reduced elements *)
Lemma val_nonneg a : limbs_ok a -> 0 <= val a < BB * B64.
Proof. intros (?&?&?&?&?). unfold u64, val, BB in *. rewrite B64_val in *. lia. Qed.

Lemma q_lt P q : valid P q -> q < BB.
Proof.
  intro V. rewrite <- (v_m _ _ V). destruct (v_ml _ _ V) as (?&?&?&?&?).
  unfold val. rewrite (v_m4 _ _ V). unfold u64, BB in *. rewrite B64_val in *. lia.
Qed.

Lemma sub_reduce P q a : valid P q -> limbs_ok a -> val a < 2 * q ->
  wf q (sub P a (MODULUS P)) /\ val (sub P a (MODULUS P)) = val a mod q.
Proof.
  intros V Ha Hlt.
  destruct (sub_raw P q a (MODULUS P) V Ha (v_ml _ _ V)) as (bit & lost & Hb & Hl & Hiff & Hv).
  pose proof (val_nonneg _ Hl). pose proof (val_nonneg _ Ha). pose proof (q_lt _ _ V) as Hq. pose proof (v_q _ _ V).
  rewrite (v_m _ _ V) in *.
  assert (Hbb : BB * B64 = 2 ^ 320) by reflexivity. assert (BB = 2 ^ 256) by reflexivity.
  assert (lost - bit = 0) by (destruct Hb; subst bit; lia).
  destruct Hb; subst bit.
  - assert (~ val a < q) by (intro A; apply Hiff in A; discriminate).
    assert (E : val (sub P a (MODULUS P)) = val a mod q)
      by (apply (Z.mod_unique_pos _ _ 1); lia).
    split; [split; [assumption|]|assumption]. lia.
  - assert (val a < q) by (apply Hiff; reflexivity).
    assert (E : val (sub P a (MODULUS P)) = val a mod q)
      by (apply (Z.mod_unique_pos _ _ 0); lia).
    split; [split; [assumption|]|assumption]. lia.
Qed.

Lemma sub_spec P q a b : valid P q -> wf q a -> wf q b ->
  wf q (sub P a b) /\ val (sub P a b) = (val a - val b) mod q.
Proof.
  intros V [Ha Hla] [Hb Hlb].
  destruct (sub_raw P q a b V Ha Hb) as (bit & lost & Hbit & Hl & Hiff & Hv).
  pose proof (val_nonneg _ Hl). pose proof (val_nonneg _ Ha). pose proof (val_nonneg _ Hb).
  pose proof (q_lt _ _ V) as Hq. pose proof (v_q _ _ V).
  assert (Hbb : BB * B64 = 2 ^ 320) by reflexivity. assert (BB = 2 ^ 256) by reflexivity.
  assert (lost - bit = 0) by (destruct Hbit; subst bit; lia).
  destruct Hbit; subst bit.
  - assert (~ val a < val b) by (intro A; apply Hiff in A; discriminate).
    assert (E : val (sub P a b) = (val a - val b) mod q)
      by (apply (Z.mod_unique_pos _ _ 0); lia).
    split; [split; [assumption|]|assumption]. lia.
  - assert (val a < val b) by (apply Hiff; reflexivity).
    assert (E : val (sub P a b) = (val a - val b) mod q)
      by (apply (Z.mod_unique_pos _ _ (-1)); lia).
    split; [split; [assumption|]|assumption]. lia.
Qed.

Lemma add_spec P q a b : valid P q -> wf q a -> wf q b ->
  wf q (add P a b) /\ val (add P a b) = (val a + val b) mod q.
Proof.
  intros V [Ha Hla] [Hb Hlb].
  pose proof (val_nonneg _ Ha). pose proof (val_nonneg _ Hb). pose proof (q_lt _ _ V) as Hq.
  destruct a as [a0 a1 a2 a3 a4], b as [b0 b1 b2 b3 b4].
  destruct Ha as (?&?&?&?&?), Hb as (?&?&?&?&?). cbn [l0 l1 l2 l3 l4] in *.
  unfold add. cbn [l0 l1 l2 l3 l4]. do 5 mac_step.
  assert (Hs : limbs_ok (Fe r r0 r1 r2 r3)) by (unfold limbs_ok; cbn; tauto).
  assert (Ev : val (Fe r r0 r1 r2 r3) = val (Fe a0 a1 a2 a3 a4) + val (Fe b0 b1 b2 b3 b4) - c3 * (BB * B64)).
  { unfold val. cbn [l0 l1 l2 l3 l4]. subst. unfold BB. ring. }
  pose proof (val_nonneg _ Hs).
  assert (c3 = 0).
  { assert (Hbb : BB * B64 = 2 ^ 320) by reflexivity. assert (BB = 2 ^ 256) by reflexivity.
    assert (0 <= c3) by (unfold u64 in *; lia). lia. }
  destruct (sub_reduce P q (Fe r r0 r1 r2 r3) V Hs) as [W1 W2]; [lia|].
  split; [exact W1|]. rewrite W2, Ev. f_equal. lia.
Qed.

Lemma lor_zero a b : 0 <= a -> 0 <= b -> Z.lor a b = 0 <-> a = 0 /\ b = 0.
Proof. intros. rewrite Z.lor_eq_0_iff. tauto. Qed.

Lemma neg_spec P q a : valid P q -> wf q a ->
  wf q (neg P a) /\ val (neg P a) = (- val a) mod q.
Proof.
  intros V [Ha Hla].
  pose proof (val_nonneg _ Ha) as Hna. pose proof (q_lt _ _ V) as Hq. pose proof (v_q _ _ V) as Hq1.
  pose proof (v_ml _ _ V) as Hm. pose proof (v_m _ _ V) as Hqm.
  unfold neg. destruct (MODULUS P) as [m0 m1 m2 m3 m4].
  destruct a as [a0 a1 a2 a3 a4].
  destruct Ha as (?&?&?&?&?), Hm as (?&?&?&?&?). cbn [l0 l1 l2 l3 l4] in *.
  sbb_step 0 (or_introl eq_refl : 0 = 0 \/ 0 = 1).
  sbb_step bit HB. sbb_step bit0 HB0. sbb_step bit1 HB1. sbb_step bit2 HB2.
  assert (Hd : limbs_ok (Fe d d0 d1 d2 d3)) by (unfold limbs_ok; cbn; tauto).
  assert (Ev : val (Fe d d0 d1 d2 d3) = q - val (Fe a0 a1 a2 a3 a4) + bit3 * (BB * B64)).
  { rewrite <- Hqm. unfold val. cbn [l0 l1 l2 l3 l4]. subst. unfold BB. ring. }
  pose proof (val_nonneg _ Hd).
  assert (Hbb : BB * B64 = 2 ^ 320) by reflexivity. assert (BB = 2 ^ 256) by reflexivity.
  assert (bit3 = 0) by (destruct HB3; lia).
  destruct (Z.eqb_spec (Z.lor (Z.lor (Z.lor (Z.lor a0 a1) a2) a3) a4) 0) as [E|E].
  - replace ((1 - 1) mod B64) with 0 by reflexivity. rewrite !Z.land_0_r.
    unfold u64 in *.
    assert (Hz : val (Fe a0 a1 a2 a3 a4) = 0).
    { rewrite !Z.lor_eq_0_iff in E. destruct E as ((((-> & ->) & ->) & ->) & ->). reflexivity. }
    rewrite Hz. split; [|reflexivity]. split; [|unfold val; cbn; lia].
    unfold limbs_ok, u64. cbn. lia.
  - replace ((0 - 1) mod B64) with (1 * (B64 - 1)) by reflexivity.
    rewrite !land_mask by (auto; tauto). rewrite !Z.mul_1_l.
    assert (val (Fe a0 a1 a2 a3 a4) <> 0).
    { intro Z0. apply E. unfold val in Z0. cbn [l0 l1 l2 l3 l4] in Z0. unfold u64 in *.
      assert (a0 = 0 /\ a1 = 0 /\ a2 = 0 /\ a3 = 0 /\ a4 = 0) as (-> & -> & -> & -> & ->) by (rewrite B64_val in *; lia).
      reflexivity. }
    assert (E2 : val (Fe d d0 d1 d2 d3) = (- val (Fe a0 a1 a2 a3 a4)) mod q)
      by (apply (Z.mod_unique_pos _ _ (-1)); lia).
    split; [split; [assumption|]|assumption]. lia.
Qed.

(** Montgomery reduction *)
Lemma low_zero r k m inv x c :
  (m * inv + 1) mod B64 = 0 -> k = (r * inv) mod B64 ->
  x = r + k * m + 0 - B64 * c -> u64 x -> x = 0.
Proof.
  intros Hm -> Hx Hu.
  assert (Hx0 : x mod B64 = 0).
  { rewrite Hx. replace (r + (r * inv) mod B64 * m + 0 - B64 * c) with (r + (r * inv) mod B64 * m + (- c) * B64) by ring.
    rewrite Z_mod_plus_full. rewrite Z.add_mod, Z.mul_mod, Z.mod_mod, <- Z.mul_mod, <- Z.add_mod by discriminate.
    replace (r + r * inv * m) with (r * (m * inv + 1)) by ring.
    rewrite Z.mul_mod, Hm, Z.mul_0_r by discriminate. reflexivity. }
  rewrite Z.mod_small in Hx0 by exact Hu. exact Hx0.
Qed.

