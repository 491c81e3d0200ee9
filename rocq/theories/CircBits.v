(** Bit decompositions, comparators and K(). *)
From Coq Require Import ZArith List Bool Arith Lia Field Ring.
From Verif Require Import Base Primes Field Zq CurveSpec CurveProofs Secp SecpOrder CircModel CircSpec CircProofs.
Import ListNotations.
Local Open Scope Z_scope.

Lemma p_val : p = 115792089237316195423570985008687907853269984665640564039457584007908834671663.
Proof. reflexivity. Qed.
Lemma fp_0 : fp 0 = f0. Proof. reflexivity. Qed.
Lemma fp_1 : fp 1 = f1. Proof. reflexivity. Qed.
Lemma fp_inj a b : 0 <= a < p -> 0 <= b < p -> fp a = fp b -> a = b.
Proof. intros A B H. apply fp_eq in H. rewrite !Z.mod_small in H by assumption. exact H. Qed.
Lemma fp_neq a b : 0 <= a < p -> 0 <= b < p -> a <> b -> fp a <> fp b.
Proof. intros A B N H. apply N. apply fp_inj; assumption. Qed.
Lemma zval_fp a : 0 <= a < p -> zval (fp a) = a.
Proof. intro A. apply Z.mod_small. exact A. Qed.
Lemma fp_zval (x : Fp) : fp (zval x) = x.
Proof. exact (zof_zval p prime_p x). Qed.
Lemma zval_rng (x : Fp) : 0 <= zval x < p.
Proof. exact (zval_range p x). Qed.

Add Field Kfp : (fth Fp).

Lemma two_pow_fp n : (two_pow n : Fp) = fp (2 ^ Z.of_nat n).
Proof.
  induction n as [|n IH]; [reflexivity|]. cbn [two_pow]. rewrite IH, <- fp_add. f_equal.
  rewrite Nat2Z.inj_succ, Z.pow_succ_r by lia. lia.
Qed.

(** integer of a little-endian list of bits *)
Fixpoint bits_val (l : list Fp) : Z :=
  match l with [] => 0 | b :: t => (if feqb b f0 then 0 else 1) + 2 * bits_val t end.

Lemma zbits_length n v : length (zbits n v) = n.
Proof. unfold zbits. rewrite map_length, seq_length. reflexivity. Qed.
Lemma zbits_nth n v i : (i < n)%nat -> nth i (zbits n v) f0 = fp (Z.b2z (Z.testbit v (Z.of_nat i))).
Proof.
  intro H. unfold zbits. rewrite nth_indep with (d' := fp (Z.b2z (Z.testbit v (Z.of_nat 0)))) by (rewrite map_length, seq_length; exact H).
  rewrite (map_nth (fun i => fp (Z.b2z (Z.testbit v (Z.of_nat i)))) (seq 0 n) 0%nat i), seq_nth by exact H. reflexivity.
Qed.
Lemma zbits_S n v : zbits (S n) v = fp (Z.b2z (Z.odd v)) :: zbits n (Z.div2 v).
Proof.
  unfold zbits. cbn [seq map]. f_equal.
  rewrite <- seq_shift, map_map. apply map_ext. intro i. rewrite Nat2Z.inj_succ.
  rewrite Z.div2_spec, Z.shiftr_spec by lia. reflexivity.
Qed.
Lemma is_bit_iff (b : Fp) : is_bit b = true <-> b = f0 \/ b = f1.
Proof.
  unfold is_bit. rewrite feqb_true. split.
  - intro H. apply fmul_eq_0 in H. destruct H as [H|H]; [tauto|]. right. apply (proj1 (fsub_eq_0 Fp _ _)) in H. exact H.
  - intros [-> | ->]; ring.
Qed.
Lemma zbits_bit n v : forallb is_bit (zbits n v) = true.
Proof.
  apply forallb_forall. intros b H. unfold zbits in H. apply in_map_iff in H. destruct H as (i & <- & _).
  apply is_bit_iff. destruct (Z.testbit _ _); [right|left]; reflexivity.
Qed.
Lemma lc_scale (e : Fp) l : lc e l = fmul e (lc f1 l).
Proof.
  assert (G : forall (l : list Fp) (e c : Fp), lc (fmul c e) l = fmul c (lc e l)).
  { clear. induction l as [|b t IH]; intros e c; cbn [lc]; [ring|].
    replace (fadd (fmul c e) (fmul c e)) with (fmul c (fadd e e)) by ring. rewrite IH. ring. }
  rewrite <- (G l f1 e). f_equal. ring.
Qed.
Lemma lc_zbits n : forall v, 0 <= v < 2 ^ Z.of_nat n -> lc (f1 : Fp) (zbits n v) = fp v.
Proof.
  induction n as [|n IH]; intros v H.
  - change (2 ^ Z.of_nat 0) with 1 in H. assert (v = 0) by lia. subst v. reflexivity.
  - rewrite zbits_S. cbn [lc]. rewrite lc_scale, IH.
    + pose proof (Z.div2_odd v) as E. rewrite E at 3. rewrite fp_add, fp_mul.
      change (fp 2) with (fadd (f1 : Fp) f1). ring.
    + rewrite Nat2Z.inj_succ, Z.pow_succ_r in H by lia. pose proof (Z.div2_odd v) as E.
      destruct (Z.odd v); cbn [Z.b2z] in E; lia.
Qed.
Lemma num2bits_zbits n v : 0 <= v < 2 ^ Z.of_nat n -> num2bits n (zbits n v) (fp v) = Some (zbits n v).
Proof.
  intro H. unfold num2bits. rewrite zbits_length, Nat.eqb_refl, zbits_bit, lc_zbits by exact H.
  rewrite feqb_refl. reflexivity.
Qed.

(** the generator's bits are those of the integer *)
Lemma h_bits_fp n v : 0 <= v < p -> h_bits n (fp v) = zbits n v.
Proof.
  intro H. unfold h_bits, zbits. rewrite zval_fp by exact H. apply map_ext. intro i. f_equal.
  change 1 with (Z.ones 1). rewrite Z.land_ones by lia. change (2 ^ 1) with 2.
  rewrite <- Z.bit0_mod, Z.shiftr_spec by lia. f_equal; f_equal; lia.
Qed.

(** and every accepted decomposition is one of an integer congruent to the input *)
Lemma bits_val_range (l : list Fp) : 0 <= bits_val l < 2 ^ Z.of_nat (length l).
Proof.
  induction l as [|b t IH]; [cbn; lia|]. cbn [bits_val length]. rewrite Nat2Z.inj_succ, Z.pow_succ_r by lia.
  destruct (feqb b f0); lia.
Qed.
Lemma bits_val_lc (l : list Fp) : forallb is_bit l = true -> lc f1 l = fp (bits_val l).
Proof.
  induction l as [|b t IH]; [reflexivity|]. cbn [forallb lc bits_val]. intro H. apply andb_prop in H. destruct H as [Hb Ht].
  rewrite lc_scale, (IH Ht), fp_add, fp_mul. change (fp 2) with (fadd (f1 : Fp) f1).
  apply is_bit_iff in Hb. destruct Hb as [-> | ->].
  - rewrite feqb_refl, fp_0. ring.
  - destruct (feqb_spec Fp f1 f0) as [E|_]; [exfalso; exact (f1_neq_0 Fp E)|]. rewrite fp_1. ring.
Qed.
Lemma bits_val_zbits (l : list Fp) : forallb is_bit l = true -> l = zbits (length l) (bits_val l).
Proof.
  induction l as [|b t IH]; [reflexivity|]. cbn [forallb]. intro H. apply andb_prop in H. destruct H as [Hb Ht].
  cbn [length]. rewrite zbits_S. cbn [bits_val]. apply is_bit_iff in Hb.
  assert (E : Z.odd ((if feqb b f0 then 0 else 1) + 2 * bits_val t) = negb (feqb b f0) /\
              Z.div2 ((if feqb b f0 then 0 else 1) + 2 * bits_val t) = bits_val t).
  { destruct (feqb b f0).
    - split; [rewrite Z.odd_add, Z.odd_mul; reflexivity|]. rewrite Z.div2_div. rewrite Z.add_0_l, Z.mul_comm, Z.div_mul by lia. reflexivity.
    - split; [rewrite Z.odd_add, Z.odd_mul; reflexivity|]. rewrite Z.div2_div. rewrite Z.mul_comm, Z.div_add by lia. reflexivity. }
  destruct E as [E1 E2]. rewrite E1, E2, <- IH by exact Ht. f_equal. destruct Hb as [-> | ->].
  - rewrite feqb_refl. reflexivity.
  - destruct (feqb_spec Fp f1 f0) as [E|_]; [exfalso; exact (f1_neq_0 Fp E)|reflexivity].
Qed.
Lemma num2bits_inv n bits (x : Fp) o : num2bits n bits x = Some o ->
  o = bits /\ length bits = n /\ forallb is_bit bits = true /\ fp (bits_val bits) = x.
Proof.
  unfold num2bits. destruct (length bits =? n)%nat eqn:L; [|discriminate]. apply Nat.eqb_eq in L.
  destruct (forallb is_bit bits) eqn:B; [|discriminate].
  intro H. apply constrain_inv in H. destruct H as [H E]. injection E as <-.
  repeat split; try assumption; try reflexivity. rewrite <- bits_val_lc by exact B. exact H.
Qed.
Lemma num2bits_iff n bits (x : Fp) o : num2bits n bits x = Some o <->
  o = bits /\ exists v, 0 <= v < 2 ^ Z.of_nat n /\ bits = zbits n v /\ x = fp v.
Proof.
  split.
  - intro H. apply num2bits_inv in H. destruct H as (-> & L & B & E). split; [reflexivity|].
    exists (bits_val bits). pose proof (bits_val_range bits) as R. rewrite L in R. repeat split; try lia.
    + rewrite <- L at 1. apply bits_val_zbits. exact B.
    + symmetry. exact E.
  - intros (-> & v & R & -> & ->). apply num2bits_zbits. exact R.
Qed.

(** ** comparators on integers *)
Lemma less_than_ok n a b : 0 <= a + 2 ^ Z.of_nat n - b < 2 ^ Z.of_nat (S n) ->
  less_than n (zbits (S n) (a + 2 ^ Z.of_nat n - b)) (fp a) (fp b) = Some (b2k (a <? b)).
Proof.
  intro H. unfold less_than. rewrite two_pow_fp, <- fp_add, <- fp_sub, num2bits_zbits by exact H.
  rewrite zbits_nth by lia. f_equal.
  assert (E : Z.testbit (a + 2 ^ Z.of_nat n - b) (Z.of_nat n) = negb (a <? b)).
  { rewrite Nat2Z.inj_succ, Z.pow_succ_r in H by lia. rewrite Z.testbit_eqb by lia.
    set (m := 2 ^ Z.of_nat n) in *. assert (0 < m) by (apply Z.pow_pos_nonneg; lia).
    destruct (Z.ltb_spec a b) as [L|L]; cbn [negb].
    - rewrite Z.div_small by lia. reflexivity.
    - replace ((a + m - b) / m) with 1; [reflexivity|].
      apply Z.div_unique with (a - b); [left; lia|lia]. }
  rewrite E. unfold b2k. destruct (a <? b); cbn [negb Z.b2z]; rewrite ?fp_0, ?fp_1; ring.
Qed.

(** ** K() *)
Definition Qlo : Z := Eval vm_compute in lo128 kq.
Definition Qhi : Z := Eval vm_compute in hi128 kq.
Definition Tlo : Z := Eval vm_compute in lo128 tQ.
Definition Thi : Z := Eval vm_compute in hi128 tQ.
Lemma kq_n : kq = n. Proof. reflexivity. Qed.
Lemma kq_split : n = Qhi * 2 ^ 128 + Qlo. Proof. reflexivity. Qed.
Lemma tQ_split : 2 * n - 2 ^ 256 = Thi * 2 ^ 128 + Tlo. Proof. reflexivity. Qed.

(** the values computed by K() from X = slo + tQlo and Y = shi + tQhi *)
Definition kcarry (X : Z) : Z := X / 2 ^ 128.
Definition kisq (X Y : Z) : bool := n <=? Y * 2 ^ 128 + X.
Definition kborrow (X Y : Z) : bool := (X <? Qlo) && kisq X Y.
Definition kklo (X Y : Z) : Z := X + Z.b2z (kborrow X Y) * 2 ^ 128 - Z.b2z (kisq X Y) * Qlo.
Definition kkhi (X Y : Z) : Z := Y - Z.b2z (kborrow X Y) - Z.b2z (kisq X Y) * Qhi.

Definition kadv (dv : Fp -> Fp -> Fp) (X Y : Z) : k_adv :=
  let ahi := Y + kcarry X in
  let alo := X - kcarry X * 2 ^ 128 in
  MkKadv (fp (X - Tlo)) (fp (Y - Thi)) (zbits 129 X) (zbits 130 (Qhi + 2 ^ 129 - ahi))
    (h_inv dv (fsub (fp Qhi) (fp ahi))) (zbits 130 (Qlo + 2 ^ 129 - (alo + 1)))
    (zbits 130 (X + 2 ^ 129 - Qlo)) (zbits 256 (kklo X Y)) (zbits 256 (kkhi X Y)).

Lemma zbits_firstn m n v : (m <= n)%nat -> firstn m (zbits n v) = zbits m v.
Proof.
  intro H. unfold zbits. rewrite firstn_map. f_equal.
  replace n with (m + (n - m))%nat by lia. rewrite seq_app, firstn_app, seq_length, Nat.sub_diag, firstn_O, app_nil_r.
  apply firstn_all2. rewrite seq_length. lia.
Qed.
Lemma b2k_fp b : (b2k b : Fp) = fp (Z.b2z b).
Proof. destruct b; reflexivity. Qed.
Lemma gate_or a b : or_gate (b2k a : Fp) (b2k b) = b2k (a || b).
Proof. unfold or_gate, b2k. destruct a, b; cbn [orb]; ring. Qed.
Lemma gate_and a b : and_gate (b2k a : Fp) (b2k b) = b2k (a && b).
Proof. unfold and_gate, b2k. destruct a, b; cbn [andb]; ring. Qed.
Lemma feqb_fp a b : 0 <= a < p -> 0 <= b < p -> feqb (fp a) (fp b) = (a =? b).
Proof.
  intros A B. destruct (feqb_spec Fp (fp a) (fp b)) as [E|E], (Z.eqb_spec a b) as [F|F]; try reflexivity; exfalso.
  - exact (fp_neq a b A B F E).
  - apply E. rewrite F. reflexivity.
Qed.

Lemma k_gen dv X Y s : division dv -> 0 <= X < 2 ^ 129 -> 0 <= Y <= 2 ^ 129 ->
  0 <= kklo X Y < 2 ^ 256 -> 0 <= kkhi X Y < 2 ^ 256 ->
  k_tmpl (kadv dv X Y) s = Some (zbits 128 (kklo X Y) ++ zbits 128 (kkhi X Y)).
Proof.
  intros Hd HX HY Hlo Hhi. unfold k_tmpl, kadv. cbv zeta.
  cbn [ka_slo ka_shi ka_inBits ka_alpha ka_beta ka_gamma ka_theta ka_klo ka_khi].
  set (c := kcarry X).
  assert (Hc : c = Z.b2z (Z.testbit X 128) /\ 0 <= X - c * 2 ^ 128 < 2 ^ 128 /\ (c = 0 \/ c = 1)).
  { unfold c, kcarry. rewrite Z.testbit_spec' by lia.
    pose proof (Z.div_mod X (2 ^ 128) ltac:(lia)) as D. pose proof (Z.mod_pos_bound X (2 ^ 128) ltac:(lia)) as B.
    assert (G : 0 <= X / 2 ^ 128 < 2) by (split; [apply Z.div_pos; lia|apply Z.div_lt_upper_bound; lia]).
    rewrite (Z.mod_small (X / 2 ^ 128) 2) by lia. repeat split; try lia. }
  destruct Hc as (Hc & Hr & Hc01).
  assert (Q1 : qlo = fp Qlo) by reflexivity. assert (Q2 : qhi = fp Qhi) by reflexivity.
  assert (T1 : tQlo = fp Tlo) by reflexivity. assert (T2 : tQhi = fp Thi) by reflexivity.
  rewrite Q1, Q2, T1, T2. clear Q1 Q2 T1 T2.
  rewrite <- !(fp_add (X - Tlo) Tlo). replace (X - Tlo + Tlo) with X by lia.
  rewrite num2bits_zbits by exact HX. rewrite zbits_nth by lia. change (Z.of_nat 128) with 128. rewrite <- Hc.
  rewrite <- !(fp_add (Y - Thi) Thi). replace (Y - Thi + Thi) with Y by lia.
  rewrite !(two_pow_fp 128). change (2 ^ Z.of_nat 128) with (2 ^ 128).
  rewrite <- !fp_add, <- (fp_mul c), <- (fp_sub X (c * 2 ^ 128)).
  unfold greater_than, greater_eq_than.
  change (2 ^ 129) with (2 ^ Z.of_nat 129).
  rewrite less_than_ok; [|change (2 ^ Z.of_nat 129) with (2 ^ 129); change (2 ^ Z.of_nat 130) with (2 ^ 130); unfold Qhi; lia].
  unfold is_equal. rewrite (h_is_zero dv Hd), (h_isz_ok dv Hd).
  replace (feqb (fsub (fp Qhi) (fp (Y + c))) f0) with (Y + c =? Qhi).
  2:{ rewrite <- (feqb_fp (Y + c) Qhi) by (unfold Qhi; rewrite p_val; lia). destruct (feqb_spec Fp (fp (Y + c)) (fp Qhi)) as [E|E].
      - symmetry. apply feqb_true. rewrite E. ring.
      - symmetry. destruct (feqb_spec Fp (fsub (fp Qhi) (fp (Y + c))) f0) as [F|]; [|reflexivity]. exfalso. apply E. symmetry.
        apply (proj1 (fsub_eq_0 Fp _ _)) in F. exact F. }
  replace (fadd (fp (X - c * 2 ^ 128)) f1) with (fp (X - c * 2 ^ 128 + 1)) by (rewrite fp_add; reflexivity).
  rewrite less_than_ok; [|change (2 ^ Z.of_nat 129) with (2 ^ 129); change (2 ^ Z.of_nat 130) with (2 ^ 130); unfold Qlo; lia].
  rewrite less_than_ok; [|change (2 ^ Z.of_nat 129) with (2 ^ 129); change (2 ^ Z.of_nat 130) with (2 ^ 130); unfold Qlo; lia].
  rewrite gate_and, gate_or, gate_and.
  assert (EQ : ((Y + c =? Qhi) && (Qlo <? X - c * 2 ^ 128 + 1) || (Qhi <? Y + c))%bool = kisq X Y).
  { unfold kisq. rewrite kq_split.
    destruct (Z.eqb_spec (Y + c) Qhi) as [E1|E1], (Z.ltb_spec Qlo (X - c * 2 ^ 128 + 1)) as [E2|E2], (Z.ltb_spec Qhi (Y + c)) as [E3|E3],
      (Z.leb_spec (Qhi * 2 ^ 128 + Qlo) (Y * 2 ^ 128 + X)) as [E4|E4]; cbn [andb orb]; try reflexivity; unfold Qlo, Qhi in *; exfalso; lia. }
  rewrite EQ. fold (kborrow X Y). rewrite !b2k_fp.
  replace (fsub (fadd (fp X) (fmul (fp (Z.b2z (kborrow X Y))) (fp (2 ^ 128)))) (fmul (fp (Z.b2z (kisq X Y))) (fp Qlo)))
    with (fp (kklo X Y)) by (unfold kklo; rewrite !fp_sub, !fp_add, !fp_mul; reflexivity).
  replace (fsub (fsub (fp Y) (fmul (fp (Z.b2z (kborrow X Y))) f1)) (fmul (fp (Z.b2z (kisq X Y))) (fp Qhi)))
    with (fp (kkhi X Y)) by (unfold kkhi; rewrite !fp_sub, !fp_mul; ring).
  rewrite !num2bits_zbits by (change (2 ^ Z.of_nat 256) with (2 ^ 256); assumption).
  rewrite !zbits_firstn by lia. reflexivity.
Qed.

Lemma zbits_app a b u v : 0 <= u < 2 ^ Z.of_nat a -> zbits a u ++ zbits b v = zbits (a + b) (u + v * 2 ^ Z.of_nat a).
Proof.
  revert u. induction a as [|a IH]; intros u H.
  - change (2 ^ Z.of_nat 0) with 1 in *. assert (u = 0) by lia. subst u. cbn [app Nat.add]. change (zbits 0 0) with (@nil Fp). cbn [app]. f_equal. lia.
  - rewrite Nat2Z.inj_succ, Z.pow_succ_r in * by lia. rewrite zbits_S. cbn [app Nat.add]. rewrite zbits_S.
    set (m := 2 ^ Z.of_nat a) in *. f_equal.
    + f_equal. f_equal. replace (u + v * (2 * m)) with (u + 2 * (v * m)) by lia. rewrite Z.odd_add_mul_2. reflexivity.
    + pose proof (Z.div2_odd u). rewrite IH by (destruct (Z.odd u); cbn [Z.b2z] in *; lia).
      f_equal. rewrite !Z.div2_div. replace (u + v * (2 * m)) with (u + v * m * 2) by lia. rewrite Z.div_add by lia. reflexivity.
Qed.
Lemma zbits_mod a u : zbits a (u mod 2 ^ Z.of_nat a) = zbits a u.
Proof.
  unfold zbits. apply map_ext_in. intros i Hi. apply in_seq in Hi. f_equal. f_equal. apply Z.mod_pow2_bits_low. lia.
Qed.
Lemma fdiv_division (K : Fld) : division (@fdiv K).
Proof.
  intros a b H. rewrite (Fdiv_def (fth K)). transitivity (fmul a (fmul (finv b) b)); [symmetry; apply (Rmul_assoc (F_R (fth K)))|].
  rewrite (Finv_l (fth K) b H). rewrite (Rmul_comm (F_R (fth K))). apply (Rmul_1_l (F_R (fth K))).
Qed.

(** every 256-bit scalar is accepted whatever s is *)
Lemma k_forge s k : 0 <= k < 2 ^ 256 -> exists w, k_tmpl w s = Some (zbits 256 k).
Proof.
  intro H. pose proof (Z.div_mod k (2 ^ 128) ltac:(lia)) as D. pose proof (Z.mod_pos_bound k (2 ^ 128) ltac:(lia)) as B.
  assert (B2 : 0 <= k / 2 ^ 128 < 2 ^ 128) by (split; [apply Z.div_pos; lia|apply Z.div_lt_upper_bound; lia]).
  set (lo := k mod 2 ^ 128) in *. set (hi := k / 2 ^ 128) in *.
  assert (E1 : kisq (lo + Qlo) (hi + Qhi) = true) by (unfold kisq; apply Z.leb_le; rewrite kq_split; lia).
  assert (E2 : kborrow (lo + Qlo) (hi + Qhi) = false) by (unfold kborrow; apply andb_false_intro1, Z.ltb_ge; lia).
  assert (E3 : kklo (lo + Qlo) (hi + Qhi) = lo) by (unfold kklo; rewrite E1, E2; cbn [Z.b2z]; lia).
  assert (E4 : kkhi (lo + Qlo) (hi + Qhi) = hi) by (unfold kkhi; rewrite E1, E2; cbn [Z.b2z]; lia).
  exists (kadv fdiv (lo + Qlo) (hi + Qhi)). rewrite k_gen.
  - rewrite E3, E4. rewrite zbits_app by (change (2 ^ Z.of_nat 128) with (2 ^ 128); lia). do 2 f_equal.
    change (2 ^ Z.of_nat 128) with (2 ^ 128). lia.
  - apply fdiv_division.
  - unfold Qlo. lia.
  - unfold Qhi. lia.
  - rewrite E3. lia.
  - rewrite E4. lia.
Qed.

(** what the witness generator computes *)
Definition honest_k (s : Z) : Z :=
  if (2 ^ 128 - Tlo <=? s) && (s <? 2 ^ 128) then (s - 2 ^ 256) mod n - 2 ^ 128 else (s - 2 ^ 256) mod n.

Lemma s_mod s : 0 <= s < p -> (s - 2 ^ 256) mod n = if n <=? s + (2 * n - 2 ^ 256) then s + n - 2 ^ 256 else s + 2 * n - 2 ^ 256.
Proof.
  intro H. rewrite p_val in H. destruct (Z.leb_spec n (s + (2 * n - 2 ^ 256))) as [L|L].
  - symmetry. apply Z.mod_unique with (-1); [left; unfold n in *; lia|lia].
  - symmetry. apply Z.mod_unique with (-2); [left; unfold n in *; lia|lia].
Qed.

Ltac kl := repeat match goal with a := _ + _ |- _ => unfold a in *; clear a end; unfold Tlo, Thi, Qlo, Qhi, n in *; lia.
Lemma h_lt_fp n a b : 0 <= a + 2 ^ Z.of_nat n - b < p -> h_lt n (fp a) (fp b) = zbits (S n) (a + 2 ^ Z.of_nat n - b).
Proof. intro H. unfold h_lt. rewrite two_pow_fp, <- fp_add, <- fp_sub, h_bits_fp by exact H. reflexivity. Qed.
Lemma h_ltv_fp n a b : 0 <= a + 2 ^ Z.of_nat n - b < p -> 0 <= a + 2 ^ Z.of_nat n - b < 2 ^ Z.of_nat (S n) ->
  h_ltv n (fp a) (fp b) = b2k (a <? b).
Proof.
  intros H1 H2. pose proof (less_than_ok n a b H2) as E. unfold less_than in E.
  rewrite two_pow_fp, <- fp_add, <- fp_sub, num2bits_zbits in E by exact H2. injection E as E.
  unfold h_ltv. rewrite h_lt_fp by exact H1. exact E.
Qed.
Lemma kcarry_ok X : 0 <= X < 2 ^ 129 ->
  kcarry X = Z.b2z (Z.testbit X 128) /\ 0 <= X - kcarry X * 2 ^ 128 < 2 ^ 128 /\ (kcarry X = 0 \/ kcarry X = 1).
Proof.
  intro HX. unfold kcarry. rewrite Z.testbit_spec' by lia.
  pose proof (Z.div_mod X (2 ^ 128) ltac:(lia)) as D. pose proof (Z.mod_pos_bound X (2 ^ 128) ltac:(lia)) as B.
  assert (G : 0 <= X / 2 ^ 128 < 2) by (split; [apply Z.div_pos; lia|apply Z.div_lt_upper_bound; lia]).
  rewrite (Z.mod_small (X / 2 ^ 128) 2) by lia. repeat split; try lia.
Qed.
Lemma kisq_ok X Y c : 0 <= X - c * 2 ^ 128 < 2 ^ 128 ->
  ((Y + c =? Qhi) && (Qlo <? X - c * 2 ^ 128 + 1) || (Qhi <? Y + c))%bool = kisq X Y.
Proof.
  intro Hr. unfold kisq. rewrite kq_split.
  destruct (Z.eqb_spec (Y + c) Qhi) as [E1|E1], (Z.ltb_spec Qlo (X - c * 2 ^ 128 + 1)) as [E2|E2], (Z.ltb_spec Qhi (Y + c)) as [E3|E3],
    (Z.leb_spec (Qhi * 2 ^ 128 + Qlo) (Y * 2 ^ 128 + X)) as [E4|E4]; cbn [andb orb]; try reflexivity; unfold Qlo, Qhi in *; exfalso; lia.
Qed.
Lemma fsub_fp_eqb a b : 0 <= a < p -> 0 <= b < p -> feqb (fsub (fp b) (fp a)) f0 = (a =? b).
Proof.
  intros A B. rewrite <- (feqb_fp a b A B). destruct (feqb_spec Fp (fp a) (fp b)) as [E|E].
  - apply feqb_true. rewrite E. ring.
  - destruct (feqb_spec Fp (fsub (fp b) (fp a)) f0) as [F|]; [|reflexivity]. exfalso. apply E. symmetry.
    apply (proj1 (fsub_eq_0 Fp _ _)) in F. exact F.
Qed.

Lemma k_honest dv s : division dv -> k_tmpl (h_k dv s) s = Some (zbits 256 (honest_k (zval s))).
Proof.
  intro Hd. pose proof (zval_rng s) as R. set (v := zval s) in *.
  pose proof (Z.div_mod v (2 ^ 128) ltac:(lia)) as D. pose proof (Z.mod_pos_bound v (2 ^ 128) ltac:(lia)) as B.
  assert (B2 : 0 <= v / 2 ^ 128 < 2 ^ 128) by (rewrite p_val in R; split; [apply Z.div_pos; lia|apply Z.div_lt_upper_bound; lia]).
  assert (L : lo128 v = v mod 2 ^ 128) by (unfold lo128; change (2 ^ 128 - 1) with (Z.ones 128); apply Z.land_ones; lia).
  assert (U : hi128 v = v / 2 ^ 128) by (unfold hi128; apply Z.shiftr_div_pow2; lia).
  set (lo := v mod 2 ^ 128) in *. set (hi := v / 2 ^ 128) in *.
  set (X := lo + Tlo). set (Y := hi + Thi). rewrite p_val in R.
  assert (HX : 0 <= X < 2 ^ 129) by (kl). assert (HY : 0 <= Y <= 2 ^ 129) by (kl).
  assert (SUM : Y * 2 ^ 128 + X = v + (2 * n - 2 ^ 256)) by (rewrite tQ_split; kl).
  assert (KQ : kisq X Y = (n <=? v + (2 * n - 2 ^ 256))) by (unfold kisq; rewrite SUM; reflexivity).
  assert (Hlo : 0 <= kklo X Y < 2 ^ 129).
  { unfold kklo, kborrow. destruct (kisq X Y); destruct (Z.ltb_spec X Qlo) as [C|C]; cbn [andb Z.b2z]; kl. }
  assert (Hhi : 0 <= kkhi X Y < 2 ^ 128 /\
     kkhi X Y * 2 ^ 128 + kklo X Y mod 2 ^ 128 = honest_k v).
  { unfold honest_k. rewrite (s_mod v) by (rewrite p_val; exact R). rewrite <- KQ. clear KQ. unfold kkhi, kklo, kborrow, kisq.
    destruct (Z.leb_spec n (Y * 2 ^ 128 + X)) as [G|G].
    - (* quotient one *)
      replace ((2 ^ 128 - Tlo <=? v) && (v <? 2 ^ 128))%bool with false.
      2:{ symmetry. apply andb_false_intro2, Z.ltb_ge. rewrite SUM in G. kl. }
      destruct (Z.ltb_spec X Qlo) as [C|C]; cbn [andb Z.b2z]; rewrite Z.mod_small by (kl);
        kl.
    - destruct (Z.ltb_spec X Qlo) as [C|C]; cbn [andb Z.b2z]; rewrite ?Z.mul_0_l, ?Z.add_0_r, ?Z.sub_0_r.
      + (* no carry *)
        rewrite Z.mod_small by (kl).
        replace ((2 ^ 128 - Tlo <=? v) && (v <? 2 ^ 128))%bool with false; [kl|].
        symmetry. destruct (Z.ltb_spec v (2 ^ 128)) as [V|V]; [|apply andb_false_r].
        apply andb_false_intro1, Z.leb_gt. assert (lo = v) by (unfold lo; apply Z.mod_small; lia). kl.
      + destruct (Z.ltb_spec v (2 ^ 128)) as [V|V].
        * assert (lo = v) by (unfold lo; apply Z.mod_small; lia). assert (hi = 0) by (unfold hi; apply Z.div_small; lia).
          destruct (Z.leb_spec (2 ^ 128 - Tlo) v) as [W|W]; cbn [andb].
          -- replace (X mod 2 ^ 128) with (X - 2 ^ 128); [kl|].
             apply Z.mod_unique with 1; [left; kl|lia].
          -- rewrite Z.mod_small by (kl). kl.
        * rewrite andb_false_r. assert (hi = 1) by (kl).
          rewrite Z.mod_small by (kl). kl. }
  destruct Hhi as [Hhi EK].
  assert (HK : h_k dv s = kadv dv X Y).
  { unfold h_k, kadv. fold v. rewrite L, U. fold lo hi. cbv zeta.
    assert (Q1 : qlo = fp Qlo) by reflexivity. assert (Q2 : qhi = fp Qhi) by reflexivity.
    assert (T1 : tQlo = fp Tlo) by reflexivity. assert (T2 : tQhi = fp Thi) by reflexivity.
    rewrite Q1, Q2, T1, T2. clear Q1 Q2 T1 T2. rewrite <- !(fp_add lo Tlo), <- !(fp_add hi Thi). fold X Y.
    destruct (kcarry_ok X HX) as (Hc & Hr & Hc01).
    assert (BX : 0 <= X < p) by (rewrite p_val; lia).
    rewrite !(h_bits_fp 129 X BX), zbits_nth by lia. change (Z.of_nat 128) with 128. rewrite <- Hc.
    set (c := kcarry X) in *. rewrite !(two_pow_fp 128). change (2 ^ Z.of_nat 128) with (2 ^ 128).
    rewrite <- !(fp_add Y c), <- (fp_mul c), <- (fp_sub X (c * 2 ^ 128)).
    replace (fadd (fp (X - c * 2 ^ 128)) f1) with (fp (X - c * 2 ^ 128 + 1)) by (rewrite fp_add; reflexivity).
    rewrite !(h_lt_fp 129), !(h_ltv_fp 129) by (change (2 ^ Z.of_nat 129) with (2 ^ 129); change (2 ^ Z.of_nat 130) with (2 ^ 130); rewrite ?p_val; unfold Qlo, Qhi; lia).
    rewrite (h_isz_ok dv Hd), fsub_fp_eqb by (rewrite p_val; unfold Qhi; lia).
    rewrite gate_and, gate_or, gate_and, (kisq_ok X Y c Hr). fold (kborrow X Y). rewrite !b2k_fp.
    replace (fsub (fadd (fp X) (fmul (fp (Z.b2z (kborrow X Y))) (fp (2 ^ 128)))) (fmul (fp (Z.b2z (kisq X Y))) (fp Qlo)))
      with (fp (kklo X Y)) by (unfold kklo; rewrite !fp_sub, !fp_add, !fp_mul; reflexivity).
    replace (fsub (fsub (fp Y) (fmul (fp (Z.b2z (kborrow X Y))) f1)) (fmul (fp (Z.b2z (kisq X Y))) (fp Qhi)))
      with (fp (kkhi X Y)) by (unfold kkhi; rewrite !fp_sub, !fp_mul; ring).
    rewrite !h_bits_fp by (rewrite p_val; lia).
    change (2 ^ Z.of_nat 129) with (2 ^ 129).
    replace (X - Tlo) with lo by (unfold X; lia). replace (Y - Thi) with hi by (unfold Y; lia). reflexivity. }
  rewrite HK, k_gen by (assumption || lia).
  rewrite <- (zbits_mod 128 (kklo X Y)), zbits_app by (change (2 ^ Z.of_nat 128) with (2 ^ 128); apply Z.mod_pos_bound; lia).
  do 2 f_equal. change (2 ^ Z.of_nat 128) with (2 ^ 128). lia.
Qed.
