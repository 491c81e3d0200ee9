From Coq Require Import List Arith ZArith Lia Bool Zdiv Znat.
From Verif Require Import Base ListAux MathModel PolyProofs.
Import ListNotations.
Local Open Scope Z_scope.

Lemma is_pow2_true x : is_power_of_two x = true -> 0 < x /\ x = 2 ^ Z.log2 x.
Proof. unfold is_power_of_two. intro H. apply andb_prop in H. destruct H as [A B]. apply Z.ltb_lt in A. apply Z.eqb_eq in B. split; assumption. Qed.
Lemma log2_63 x : 0 < x < 2 ^ 64 -> 0 <= Z.log2 x <= 63.
Proof. intro H. split; [apply Z.log2_nonneg|]. assert (Z.log2 x < 64); [|lia]. apply Z.log2_lt_pow2; lia. Qed.

Lemma log_2_word_ok x : 0 < x < 2 ^ 64 -> exists e, log_2_word x = Ok e /\ 0 <= e <= 64 /\ x <= 2 ^ e /\ (x = 1 /\ e = 0 \/ 1 < x /\ 2 ^ (e - 1) < x).
Proof.
  intro H. unfold log_2_word. replace (x =? 0) with false by (symmetry; apply Z.eqb_neq; lia).
  pose proof (log2_63 x H) as HL. pose proof (Z.log2_spec x ltac:(lia)) as [L1 L2].
  unfold leading_zeros. replace (x =? 0) with false by (symmetry; apply Z.eqb_neq; lia).
  change (1 =? 0) with false. change (0 =? 0) with true. change (Z.log2 1) with 0. cbv iota.
  destruct (is_power_of_two x) eqn:E.
  - apply is_pow2_true in E. destruct E as [_ E]. exists (Z.log2 x). split; [f_equal; lia|].
    split; [lia|]. split; [lia|]. destruct (Z.eq_dec (Z.log2 x) 0) as [Z0|N]; [left; split; [rewrite E, Z0; reflexivity|exact Z0]|].
    right. split; [|rewrite E at 2; apply Z.pow_lt_mono_r; lia]. rewrite E. apply (Z.pow_gt_1 2); lia.
  - exists (Z.log2 x + 1). split; [f_equal; lia|]. split; [lia|]. replace (Z.succ (Z.log2 x)) with (Z.log2 x + 1) in L2 by lia.
    split; [lia|]. right. replace (Z.log2 x + 1 - 1) with (Z.log2 x) by lia.
    unfold is_power_of_two in E. apply andb_false_iff in E. destruct E as [E|E]; [apply Z.ltb_ge in E; lia|].
    apply Z.eqb_neq in E. lia.
Qed.
Lemma log_2_word_pow e : 0 <= e < 64 -> log_2_word (2 ^ e) = Ok e.
Proof.
  intro H. unfold log_2_word. pose proof (Z.pow_pos_nonneg 2 e ltac:(lia) ltac:(lia)).
  replace (2 ^ e =? 0) with false by (symmetry; apply Z.eqb_neq; lia).
  unfold is_power_of_two, leading_zeros. rewrite Z.log2_pow2 by lia. rewrite Z.eqb_refl.
  replace (0 <? 2 ^ e) with true by (symmetry; apply Z.ltb_lt; lia). cbn [andb].
  replace (2 ^ e =? 0) with false by (symmetry; apply Z.eqb_neq; lia). change (1 =? 0) with false. change (Z.log2 1) with 0. cbv iota. f_equal. lia.
Qed.
Lemma log_2_word_zero : log_2_word 0 = Panic.
Proof. reflexivity. Qed.

Lemma log_2_agree (x : nat) : Z.of_nat x < 2 ^ 64 ->
  log_2_word (Z.of_nat x) = match log_2 x with Ok e => Ok (Z.of_nat e) | Err e => Err e | Panic => Panic end.
Proof.
  intro H. destruct x as [|x]; [reflexivity|]. cbn [log_2].
  destruct (log_2_word_ok (Z.of_nat (S x)) ltac:(lia)) as (e & -> & He & H1 & H2). f_equal.
  assert (E : Nat.log2_up (S x) = Z.to_nat e).
  { destruct H2 as [H2|H2].
    - destruct H2 as [H2 ->]. assert (x = 0)%nat by lia. subst x. reflexivity.
    - destruct H2 as [_ H2]. destruct (Z.eq_dec e 0) as [->|N]; [change (2 ^ 0) with 1 in H1; assert (x = 0)%nat by lia; subst x; reflexivity|].
      apply Nat.log2_up_unique; [lia|]. split.
      + apply Nat2Z.inj_lt. rewrite Nat2Z.inj_pow. change (Z.of_nat 2) with 2.
        replace (Z.of_nat (Nat.pred (Z.to_nat e))) with (e - 1) by lia. exact H2.
      + apply Nat2Z.inj_le. rewrite Nat2Z.inj_pow. change (Z.of_nat 2) with 2. rewrite Z2Nat.id by lia. exact H1. }
  rewrite E, Z2Nat.id by lia. reflexivity.
Qed.
Lemma pow2_word_ok e : 0 <= e < 64 -> pow2_word e = Ok (2 ^ e).
Proof. intro H. unfold pow2_word. rewrite Z.mod_small by lia. replace (e <? 64) with true by (symmetry; apply Z.ltb_lt; lia). reflexivity. Qed.
Lemma pow2_word_panic e : 64 <= e < 2 ^ 32 -> pow2_word e = Panic.
Proof. intro H. unfold pow2_word. rewrite Z.mod_small by lia. replace (e <? 64) with false by (symmetry; apply Z.ltb_ge; lia). reflexivity. Qed.

(** the number whose binary digits, most significant first, are [bs] *)
Fixpoint bits_val (bs : list bool) : Z :=
  match bs with [] => 0 | b :: t => (if b then 2 ^ Z.of_nat (length t) else 0) + bits_val t end.
Lemma land_bit x k : 0 <= k -> (0 <? Z.land x (Z.shiftl 1 k)) = Z.testbit x k.
Proof.
  intro H. assert (E : Z.land x (Z.shiftl 1 k) = if Z.testbit x k then 2 ^ k else 0).
  { apply Z.bits_inj'. intros j Hj. rewrite Z.land_spec, Z.shiftl_spec by exact Hj.
    destruct (Z.eq_dec j k) as [->|N].
    - rewrite Z.sub_diag. change (Z.testbit 1 0) with true. rewrite andb_true_r.
      destruct (Z.testbit x k); [rewrite Z.pow2_bits_true by exact H|rewrite Z.bits_0]; reflexivity.
    - replace (Z.testbit 1 (j - k)) with false.
      + rewrite andb_false_r. destruct (Z.testbit x k); [rewrite Z.pow2_bits_false by lia|rewrite Z.bits_0]; reflexivity.
      + symmetry. destruct (Z.ltb_spec (j - k) 0) as [L|L]; [apply Z.testbit_neg_r; exact L|].
        change 1 with (2 ^ 0). apply Z.pow2_bits_false. lia. }
  rewrite E. destruct (Z.testbit x k); [|reflexivity]. apply Z.ltb_lt. apply Z.pow_pos_nonneg; lia.
Qed.
Lemma get_bits_word_eq x nb : (nb <= 64)%nat ->
  get_bits_word x nb = Ok (map (fun s => Z.testbit x (Z.of_nat nb - Z.of_nat s - 1)) (seq 0 nb)).
Proof.
  intro H. unfold get_bits_word. apply mapM_ok. intros s Hs. apply in_seq in Hs.
  replace (Z.of_nat nb - Z.of_nat s - 1 <? 64) with true by (symmetry; apply Z.ltb_lt; lia).
  rewrite land_bit by lia. reflexivity.
Qed.
Lemma mod_pow2_S x k : 0 <= k -> x mod 2 ^ (k + 1) = (if Z.testbit x k then 2 ^ k else 0) + x mod 2 ^ k.
Proof.
  intro H. rewrite Z.pow_add_r by lia. change (2 ^ 1) with 2. rewrite Z.rem_mul_r; [|apply Z.pow_nonzero; lia|lia].
  rewrite <- (Z.testbit_spec' x k H). destruct (Z.testbit x k); cbn [Z.b2z]; lia.
Qed.
Lemma bits_val_testbits x nb :
  bits_val (map (fun s => Z.testbit x (Z.of_nat nb - Z.of_nat s - 1)) (seq 0 nb)) = x mod 2 ^ Z.of_nat nb.
Proof.
  induction nb as [|nb IH]; [cbn; rewrite Z.mod_1_r; reflexivity|].
  cbn [seq map bits_val]. rewrite map_length, seq_length. rewrite <- seq_shift, map_map.
  rewrite Nat2Z.inj_succ. unfold Z.succ. rewrite mod_pow2_S by lia. rewrite <- IH.
  f_equal.
  - change (Z.of_nat 0) with 0. replace (Z.of_nat nb + 1 - 0 - 1) with (Z.of_nat nb) by lia. reflexivity.
  - f_equal. apply map_ext. intro s. f_equal. lia.
Qed.
Lemma get_bits_word_ok x nb : (nb <= 64)%nat ->
  exists bs, get_bits_word x nb = Ok bs /\ length bs = nb /\ bits_val bs = x mod 2 ^ Z.of_nat nb.
Proof.
  intro H. rewrite (get_bits_word_eq x nb H). eexists. split; [reflexivity|]. rewrite map_length, seq_length.
  split; [reflexivity|]. apply bits_val_testbits.
Qed.
Lemma testbit_of_nat x k : Z.testbit (Z.of_nat x) (Z.of_nat k) = Nat.testbit x k.
Proof.
  revert x. induction k as [|k IH]; intro x.
  - change (Z.of_nat 0) with 0. rewrite Z.bit0_odd, Nat.bit0_odd. apply eq_true_iff_eq. rewrite Z.odd_spec, Nat.odd_spec. split.
    + intros [y Hy]. exists (Z.to_nat y). lia.
    + intros [y ->]. exists (Z.of_nat y). lia.
  - rewrite Nat2Z.inj_succ. rewrite <- Z.div2_bits by lia. change (Nat.testbit x (S k)) with (Nat.testbit (Nat.div2 x) k).
    rewrite <- IH. replace (Z.of_nat x / 2) with (Z.of_nat (Nat.div2 x)); [reflexivity|].
    rewrite Nat.div2_div. change 2 with (Z.of_nat 2). apply Nat2Z.inj_div.
Qed.
Lemma get_bits_agree (x nb : nat) : (nb <= 64)%nat -> get_bits_word (Z.of_nat x) nb = Ok (get_bits x nb).
Proof.
  intro H. rewrite get_bits_word_eq by exact H. f_equal. unfold get_bits. apply map_ext_in. intros s Hs. apply in_seq in Hs.
  replace (Z.of_nat nb - Z.of_nat s - 1) with (Z.of_nat (nb - s - 1)) by lia. apply testbit_of_nat.
Qed.
Lemma get_bits_word_panic x nb : (64 < nb)%nat -> get_bits_word x nb = Panic.
Proof.
  intro H. unfold get_bits_word. destruct nb as [|nb]; [lia|]. cbn [seq mapM].
  replace (Z.of_nat (S nb) - Z.of_nat 0 - 1 <? 64) with false by (symmetry; apply Z.ltb_ge; lia). reflexivity.
Qed.
