(** Generators of the multiplicative group of the integers modulo a prime. *)
From Coq Require Import ZArith Znumtheory Zpow_facts List FinFun Bool Lia.
From Verif Require Import Fermat Primes.
Import ListNotations.
Local Open Scope Z_scope.

Lemma map_NoDup_in {A B} (f : A -> B) l : NoDup l -> (forall x y, In x l -> In y l -> f x = f y -> x = y) -> NoDup (map f l).
Proof.
  induction 1 as [|x l Nx N IH]; intro I; cbn [map]; [constructor|]. constructor.
  - intro X. apply in_map_iff in X. destruct X as (y & E & Hy). apply Nx. rewrite (I x y); [exact Hy|now left|now right|now symmetry].
  - apply IH. intros y z Hy Hz. apply I; now right.
Qed.

Section Order.
  Variables (q a : Z) (fl : list Z).
  Hypothesis Pq : prime q.
  Hypothesis Ha : 0 < a < q.
  Hypothesis All : forall r, prime r -> (r | q - 1) -> In r fl.
  Hypothesis Not1 : forall f, In f fl -> a ^ ((q - 1) / f) mod q <> 1.

  Lemma q_gt : 1 < q.
  Proof. apply prime_ge_2 in Pq. lia. Qed.
  Lemma pow_mul_1 i k : 0 <= i -> 0 <= k -> a ^ i mod q = 1 -> a ^ (i * k) mod q = 1.
  Proof.
    intros Hi Hk H. pose proof q_gt. rewrite Z.pow_mul_r, Zpower_mod, H, Z.pow_1_l by lia. apply Z.mod_small. lia.
  Qed.
  Lemma prime_divisor m : 1 < m -> exists r, prime r /\ (r | m).
  Proof.
    intro Hm. destruct (prime_dec m) as [P|P]; [exists m; split; [exact P|apply Z.divide_refl]|].
    destruct (prime_factor_small m Hm P) as (r & A & B & _). eauto.
  Qed.
  Lemma fermat_a : a ^ (q - 1) mod q = 1.
  Proof. apply fermat_Z1; [exact Pq|]. intros [c E]. pose proof q_gt. assert (c <= 0 \/ 1 <= c) as [|] by lia; nia. Qed.
  Lemma order_divides k : 0 <= k -> a ^ k mod q = 1 -> (q - 1 | k).
  Proof.
    intros Hk H. pose proof q_gt as Q. destruct (Z.eq_dec (q - 1) 1) as [E1|E1]; [rewrite E1; apply Z.divide_1_l|].
    pose proof (pow_gcd_1 q a Q k (q - 1) Hk ltac:(lia) H fermat_a) as Hd. set (d := Z.gcd k (q - 1)) in *.
    assert (D1 : (d | q - 1)) by apply Z.gcd_divide_r. assert (D2 : (d | k)) by apply Z.gcd_divide_l. assert (D0 : 0 <= d) by apply Z.gcd_nonneg.
    destruct D1 as [m Em]. assert (d <> 0) by (intro X; rewrite X in Em; lia). assert (Hm : 1 <= m) by nia.
    destruct (Z.eq_dec m 1) as [->|Nm]; [rewrite Em, Z.mul_1_l; exact D2|]. exfalso.
    destruct (prime_divisor m ltac:(lia)) as (r & Pr & [t Et]). pose proof (prime_ge_2 r Pr).
    assert (Rq : (r | q - 1)) by (exists (t * d); rewrite Em, Et; ring).
    apply (Not1 r (All r Pr Rq)). replace ((q - 1) / r) with (d * t).
    - apply pow_mul_1; try assumption. nia.
    - rewrite Em, Et. replace (t * r * d) with (d * t * r) by ring. symmetry. apply Z.div_mul. lia.
  Qed.
  Lemma pow_unit k : 0 <= k -> 0 < a ^ k mod q < q.
  Proof.
    intro Hk. pose proof q_gt. pose proof (Z.mod_pos_bound (a ^ k) q ltac:(lia)). destruct (Z.eq_dec (a ^ k mod q) 0) as [Z0|]; [|lia]. exfalso.
    apply Z.mod_divide in Z0; [|lia]. clear H H0.
    revert k Hk Z0. apply (natlike_ind (fun k => (q | a ^ k) -> False)).
    - rewrite Z.pow_0_r. intro D. apply Z.divide_1_r in D. lia.
    - intros k Hk IH D. rewrite Z.pow_succ_r in D by assumption. apply prime_mult in D; [|exact Pq]. destruct D as [D|D]; [|exact (IH D)].
      apply Z.divide_pos_le in D; lia.
  Qed.
  Lemma pow_inj i j : 0 <= i -> 0 <= j -> i < q - 1 -> j < q - 1 -> a ^ i mod q = a ^ j mod q -> i = j.
  Proof.
    assert (W : forall i j, 0 <= i <= j -> j < q - 1 -> a ^ i mod q = a ^ j mod q -> i = j).
    { intros i' j' Hij Hj E. pose proof q_gt.
      assert (D : a ^ (j' - i') mod q = 1).
      { replace j' with (i' + (j' - i')) in E by lia. rewrite Z.pow_add_r in E by lia.
        assert (Z0 : (q | a ^ i' * (a ^ (j' - i') - 1))).
        { apply Z.mod_divide; [lia|]. replace (a ^ i' * (a ^ (j' - i') - 1)) with (a ^ i' * a ^ (j' - i') - a ^ i') by ring. rewrite Zminus_mod, <- E, Z.sub_diag. apply Z.mod_0_l. lia. }
        apply prime_mult in Z0; [|exact Pq]. destruct Z0 as [Z0|[c Z0]].
        - apply Z.mod_divide in Z0; [|lia]. pose proof (pow_unit i' ltac:(lia)). lia.
        - replace (a ^ (j' - i')) with (1 + c * q) by lia. rewrite Z.mod_add by lia. apply Z.mod_small. lia. }
      apply order_divides in D; [|lia]. destruct (Z.eq_dec (j' - i') 0); [lia|]. apply Z.divide_pos_le in D; lia. }
    intros Hi Hj Li Lj E. destruct (Z.le_ge_cases i j); [apply W; auto; lia|symmetry; apply W; auto; lia].
  Qed.
  Lemma root_reaches x : 0 < x < q -> exists k, 0 <= k < q - 1 /\ a ^ k mod q = x.
  Proof.
    intro Hx. pose proof q_gt. set (m := Z.to_nat (q - 1)). set (pows := map (fun i => a ^ Z.of_nat i mod q) (seq 0 m)).
    assert (ND : NoDup pows).
    { unfold pows. apply map_NoDup_in; [apply seq_NoDup|]. intros i j Hi Hj E. apply in_seq in Hi. apply in_seq in Hj.
      apply pow_inj in E; lia. }
    assert (I : incl pows (residues q)).
    { intros y Hy. apply in_map_iff in Hy. destruct Hy as (i & <- & _). apply in_residues. apply pow_unit. lia. }
    assert (L : (length (residues q) <= length pows)%nat) by (unfold residues, pows; rewrite !map_length, !seq_length; unfold m; lia).
    pose proof (NoDup_length_incl ND L I x (proj2 (in_residues q x) Hx)) as Y. apply in_map_iff in Y. destruct Y as (i & E & Hi). apply in_seq in Hi.
    exists (Z.of_nat i). split; [lia|exact E].
  Qed.
End Order.

Lemma prime_in_list r l : prime r -> Forall prime l -> (r | fold_right Z.mul 1 l) -> In r l.
Proof.
  intros Pr F. induction F as [|f l Pf F IH]; cbn [fold_right]; intro D.
  - apply Z.divide_1_r in D. apply prime_ge_2 in Pr. lia.
  - apply prime_mult in D; [|exact Pr]. destruct D as [D|D]; [|right; exact (IH D)]. left. symmetry. apply prime_div_prime; assumption.
Qed.

(** with [q - 1 = m * r]: the powers of [a] with the exponents [(q - 1) / f] are not 1, computed
    with the reduction by [2^k - c], for the divisors [f] of [m] and of [r] *)
Definition not_ones (q : Z) (k : nat) (c y m : Z) (fl : list Z) : bool :=
  forallb (fun f => (m mod f =? 0) && (0 <? f) && match m / f with Zpos e => negb (powr (rd q k c) y e mod q =? 1) | _ => false end) fl.
Definition roots_ok (q : Z) (k : nat) (c a : Z) (m r : positive) (l1 l2 : list Z) : bool :=
  not_ones q k c (powr (rd q k c) a r) (Zpos m) l1 && not_ones q k c (powr (rd q k c) a m) (Zpos r) l2.
Lemma rd_ok q k c : 0 < q -> (k = 0%nat \/ (2 ^ Z.of_nat k - c) mod q = 0) -> forall x, rd q k c x mod q = x mod q.
Proof.
  intros Hq Hk x. unfold rd. destruct k as [|k]; [apply Z.mod_mod; lia|].
  destruct Hk as [Hk|Hk]; [discriminate|]. unfold red. rewrite !(red1_ok q) by (try lia; exact Hk). reflexivity.
Qed.
Lemma not_ones_ok q k c a (m r : positive) fl : 0 < q -> (k = 0%nat \/ (2 ^ Z.of_nat k - c) mod q = 0) -> q - 1 = Zpos m * Zpos r ->
  not_ones q k c (powr (rd q k c) a r) (Zpos m) fl = true -> forall f, In f fl -> a ^ ((q - 1) / f) mod q <> 1.
Proof.
  intros Hq Hk E H f Hf. unfold not_ones in H. rewrite forallb_forall in H. specialize (H f Hf). apply andb_true_iff in H. destruct H as [H H2]. apply andb_true_iff in H. destruct H as [H0 H1].
  apply Z.eqb_eq in H0. apply Z.ltb_lt in H1. apply Z.mod_divide in H0; [|lia]. destruct H0 as [t Et]. rewrite Et, Z.div_mul in H2 by lia. destruct t as [|e|e]; try discriminate.
  apply negb_true_iff, Z.eqb_neq in H2. pose proof (rd_ok q k c Hq Hk) as R. rewrite (powr_ok q _ Hq R), Zpower_mod, (powr_ok q _ Hq R), <- Zpower_mod, <- Z.pow_mul_r in H2 by lia.
  intro X. apply H2. rewrite <- X. do 2 f_equal. rewrite E, Et. replace (Z.pos e * f * Z.pos r) with (Z.pos r * Z.pos e * f) by ring. symmetry. apply Z.div_mul. lia.
Qed.
Lemma generates_cert q k c a (m r : positive) (fl l1 l2 : list Z) : prime q -> 0 < a < q -> Forall prime fl -> q - 1 = fold_right Z.mul 1 fl ->
  (k = 0%nat \/ (2 ^ Z.of_nat k - c) mod q = 0) -> q - 1 = Zpos m * Zpos r -> incl fl (l1 ++ l2) -> roots_ok q k c a m r l1 l2 = true ->
  forall x, 0 < x < q -> exists i, 0 <= i < q - 1 /\ a ^ i mod q = x.
Proof.
  intros Pq Ha F E Hk Em I C. apply andb_true_iff in C. destruct C as [C1 C2]. apply (root_reaches q a fl Pq Ha).
  - intros s Ps D. rewrite E in D. apply prime_in_list; assumption.
  - intros f Hf. apply I, in_app_or in Hf. destruct Hf as [Hf|Hf].
    + exact (not_ones_ok q k c a m r l1 ltac:(lia) Hk Em C1 f Hf).
    + exact (not_ones_ok q k c a r m l2 ltac:(lia) Hk ltac:(lia) C2 f Hf).
Qed.

Lemma prime_3' : prime 3. Proof. apply small_prime. vm_compute. reflexivity. Qed.
Lemma prime_13441 : prime 13441. Proof. apply small_prime. vm_compute. reflexivity. Qed.

Lemma roots_p : roots_ok p 256 4294968273 3 564522 205115282021455665897114700593932402728804164701536103180137503955397371 [2; 3; 7; 13441] [205115282021455665897114700593932402728804164701536103180137503955397371] = true.
Proof. vm_compute. reflexivity. Qed.
Lemma generates_p x : 0 < x < p -> exists i, 0 <= i < p - 1 /\ 3 ^ i mod p = x.
Proof.
  apply (generates_cert p 256 4294968273 3 564522 205115282021455665897114700593932402728804164701536103180137503955397371 [2; 3; 7; 13441; 205115282021455665897114700593932402728804164701536103180137503955397371] [2; 3; 7; 13441] [205115282021455665897114700593932402728804164701536103180137503955397371] prime_p).
  - split; reflexivity.
  - apply Forall_cons; [exact prime_2|]. apply Forall_cons; [exact prime_3'|]. apply Forall_cons; [exact prime_7|]. apply Forall_cons; [exact prime_13441|].
    apply Forall_cons; [exact prime_205115282021455665897114700593932402728804164701536103180137503955397371|]. apply Forall_nil.
  - reflexivity.
  - right. reflexivity.
  - reflexivity.
  - apply incl_refl.
  - exact roots_p.
Qed.
(** 7 does not: its powers are seventh powers, and 3 is none *)
Lemma pow_1_of q a b e j : 0 < q -> 0 <= e -> 0 <= j -> b ^ j mod q = a -> b ^ e mod q = 1 mod q -> a ^ e mod q = 1 mod q.
Proof.
  intros Hq He Hj E H. rewrite <- E, <- Zpower_mod, <- Z.pow_mul_r, Z.mul_comm, Z.pow_mul_r, Zpower_mod, H, <- Zpower_mod, Z.pow_1_l by assumption. reflexivity.
Qed.
Lemma two_steps q k c a e f x : 0 < q -> (k = 0%nat \/ (2 ^ Z.of_nat k - c) mod q = 0) -> x = Zpos e * Zpos f -> powr (rd q k c) (powr (rd q k c) a e) f mod q = 1 mod q ->
  a ^ x mod q = 1 mod q.
Proof.
  intros Hq Hk -> H. pose proof (rd_ok q k c Hq Hk) as R. rewrite (powr_ok q _ Hq R), Zpower_mod, (powr_ok q _ Hq R), <- Zpower_mod, <- Z.pow_mul_r in H by lia. exact H.
Qed.
Lemma seventh_p : 7 ^ ((p - 1) / 7) mod p = 1 mod p.
Proof.
  apply (two_steps p 256 4294968273 7 205115282021455665897114700593932402728804164701536103180137503955397371 80646 ((p - 1) / 7)); [reflexivity|right; reflexivity|reflexivity|]. vm_compute. reflexivity.
Qed.
Lemma three_p : 3 ^ ((p - 1) / 7) mod p <> 1.
Proof. exact (not_ones_ok p 256 4294968273 3 564522 205115282021455665897114700593932402728804164701536103180137503955397371 [2; 3; 7; 13441] eq_refl (or_intror eq_refl) eq_refl (proj1 (andb_prop _ _ roots_p)) 7 (or_intror (or_intror (or_introl eq_refl)))). Qed.
Lemma seven_not q e : 1 < q -> 0 <= e -> 3 ^ e mod q <> 1 -> 7 ^ e mod q = 1 mod q -> ~ exists i, 0 <= i /\ 7 ^ i mod q = 3.
Proof.
  intros Hq He A B (i & Hi & E). apply A. rewrite (pow_1_of q 3 7 e i) by (try assumption; lia). apply Z.mod_small. lia.
Qed.
Lemma seven_not_p : ~ exists i, 0 <= i /\ 7 ^ i mod p = 3.
Proof. exact (seven_not p ((p - 1) / 7) eq_refl (Z.div_pos _ 7 (Zle_0_pos _) eq_refl) three_p seventh_p). Qed.
