(** Fermat's little theorem and Pocklington's criterion over Z.
    Library file: nothing here models code of the repository. *)
From Coq Require Import ZArith Znumtheory Zpow_facts Lia List Bool Permutation.
Import ListNotations.
Open Scope Z_scope.

(** Multiplication by a unit permutes the non-zero residues. *)
Definition residues (q : Z) : list Z := map Z.of_nat (seq 1 (Z.to_nat (q - 1))).
Definition zprodl (l : list Z) : Z := fold_right Z.mul 1 l.

Lemma in_residues q x : In x (residues q) <-> 0 < x < q.
Proof.
  unfold residues. rewrite in_map_iff. split.
  - intros (k & <- & Hk). apply in_seq in Hk. lia.
  - intro H. exists (Z.to_nat x). split; [lia|]. apply in_seq. lia.
Qed.
Lemma NoDup_residues q : NoDup (residues q).
Proof.
  apply FinFun.Injective_map_NoDup; [intros x y; lia|apply seq_NoDup].
Qed.
Lemma zprodl_perm l l' : Permutation l l' -> zprodl l = zprodl l'.
Proof. induction 1; cbn [zprodl fold_right] in *; unfold zprodl in *; nia. Qed.
Lemma zprodl_scale q a l : 0 < q ->
  zprodl (map (fun x => (a * x) mod q) l) mod q = (a ^ Z.of_nat (length l) * zprodl l) mod q.
Proof.
  intro Hq. induction l as [|x t IH]; [reflexivity|].
  cbn [map length]. unfold zprodl in *. cbn [fold_right].
  rewrite Zmult_mod, IH, Zmod_mod, <- Zmult_mod.
  rewrite Nat2Z.inj_succ, Z.pow_succ_r by lia. f_equal. ring.
Qed.
Lemma zprodl_unit q l : prime q -> Forall (fun x => 0 < x < q) l -> ~ (q | zprodl l).
Proof.
  intros Hq. induction 1 as [|x t Hx Ht IH]; intro D.
  - unfold zprodl in D. cbn [fold_right] in D. apply Z.divide_pos_le in D; [|lia]. destruct Hq; lia.
  - unfold zprodl in *. cbn [fold_right] in D. apply prime_mult in D; [|exact Hq].
    destruct D as [D|D]; [apply Z.divide_pos_le in D; lia|exact (IH D)].
Qed.

Lemma fermat_Z1 (a q : Z) : prime q -> ~ (q | a) -> a ^ (q - 1) mod q = 1.
Proof.
  intros Hq Ha. assert (H1 : 1 < q) by (destruct Hq; assumption).
  set (f := fun x => (a * x) mod q).
  assert (Hinj : forall x y, 0 < x < q -> 0 < y < q -> f x = f y -> x = y).
  { intros x y Hx Hy E. unfold f in E.
    assert (D : (q | a * (x - y))).
    { apply Z.mod_divide; [lia|]. replace (a * (x - y)) with (a * x - a * y) by ring.
      rewrite Zminus_mod, E, Z.sub_diag. reflexivity. }
    apply prime_mult in D; [|exact Hq]. destruct D as [D|D]; [contradiction|].
    destruct D as [k Hk]. assert (k = 0) by nia. subst k. lia. }
  assert (Hin : forall x, 0 < x < q -> 0 < f x < q).
  { intros x Hx. unfold f. pose proof (Z.mod_pos_bound (a * x) q ltac:(lia)) as Hb.
    enough ((a * x) mod q <> 0) by lia. intro E. apply Z.mod_divide in E; [|lia].
    apply prime_mult in E; [|exact Hq]. destruct E as [E|E]; [contradiction|].
    apply Z.divide_pos_le in E; lia. }
  assert (HP : Permutation (map f (residues q)) (residues q)).
  { apply NoDup_Permutation_bis.
    - assert (G : forall l, NoDup l -> (forall x, In x l -> 0 < x < q) -> NoDup (map f l)).
      { induction l as [|x t IH]; intros HN HI; [constructor|]. inversion_clear HN as [|? ? Hx Ht].
        cbn [map]. constructor.
        - intro C. apply in_map_iff in C. destruct C as (y & Ey & Hy).
          apply Hinj in Ey; [subst y; contradiction|apply HI; right; exact Hy|apply HI; left; reflexivity].
        - apply IH; [exact Ht|]. intros y Hy. apply HI. right. exact Hy. }
      apply G; [apply NoDup_residues|]. intros x. apply in_residues.
    - rewrite map_length. reflexivity.
    - intros x Hx. apply in_map_iff in Hx. destruct Hx as (y & <- & Hy). apply in_residues.
      apply Hin, in_residues, Hy. }
  pose proof (zprodl_scale q a (residues q) ltac:(lia)) as E. fold f in E.
  rewrite (zprodl_perm _ _ HP) in E.
  assert (EL : Z.of_nat (length (residues q)) = q - 1).
  { unfold residues. rewrite map_length, seq_length. lia. }
  rewrite EL in E.
  assert (D : (q | (a ^ (q - 1) - 1) * zprodl (residues q))).
  { apply Z.mod_divide; [lia|].
    replace ((a ^ (q - 1) - 1) * zprodl (residues q)) with (a ^ (q - 1) * zprodl (residues q) - zprodl (residues q)) by ring.
    rewrite Zminus_mod, <- E, Z.sub_diag. reflexivity. }
  apply prime_mult in D; [|exact Hq]. destruct D as [D|D].
  - destruct D as [k Hk]. replace (a ^ (q - 1)) with (1 + k * q) by lia. rewrite Z_mod_plus_full. apply Z.mod_1_l, H1.
  - exfalso. revert D. apply zprodl_unit; [exact Hq|]. apply Forall_forall. intro x. apply in_residues.
Qed.

(** modular exponentiation, computable *)
Fixpoint powm_pos (m a : Z) (e : positive) : Z :=
  match e with
  | xH => a mod m
  | xO e' => let t := powm_pos m a e' in (t * t) mod m
  | xI e' => let t := powm_pos m a e' in (a * ((t * t) mod m)) mod m
  end.
Definition powm (m a e : Z) : Z :=
  match e with Z0 => 1 mod m | Zpos e' => powm_pos m a e' | Zneg _ => 0 end.

Lemma powm_pos_ok m a e : 0 < m -> powm_pos m a e = a ^ Zpos e mod m.
Proof.
  intro Hm. induction e as [e IH|e IH|]; cbn [powm_pos].
  - rewrite IH. rewrite Pos2Z.inj_xI. rewrite Z.pow_add_r, Z.pow_1_r by lia.
    replace (2 * Z.pos e) with (Z.pos e + Z.pos e) by lia.
    rewrite Z.pow_add_r by lia.
    rewrite <- Z.mul_mod by lia. rewrite Z.mul_mod_idemp_r by lia.
    f_equal. ring.
  - rewrite IH. rewrite Pos2Z.inj_xO.
    replace (2 * Z.pos e) with (Z.pos e + Z.pos e) by lia.
    rewrite Z.pow_add_r by lia. rewrite <- Z.mul_mod by lia. reflexivity.
  - rewrite Z.pow_1_r. reflexivity.
Qed.
Lemma powm_ok m a e : 0 < m -> 0 <= e -> powm m a e = a ^ e mod m.
Proof.
  intros Hm He. destruct e as [|e|e]; cbn [powm].
  - reflexivity.
  - apply powm_pos_ok; assumption.
  - lia.
Qed.

(** If a^i = a^j = 1 mod q then a^(gcd i j) = 1 mod q. *)
Lemma pow_gcd_1 (q a : Z) : 1 < q -> forall i j, 0 <= i -> 0 <= j ->
  a ^ i mod q = 1 -> a ^ j mod q = 1 -> a ^ (Z.gcd i j) mod q = 1.
Proof.
  intros Hq.
  assert (Hpow1 : forall i k, 0 <= i -> 0 <= k -> a ^ i mod q = 1 -> a ^ (i * k) mod q = 1).
  { intros i k Hi Hk H. rewrite Z.pow_mul_r by lia. rewrite Zpower_mod by lia.
    rewrite H, Z.pow_1_l by lia. apply Z.mod_small; lia. }
  assert (Hmod : forall i j, 0 <= i -> 0 < j -> a ^ i mod q = 1 -> a ^ j mod q = 1 ->
                 a ^ (i mod j) mod q = 1).
  { intros i j Hi Hj H1 H2.
    pose proof (Z.div_mod i j ltac:(lia)) as E.
    pose proof (Z.mod_pos_bound i j Hj) as B.
    pose proof (Z.div_pos i j Hi Hj) as B2.
    rewrite E in H1. rewrite Z.pow_add_r in H1 by nia.
    rewrite Z.mul_mod in H1 by lia. rewrite (Hpow1 j (i / j)) in H1 by lia.
    rewrite Z.mul_1_l, Zmod_mod in H1. exact H1. }
  assert (Hind : forall n : nat, forall i j, 0 <= i -> 0 <= j -> (Z.to_nat j < n)%nat ->
    a ^ i mod q = 1 -> a ^ j mod q = 1 -> a ^ (Z.gcd i j) mod q = 1).
  { induction n as [|n IH]; intros i j Hi Hj Hn H1 H2; [lia|].
    destruct (Z.eq_dec j 0) as [->|Hj0].
    - rewrite Z.gcd_0_r, Z.abs_eq by lia. exact H1.
    - rewrite Z.gcd_comm. rewrite <- Z.gcd_mod by lia. rewrite Z.gcd_comm.
      pose proof (Z.mod_pos_bound i j ltac:(lia)) as B.
      apply IH; try lia. apply Hmod; try lia; assumption. }
  intros i j Hi Hj. apply (Hind (S (Z.to_nat j))); lia.
Qed.

(** One factor f^e of N-1 divides q-1 for every prime divisor q of N. *)
Lemma pock_factor (N q f e a : Z) :
  1 < N -> prime q -> (q | N) -> prime f -> 0 < e -> (f ^ e | N - 1) ->
  a ^ (N - 1) mod N = 1 -> Z.gcd (a ^ ((N - 1) / f) - 1) N = 1 ->
  (f ^ e | q - 1).
Proof.
  intros HN Hq HqN Hf He Hfe H1 H2.
  assert (Hq1 : 1 < q) by (destruct Hq; assumption).
  assert (Hf1 : 1 < f) by (destruct Hf; assumption).
  assert (Hmodq : forall x, x mod N = 1 -> x mod q = 1).
  { intros x Hx. destruct HqN as [k Hk].
    rewrite (Z.div_mod x N) by lia. rewrite Hx, Hk.
    replace (k * q * (x / (k * q)) + 1) with (1 + (k * (x / (k * q))) * q) by ring.
    rewrite Z_mod_plus_full. apply Z.mod_small; lia. }
  pose proof (Hmodq _ H1) as Ha1.
  assert (Hnqa : ~ (q | a)).
  { intros [k Hk]. rewrite Hk in Ha1.
    replace (N - 1) with (Z.succ (N - 2)) in Ha1 by lia.
    rewrite Z.pow_succ_r in Ha1 by lia.
    replace (k * q * (k * q) ^ (N - 2)) with (k * (k * q) ^ (N - 2) * q) in Ha1 by ring.
    rewrite Z_mod_mult in Ha1. lia. }
  pose proof (fermat_Z1 a q Hq Hnqa) as Ha2.
  set (d := Z.gcd (N - 1) (q - 1)).
  assert (Hd : a ^ d mod q = 1) by (apply pow_gcd_1; lia || assumption).
  assert (Hd0 : 0 < d).
  { pose proof (Z.gcd_nonneg (N - 1) (q - 1)). 
    destruct (Z.eq_dec d 0) as [E|E]; [|fold d in H; lia].
    apply Z.gcd_eq_0_l in E. lia. }
  destruct (Z.gcd_divide_l (N - 1) (q - 1)) as [c Hc]. fold d in Hc.
  destruct (Zdivide_dec f c) as [Hfc|Hfc].
  - exfalso. destruct Hfc as [c' Hc'].
    assert (E : (N - 1) / f = d * c').
    { rewrite Hc, Hc'. replace (c' * f * d) with (d * c' * f) by ring.
      apply Z.div_mul. lia. }
    assert (Hc'0 : 0 <= c') by nia.
    assert (Hx : a ^ ((N - 1) / f) mod q = 1).
    { rewrite E, Z.pow_mul_r by lia. rewrite Zpower_mod by lia.
      rewrite Hd, Z.pow_1_l by lia. apply Z.mod_small; lia. }
    assert (Hdiv : (q | a ^ ((N - 1) / f) - 1)).
    { apply Z.mod_divide; [lia|]. rewrite Zminus_mod, Hx.
      rewrite Z.mod_1_l by lia. reflexivity. }
    assert (Hg : (q | 1)). { rewrite <- H2. apply Z.gcd_greatest; assumption. }
    apply Z.divide_1_r in Hg. lia.
  - assert (Hrp : rel_prime (f ^ e) c).
    { apply rel_prime_sym. apply rel_prime_Zpower_r; [lia|].
      apply rel_prime_sym. apply prime_rel_prime; assumption. }
    apply Z.divide_trans with d; [|apply Z.gcd_divide_r].
    apply Gauss with c; [|assumption].
    rewrite <- Hc. exact Hfe.
Qed.

(** ** Fast modular powers: squaring on binary numbers, and reduction by a
    modulus of the form 2^k - c without division.  [red] is only required to
    preserve residues. *)
Fixpoint possq (x : positive) : positive :=
  match x with
  | xH => xH
  | xO a => xO (xO (possq a))
  | xI a => xI (xO (Pos.add (possq a) a))
  end.
Lemma possq_ok x : Zpos (possq x) = Zpos x * Zpos x.
Proof.
  induction x as [x IH|x IH|]; cbn [possq].
  - rewrite (Pos2Z.inj_xI (xO (Pos.add (possq x) x))), (Pos2Z.inj_xO (Pos.add (possq x) x)), (Pos2Z.inj_add (possq x) x), IH, (Pos2Z.inj_xI x). ring.
  - rewrite (Pos2Z.inj_xO (xO (possq x))), (Pos2Z.inj_xO (possq x)), IH, (Pos2Z.inj_xO x). ring.
  - reflexivity.
Qed.
Definition sqz (x : Z) : Z := match x with Z0 => 0 | Zpos a => Zpos (possq a) | Zneg a => Zpos (possq a) end.
Lemma sqz_ok x : sqz x = x * x.
Proof. destruct x as [|x|x]; cbn [sqz]; [reflexivity|apply possq_ok|]. rewrite possq_ok. reflexivity. Qed.

Fixpoint psplit (k : nat) (x : positive) : Z * Z :=
  match k with
  | O => (Zpos x, 0)
  | S k' => match x with
            | xH => (0, 1)
            | xO a => let '(h, l) := psplit k' a in (h, Z.double l)
            | xI a => let '(h, l) := psplit k' a in (h, Z.succ_double l)
            end
  end.
Lemma psplit_ok k : forall x, Zpos x = fst (psplit k x) * 2 ^ Z.of_nat k + snd (psplit k x).
Proof.
  induction k as [|k IH]; intro x; [cbn [psplit fst snd]; change (2 ^ Z.of_nat 0) with 1; ring|].
  rewrite Nat2Z.inj_succ, Z.pow_succ_r by lia. destruct x as [x|x|]; cbn [psplit].
  - specialize (IH x). destruct (psplit k x) as [h l]. cbn [fst snd] in *. rewrite (Z.succ_double_spec l). assert (E : Z.pos (xI x) = 2 * Z.pos x + 1) by reflexivity. rewrite E, IH. ring.
  - specialize (IH x). destruct (psplit k x) as [h l]. cbn [fst snd] in *. rewrite (Z.double_spec l). assert (E : Z.pos (xO x) = 2 * Z.pos x) by reflexivity. rewrite E, IH. ring.
  - cbn [fst snd]. ring.
Qed.
Definition red1 (k : nat) (c x : Z) : Z :=
  match x with Zpos a => let '(h, l) := psplit k a in l + c * h | _ => x end.
Definition red (k : nat) (c x : Z) : Z := red1 k c (red1 k c (red1 k c x)).
Lemma red1_ok N k c x : N <> 0 -> (2 ^ Z.of_nat k - c) mod N = 0 -> red1 k c x mod N = x mod N.
Proof.
  intros HN H. destruct x as [|x|x]; cbn [red1]; try reflexivity. pose proof (psplit_ok k x) as E.
  destruct (psplit k x) as [h l]. cbn [fst snd] in E. apply Z.mod_divide in H; [|exact HN]. destruct H as [w Hw].
  rewrite E. replace (h * 2 ^ Z.of_nat k + l) with (l + c * h + (h * w) * N) by (rewrite <- Z.mul_assoc, <- Hw; ring).
  rewrite Z.mod_add by exact HN. reflexivity.
Qed.
Fixpoint powr (red : Z -> Z) (a : Z) (e : positive) : Z :=
  match e with
  | xH => a
  | xO e' => red (sqz (powr red a e'))
  | xI e' => red (a * red (sqz (powr red a e')))
  end.
Lemma powr_ok N red : 0 < N -> (forall x, red x mod N = x mod N) ->
  forall a e, powr red a e mod N = a ^ Zpos e mod N.
Proof.
  intros HN Hr a e. induction e as [e IH|e IH|]; cbn [powr].
  - assert (E : a ^ Z.pos e~1 = a * (a ^ Z.pos e * a ^ Z.pos e)).
    { rewrite Pos2Z.inj_xI, Z.pow_add_r, Z.pow_1_r by lia.
      replace (2 * Z.pos e) with (Z.pos e + Z.pos e) by lia. rewrite Z.pow_add_r by lia. ring. }
    rewrite E, Hr, Z.mul_mod, Hr, sqz_ok by lia.
    rewrite (Z.mul_mod (powr red a e) (powr red a e)), IH by lia.
    rewrite <- (Z.mul_mod (a ^ Z.pos e)) by lia. rewrite <- Z.mul_mod by lia. reflexivity.
  - rewrite Hr, sqz_ok, Z.mul_mod, IH by lia. rewrite <- Z.mul_mod by lia. f_equal.
    rewrite Pos2Z.inj_xO. replace (2 * Z.pos e) with (Z.pos e + Z.pos e) by lia. rewrite Z.pow_add_r by lia. reflexivity.
  - rewrite Z.pow_1_r. reflexivity.
Qed.

(** certificate entry: (f, e, a) *)
(** [k = 0]: plain division *)
Definition rd (N : Z) (k : nat) (c : Z) : Z -> Z := match k with O => fun x => x mod N | S _ => red k c end.
Definition cert_ok (N : Z) (k : nat) (c : Z) (t : Z * Z * Z) : bool :=
  let '(f, e, a) := t in
  (0 <? e) && ((N - 1) mod (f ^ e) =? 0)
  && match (N - 1) / f, f with
     | Zpos g, Zpos f' =>
         let y := powr (rd N k c) a g in
         (powr (rd N k c) y f' mod N =? 1) && (Z.gcd (y - 1) N =? 1)
     | _, _ => false
     end.

Definition cert_prod (l : list (Z * Z * Z)) : Z :=
  fold_right (fun t acc => let '(f, e, _) := t in f ^ e * acc) 1 l.

Fixpoint pairwise_coprime (l : list (Z * Z * Z)) : bool :=
  match l with
  | [] => true
  | (f, e, _) :: tl => (Z.gcd (f ^ e) (cert_prod tl) =? 1) && pairwise_coprime tl
  end.

Lemma gcd_mod_sub1 N x : 0 < N -> Z.gcd (x mod N - 1) N = Z.gcd (x - 1) N.
Proof.
  intro HN. rewrite (Z.gcd_comm (x mod N - 1)), (Z.gcd_comm (x - 1)).
  rewrite <- (Z.gcd_mod (x mod N - 1) N), <- (Z.gcd_mod (x - 1) N) by lia.
  rewrite (Zminus_mod (x mod N)), Zmod_mod, <- Zminus_mod. reflexivity.
Qed.

Lemma gcd_sub1_ext N x y : 0 < N -> x mod N = y mod N -> Z.gcd (x - 1) N = Z.gcd (y - 1) N.
Proof. intros HN H. rewrite <- (gcd_mod_sub1 N x), <- (gcd_mod_sub1 N y), H by exact HN. reflexivity. Qed.

Lemma cert_prod_divides (N q : Z) (k0 : nat) (c0 : Z) (l : list (Z * Z * Z)) :
  1 < N -> (k0 <> 0%nat -> (2 ^ Z.of_nat k0 - c0) mod N = 0) -> prime q -> (q | N) ->
  Forall (fun t => prime (fst (fst t))) l ->
  forallb (cert_ok N k0 c0) l = true -> pairwise_coprime l = true ->
  (cert_prod l | q - 1).
Proof.
  intros HN Hkc Hq HqN. induction l as [|[[f e] a] tl IH]; intros Hp Hc Hw.
  - exists (q - 1). cbn. ring.
  - inversion Hp as [|x y Hpf Hptl]; subst. cbn [fst] in Hpf.
    cbn [forallb] in Hc. apply andb_true_iff in Hc. destruct Hc as [Hc1 Hc2].
    cbn [pairwise_coprime] in Hw. apply andb_true_iff in Hw. destruct Hw as [Hw1 Hw2].
    specialize (IH Hptl Hc2 Hw2).
    unfold cert_ok in Hc1. rewrite !andb_true_iff in Hc1.
    destruct Hc1 as [[He Hm] Hx].
    apply Z.ltb_lt in He. apply Z.eqb_eq in Hm, Hw1.
    assert (Hf1 : 1 < f) by (destruct Hpf; assumption).
    assert (Hred : forall x, rd N k0 c0 x mod N = x mod N).
    { intro x. unfold rd. destruct k0 as [|k0]; [apply Z.mod_mod; lia|]. specialize (Hkc (Nat.neq_succ_0 k0)).
      unfold red. rewrite !red1_ok by (lia || assumption). reflexivity. }
    destruct ((N - 1) / f) as [|g|g] eqn:Eg; try discriminate. destruct f as [|f'|f']; try discriminate.
    apply andb_true_iff in Hx. destruct Hx as [Hp1 Hg]. apply Z.eqb_eq in Hp1, Hg.
    rewrite (powr_ok N) in Hp1 by (lia || assumption).
    rewrite Zpower_mod, (powr_ok N), <- Zpower_mod, <- Z.pow_mul_r in Hp1 by (lia || assumption).
    rewrite (gcd_sub1_ext N _ (a ^ Z.pos g)) in Hg by (lia || (apply powr_ok; (lia || assumption))).
    assert (EN : Z.pos g * Z.pos f' = N - 1).
    { assert (D : (Z.pos f' | N - 1)).
      { apply Z.divide_trans with (Z.pos f' ^ e); [|apply Z.mod_divide; [apply Z.pow_nonzero; lia|exact Hm]].
        exists (Z.pos f' ^ (e - 1)). rewrite Z.mul_comm, <- Z.pow_succ_r by lia. f_equal. lia. }
      destruct D as [w Hw']. rewrite Hw', Z.div_mul in Eg by lia. rewrite <- Eg. symmetry. exact Hw'. }
    rewrite EN in Hp1. rewrite <- Eg in Hg.
    assert (Hfe0 : 0 < Z.pos f' ^ e) by (apply Z.pow_pos_nonneg; lia).
    assert (Hfe : (Z.pos f' ^ e | q - 1)).
    { apply (pock_factor N q (Z.pos f') e a); try assumption.
      apply Z.mod_divide; [lia|exact Hm]. }
    cbn [cert_prod fold_right]. fold (cert_prod tl).
    destruct IH as [k Hk]. rewrite Hk.
    assert (Hr : rel_prime (Z.pos f' ^ e) (cert_prod tl)).
    { apply Zgcd_1_rel_prime. exact Hw1. }
    assert (Hd : (Z.pos f' ^ e | k)).
    { apply Gauss with (cert_prod tl); [|exact Hr].
      rewrite Z.mul_comm, <- Hk. exact Hfe. }
    destruct Hd as [j Hj]. exists j. rewrite Hj. ring.
Qed.

Lemma prime_factor_small (N : Z) : 1 < N -> ~ prime N ->
  exists q, prime q /\ (q | N) /\ q * q <= N.
Proof.
  intros HN Hnp.
  assert (Hind : forall n : nat, forall M, 1 < M -> (Z.to_nat M < n)%nat ->
     exists q, prime q /\ (q | M)).
  { induction n as [|n IH]; intros M HM Hn; [lia|].
    destruct (prime_dec M) as [Hp|Hp].
    - exists M. split; [assumption|apply Z.divide_refl].
    - destruct (not_prime_divide M HM Hp) as [d [Hd1 Hd2]].
      destruct (IH d) as [q [Hq1 Hq2]]; [lia|lia|].
      exists q. split; [assumption|]. apply Z.divide_trans with d; assumption. }
  destruct (not_prime_divide N HN Hnp) as [d [Hd1 Hd2]].
  destruct Hd2 as [c Hc].
  assert (Hc1 : 1 < c) by nia.
  destruct (Z.le_gt_cases d c) as [Hdc|Hdc].
  - destruct (Hind (S (Z.to_nat d)) d) as [q [Hq1 Hq2]]; [lia|lia|].
    exists q. split; [assumption|]. split.
    + apply Z.divide_trans with d; [assumption|]. exists c. lia.
    + apply Z.divide_pos_le in Hq2; [|lia]. assert (0 < q) by (destruct Hq1; lia). nia.
  - destruct (Hind (S (Z.to_nat c)) c) as [q [Hq1 Hq2]]; [lia|lia|].
    exists q. split; [assumption|]. split.
    + apply Z.divide_trans with c; [assumption|]. exists d. lia.
    + apply Z.divide_pos_le in Hq2; [|lia]. assert (0 < q) by (destruct Hq1; lia). nia.
Qed.

Theorem pocklington (N : Z) (k0 : nat) (c0 : Z) (l : list (Z * Z * Z)) :
  Forall (fun t => prime (fst (fst t))) l ->
  ((1 <? N) && (Nat.eqb k0 0 || ((2 ^ Z.of_nat k0 - c0) mod N =? 0)) && forallb (cert_ok N k0 c0) l && pairwise_coprime l
   && (N <? (cert_prod l + 1) * (cert_prod l + 1))) = true ->
  prime N.
Proof.
  intros Hp Hb. rewrite !andb_true_iff in Hb.
  destruct Hb as [[[[HN Hkc] Hc] Hw] Hs]. apply Z.ltb_lt in HN, Hs.
  assert (Hkc' : k0 <> 0%nat -> (2 ^ Z.of_nat k0 - c0) mod N = 0).
  { intro Hk. apply orb_true_iff in Hkc. destruct Hkc as [Hkc|Hkc]; [apply Nat.eqb_eq in Hkc; contradiction|apply Z.eqb_eq, Hkc]. }
  destruct (prime_dec N) as [H|H]; [assumption|exfalso].
  destruct (prime_factor_small N HN H) as [q [Hq1 [Hq2 Hq3]]].
  pose proof (cert_prod_divides N q k0 c0 l HN Hkc' Hq1 Hq2 Hp Hc Hw) as Hd.
  assert (Hq : 1 < q) by (destruct Hq1; assumption).
  apply Z.divide_pos_le in Hd; [|lia].
  assert (0 <= cert_prod l).
  { clear - Hp. induction l as [|[[f e] a] tl IH]; cbn; [lia|].
    inversion Hp as [|x y Hf Ht]; subst. specialize (IH Ht). fold (cert_prod tl).
    cbn in Hf. assert (0 < f) by (destruct Hf; lia).
    pose proof (Z.pow_nonneg f e ltac:(lia)). nia. }
  nia.
Qed.

(** small primes by trial division *)
Fixpoint no_div (fuel : nat) (d N : Z) : bool :=
  match fuel with
  | O => false
  | S fuel' => if N <? d * d then true
               else if N mod d =? 0 then false else no_div fuel' (d + 1) N
  end.
Lemma no_div_ok fuel : forall d N, 2 <= d -> 1 < N ->
  (forall x, 1 < x < d -> ~ (x | N)) -> no_div fuel d N = true -> prime N.
Proof.
  induction fuel as [|fuel IH]; intros d N Hd HN Hx Hb; cbn [no_div] in Hb; [discriminate|].
  destruct (Z.ltb_spec N (d * d)) as [Hlt|Hge].
  - destruct (prime_dec N) as [H|H]; [assumption|exfalso].
    destruct (prime_factor_small N HN H) as [q [Hq1 [Hq2 Hq3]]].
    assert (1 < q) by (destruct Hq1; assumption).
    apply (Hx q); [nia|assumption].
  - destruct (Z.eqb_spec (N mod d) 0) as [E|E]; [discriminate|].
    apply (IH (d + 1) N); [lia|lia| |assumption].
    intros x Hx1 Hdv. destruct (Z.eq_dec x d) as [->|Hne].
    + apply E. apply Z.mod_divide; [lia|assumption].
    + apply (Hx x); [lia|assumption].
Qed.
Lemma small_prime N : ((1 <? N) && no_div (Z.to_nat 2000) 2 N) = true -> prime N.
Proof.
  intro H. apply andb_true_iff in H. destruct H as [H1 H2]. apply Z.ltb_lt in H1.
  apply (no_div_ok (Z.to_nat 2000) 2 N); [lia|lia| |exact H2]. intros x Hx. lia.
Qed.
