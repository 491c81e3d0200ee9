(** The three instances of the limb arithmetic, reachable elements, addition
    chains, serde. *)
From Coq Require Import ZArith List Bool Lia Znumtheory Zpow_facts.
From Verif Require Import Base ListAux Limb LimbSpec LimbProofs LimbMont LimbInt Fermat Primes.
Import ListNotations.
Local Open Scope Z_scope.

Local Opaque to_bytes from_bytes of_le mul square pow2k.

Lemma SCALAR_valid : valid SCALAR p.
Proof.
  constructor; try (vm_compute; reflexivity).
  - repeat split; vm_compute; congruence.
  - split; [split; [repeat split; vm_compute; congruence|vm_compute; reflexivity]|vm_compute; reflexivity].
  - split; [split; [repeat split; vm_compute; congruence|vm_compute; reflexivity]|vm_compute; reflexivity].
  - split; [split; [repeat split; vm_compute; congruence|vm_compute; reflexivity]|vm_compute; reflexivity].
Qed.
Lemma SECP_valid : valid SECP p.
Proof. exact SCALAR_valid. Qed.
Lemma SECQ_valid : valid SECQ n.
Proof.
  constructor; try (vm_compute; reflexivity).
  - repeat split; vm_compute; congruence.
  - split; [split; [repeat split; vm_compute; congruence|vm_compute; reflexivity]|vm_compute; reflexivity].
  - split; [split; [repeat split; vm_compute; congruence|vm_compute; reflexivity]|vm_compute; reflexivity].
  - split; [split; [repeat split; vm_compute; congruence|vm_compute; reflexivity]|vm_compute; reflexivity].
Qed.

Lemma reach_wf P q : valid P q -> forall a, reach P a -> wf q a.
Proof.
  intros V a H. induction H.
  - apply (fint_zero P q V).
  - apply (fint_one P q V).
  - pose proof (from_bytes_spec P q V bs H H0) as S. rewrite H1 in S. apply S.
  - apply (from_bytes_wide_spec P q V bs H H0).
  - apply (from_raw_spec P q V); assumption.
  - apply (from_u64_spec P q V); assumption.
  - apply (from_u512_spec P q V); assumption.
  - destruct (Nat.leb 32 (length bs)) eqn:E.
    + apply Nat.leb_le in E. destruct (visit_seq_spec P q V bs E H) as (c & Ec & Wc & _).
      rewrite Ec in H0. injection H0 as H1. rewrite <- H1. exact Wc.
    + unfold visit_seq in H0. rewrite E in H0. discriminate.
  - apply (fint_add P q V); assumption.
  - apply (fint_sub P q V); assumption.
  - apply (fint_mul P q V); assumption.
  - apply (fint_neg P q V); assumption.
  - apply (fint_square P q V); assumption.
  - apply (fint_add P q V); assumption.
  - apply (pow_spec P q V); assumption.
Qed.

Lemma roundtrip P q : valid P q -> forall a, wf q a -> from_bytes P (to_bytes P a) = Some a.
Proof.
  intros V a W.
  pose proof (from_bytes_spec P q V (to_bytes P a) (to_bytes_length P a) (to_bytes_ok P a)) as S.
  pose proof (proj1 (fint_val P q V a W)) as Hr. unfold fint at 2 in Hr.
  destruct (from_bytes P (to_bytes P a)) as [b|].
  - destruct S as (Wb & _ & Eb). pose proof (fint_inj P q V b a Wb W Eb) as E. rewrite E. reflexivity.
  - exfalso. revert S; apply Zlt_not_le, Hr.
Qed.

(** every reduced element is reachable: through its own bytes *)
Lemma wf_reach P q : valid P q -> forall a, wf q a -> reach P a.
Proof.
  intros V a W.
  exact (reach_from_bytes P _ a (to_bytes_length P a) (to_bytes_ok P a) (roundtrip P q V a W)).
Qed.

Lemma roundtrip_bytes P q : valid P q -> forall bs a, length bs = 32%nat -> bytes_ok bs ->
  from_bytes P bs = Some a -> to_bytes P a = bs.
Proof.
  intros V bs a HL Hb E. pose proof (from_bytes_spec P q V bs HL Hb) as S. rewrite E in S.
  destruct S as (_ & _ & S). apply of_le_inj; [apply to_bytes_ok|exact Hb|rewrite to_bytes_length; auto|exact S].
Qed.

(** Addition chains, by tracking the exponent. *)
Ltac chain_step Wa :=
  match goal with
  | |- is_pow ?P ?q ?a (mul ?P ?x ?y) _ => eapply (ip_mul P q ltac:(eassumption)); chain_step Wa
  | |- is_pow ?P ?q ?a (pow2k ?P ?x ?k) _ => eapply (ip_pow2k P q ltac:(eassumption)); chain_step Wa
  | |- is_pow ?P ?q ?a ?a _ => apply (ip_self P q ltac:(eassumption)), Wa
  | H : is_pow ?P ?q ?a ?x _ |- is_pow ?P ?q ?a ?x _ => exact H
  end.

Section Sqrt.
  Variable P : params.
  Hypothesis V : valid P p.
  Lemma sqrt_chain a : wf p a -> exists r, secp_sqrt P a = Some r /\ is_pow P p a r ((p + 1) / 4).
  Proof.
    intro Wa. unfold secp_sqrt. cbv zeta. eexists. split; [reflexivity|].

    assert (H2 : is_pow P p a (mul P (pow2k P a 1) a) (1 * 2 ^ Z.of_nat 1 + 1)) by chain_step Wa.
    set (x2 := mul P (pow2k P a 1) a) in *. clearbody x2.
    eassert (H3 : is_pow P p a (mul P (pow2k P x2 1) a) _) by chain_step Wa.
    set (x3 := mul P (pow2k P x2 1) a) in *. clearbody x3.
    eassert (H6 : is_pow P p a (mul P (pow2k P x3 3) x3) _) by chain_step Wa.
    set (x6 := mul P (pow2k P x3 3) x3) in *. clearbody x6.
    eassert (H9 : is_pow P p a (mul P (pow2k P x6 3) x3) _) by chain_step Wa.
    set (x9 := mul P (pow2k P x6 3) x3) in *. clearbody x9.
    eassert (H11 : is_pow P p a (mul P (pow2k P x9 2) x2) _) by chain_step Wa.
    set (x11 := mul P (pow2k P x9 2) x2) in *. clearbody x11.
    eassert (H22 : is_pow P p a (mul P (pow2k P x11 11) x11) _) by chain_step Wa.
    set (x22 := mul P (pow2k P x11 11) x11) in *. clearbody x22.
    eassert (H44 : is_pow P p a (mul P (pow2k P x22 22) x22) _) by chain_step Wa.
    set (x44 := mul P (pow2k P x22 22) x22) in *. clearbody x44.
    eassert (H88 : is_pow P p a (mul P (pow2k P x44 44) x44) _) by chain_step Wa.
    set (x88 := mul P (pow2k P x44 44) x44) in *. clearbody x88.
    eassert (H176 : is_pow P p a (mul P (pow2k P x88 88) x88) _) by chain_step Wa.
    set (x176 := mul P (pow2k P x88 88) x88) in *. clearbody x176.
    eassert (H220 : is_pow P p a (mul P (pow2k P x176 44) x44) _) by chain_step Wa.
    set (x220 := mul P (pow2k P x176 44) x44) in *. clearbody x220.
    eassert (H223 : is_pow P p a (mul P (pow2k P x220 3) x3) _) by chain_step Wa.
    set (x223 := mul P (pow2k P x220 3) x3) in *. clearbody x223.
    eassert (HR : is_pow P p a (pow2k P (mul P (pow2k P (mul P (pow2k P x223 23) x22) 6) x2) 2) _) by chain_step Wa.
    match type of HR with is_pow _ _ _ _ ?e =>
      assert (Ee : e = (p + 1) / 4) by (vm_compute; reflexivity) end.
    rewrite Ee in HR. exact HR.
  Qed.
End Sqrt.

Section Chains.
  Variable P : params.
  Hypothesis V : valid P n.
  Lemma invert_chain a : wf n a -> eqb a (Fe 0 0 0 0 0) = false ->
    exists r, secq_invert P a = Some r /\ is_pow P n a r (n - 2).
  Proof.
    intros Wa H0. unfold secq_invert. cbv zeta. rewrite H0. eexists. split; [reflexivity|].
    eassert (H2 : is_pow P n a (pow2k P a 1) _) by chain_step Wa.
    set (x2 := pow2k P a 1) in *. clearbody x2.
    eassert (H3 : is_pow P n a (mul P x2 a) _) by chain_step Wa.
    set (x3 := mul P x2 a) in *. clearbody x3.
    eassert (H5 : is_pow P n a (mul P x2 x3) _) by chain_step Wa.
    set (x5 := mul P x2 x3) in *. clearbody x5.
    eassert (H7 : is_pow P n a (mul P x2 x5) _) by chain_step Wa.
    set (x7 := mul P x2 x5) in *. clearbody x7.
    eassert (H9 : is_pow P n a (mul P x2 x7) _) by chain_step Wa.
    set (x9 := mul P x2 x7) in *. clearbody x9.
    eassert (H11 : is_pow P n a (mul P x2 x9) _) by chain_step Wa.
    set (x11 := mul P x2 x9) in *. clearbody x11.
    eassert (H13 : is_pow P n a (mul P x2 x11) _) by chain_step Wa.
    set (x13 := mul P x2 x11) in *. clearbody x13.
    eassert (h6 : is_pow P n a (mul P (pow2k P x13 2) x11) _) by chain_step Wa.
    set (y6 := mul P (pow2k P x13 2) x11) in *. clearbody y6.
    eassert (h8 : is_pow P n a (mul P (pow2k P y6 2) x3) _) by chain_step Wa.
    set (y8 := mul P (pow2k P y6 2) x3) in *. clearbody y8.
    eassert (h14 : is_pow P n a (mul P (pow2k P y8 6) y6) _) by chain_step Wa.
    set (y14 := mul P (pow2k P y8 6) y6) in *. clearbody y14.
    eassert (h28 : is_pow P n a (mul P (pow2k P y14 14) y14) _) by chain_step Wa.
    set (y28 := mul P (pow2k P y14 14) y14) in *. clearbody y28.
    eassert (h56 : is_pow P n a (mul P (pow2k P y28 28) y28) _) by chain_step Wa.
    set (y56 := mul P (pow2k P y28 28) y28) in *. clearbody y56.
    match goal with |- is_pow _ _ _ ?r _ => eassert (HR : is_pow P n a r _) by chain_step Wa end.
    match type of HR with is_pow _ _ _ _ ?e =>
      assert (Ee : e = n - 2) by (vm_compute; reflexivity) end.
    rewrite Ee in HR. exact HR.
  Qed.
End Chains.

(** Square roots and inverses from the exponents. *)
Lemma pow_mod_base a q e : 0 < q -> 0 <= e -> (a mod q) ^ e mod q = a ^ e mod q.
Proof. intros Hq He. symmetry. apply Zpower_mod. exact Hq. Qed.

Lemma inv_from_pow q x y e : prime q -> e = q - 2 -> 0 < x < q -> y = x ^ e mod q -> (x * y) mod q = 1.
Proof.
  intros Hq -> Hx ->. pose proof (prime_ge_2 _ Hq).
  rewrite Zmult_mod_idemp_r, <- Z.pow_succ_r by lia. replace (Z.succ (q - 2)) with (q - 1) by ring.
  apply fermat_Z1; [exact Hq|]. intro D. apply Z.divide_pos_le in D; lia.
Qed.

(** The exponents are kept abstract so that nothing computes x^(2^254). *)
Lemma sqrt_from_pow_gen q e x y b : prime q -> q + 1 = 4 * e -> 0 < e -> 
  x mod q = (b * b) mod q -> y mod q = x ^ e mod q -> (y * y) mod q = x mod q.
Proof.
  intros Hq He Hp Hb Hy. pose proof (prime_ge_2 _ Hq).
  rewrite Z.mul_mod, Hy, <- Z.mul_mod, <- Z.pow_add_r by lia.
  rewrite <- pow_mod_base, Hb, pow_mod_base by lia.
  rewrite Z.pow_mul_l, <- Z.pow_add_r by lia. 
  replace (e + e + (e + e)) with ((q - 1) + 2) by lia.
  rewrite Z.pow_add_r by lia.
  destruct (Zdivide_dec q b) as [D|D].
  - destruct D as [k ->]. 
    replace ((k * q) ^ 2) with ((k * k * q) * q) by ring.
    rewrite Z.mul_assoc, Z_mod_mult. replace (k * q * (k * q)) with (k * q * k * q) by ring.
    rewrite Z_mod_mult. reflexivity.
  - rewrite <- Zmult_mod_idemp_l, fermat_Z1 by assumption. f_equal. ring.
Qed.

(** For a value that is not a square, x^((q+1)/4) is a root of -x. *)
Lemma fint_range P q : valid P q -> forall a, wf q a -> 0 <= fint P a < q.
Proof. intros V a W. exact (proj1 (fint_val P q V a W)). Qed.

Lemma secp_sqrt_square a b : wf p a -> wf p b -> fint SECP a = (fint SECP b * fint SECP b) mod p ->
  exists r, secp_sqrt SECP a = Some r /\ wf p r /\ (fint SECP r * fint SECP r) mod p = fint SECP a.
Proof.
  intros Wa Wb E. destruct (sqrt_chain SECP SECP_valid a Wa) as (r & Er & Wr & He & Hr).
  exists r. split; [exact Er|]. split; [exact Wr|].
  pose proof (fint_range SECP p SECP_valid a Wa) as Ra.
  generalize dependent (fint SECP r). generalize dependent (fint SECP a). generalize dependent (fint SECP b).
  intros y x Ex Ra z Hz.
  assert (X : (z * z) mod p = x mod p).
  { apply (sqrt_from_pow_gen p ((p + 1) / 4) x z y); [exact prime_p|vm_compute; reflexivity|vm_compute; reflexivity| |].
    - rewrite Ex. rewrite Zmod_mod. reflexivity.
    - rewrite Hz. rewrite Zmod_mod. reflexivity. }
  rewrite X. apply Z.mod_small, Ra.
Qed.

Lemma secq_invert_spec : inv_ok SECQ n (secq_invert SECQ).
Proof.
  intros a Wa.
  destruct (eqb a (Fe 0 0 0 0 0)) eqn:E.
  - replace (secq_invert SECQ a) with (@None fe) by (unfold secq_invert; cbv zeta; rewrite E; reflexivity).
    apply (eqb_spec_wf SECQ n SECQ_valid) in E; [|exact Wa|apply (fint_zero SECQ n SECQ_valid)].
    rewrite E. apply (fint_zero SECQ n SECQ_valid).
  - destruct (invert_chain SECQ SECQ_valid a Wa E) as (r & Er & Wr & He & Hr).
    rewrite Er. split; [exact Wr|].
    apply (inv_from_pow n _ _ (n - 2) prime_n eq_refl); [|exact Hr].
    pose proof (fint_range SECQ n SECQ_valid a Wa) as Ra.
    assert (fint SECQ a <> 0).
    { intro Z0. enough (eqb a (Fe 0 0 0 0 0) = true) by congruence.
      apply (eqb_spec_wf SECQ n SECQ_valid); [exact Wa|apply (fint_zero SECQ n SECQ_valid)|].
      rewrite Z0. symmetry. apply (fint_zero SECQ n SECQ_valid). }
    lia.
Qed.
