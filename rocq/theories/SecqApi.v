(** Lemmas for the properties of the curve library. *)
From Coq Require Import ZArith Znumtheory List Bool Lia Field Ring Eqdep_dec.
From Verif Require Import Base Fermat Primes Field Zq Limb LimbSpec LimbProofs LimbInt LimbInst LimbApi CurveSpec CurveProofs Secq SecqOrder SecqCofactor.
From Verif Require Import HashModel HashSpec HashField HashIso HashSwu HashParam HashApi SecqModel SecqSpec CommitModel Roots.
Import ListNotations.
Local Open Scope Z_scope.
Add Field Knq : (fth Fn).

Local Notation V := SECQ_valid.
Local Notation VP := SECP_valid.

(** ** scalars *)
Lemma order_p : ORDER = p. Proof. reflexivity. Qed.
Lemma p_pos : 0 < p. Proof. reflexivity. Qed.
Lemma p_256 : p < 2 ^ 256. Proof. reflexivity. Qed.
Lemma p_2 : 2 ^ 256 < 2 * p. Proof. reflexivity. Qed.
Lemma le32 s : 0 <= s < p -> of_le (le_bytes 32 s) = s.
Proof. intro H. rewrite of_le_le_bytes by lia. apply Z.mod_small. change (256 ^ Z.of_nat 32) with (2 ^ 256). pose proof p_256. lia. Qed.
Lemma s_field s : 0 <= s < p -> exists x, from_bytes SECP (s_to_bytes s) = Some x /\ reach SECP x /\ fint SECP x = s.
Proof.
  intro H. unfold s_to_bytes.
  destruct (proj1 (api_from_bytes _ _ VP (le_bytes 32 s) (le_bytes_length _ _) (le_bytes_ok _ _))) as (x & E & R & F & _).
  - rewrite le32 by exact H. apply H.
  - exists x. rewrite F, le32 by exact H. auto.
Qed.
Lemma s_mul_ok a b : 0 <= a < p -> 0 <= b < p -> s_mul a b = Ok ((a * b) mod p).
Proof.
  intros Ha Hb. unfold s_mul. destruct (s_field a Ha) as (x & -> & Rx & Ex). destruct (s_field b Hb) as (y & -> & Ry & Ey).
  rewrite !some_ok, !bind_ok. unfold s_from_repr. cbv zeta.
  assert (Rm : reach SECP (mul SECP x y)) by (apply reach_mul; assumption).
  destruct (api_to_bytes _ _ VP _ Rm) as (_ & _ & T). rewrite (proj1 (api_be _ _ VP _ Rm)), rev_involutive.
  assert (E : of_le (to_bytes SECP (mul SECP x y)) = (a * b) mod p).
  { rewrite <- Ex, <- Ey, <- (api_mul _ _ VP x y Rx Ry). reflexivity. }
  rewrite E, order_p. destruct (Z.ltb_spec ((a * b) mod p) p) as [L|L]; [reflexivity|].
  pose proof (Z.mod_pos_bound (a * b) p p_pos). lia.
Qed.
Lemma reduced_ok w : 0 <= w < 2 ^ 256 -> from_uint_reduced w = Ok (w mod p).
Proof.
  intro H. unfold from_uint_reduced. cbv zeta. rewrite order_p. pose proof p_2. pose proof p_256. pose proof p_pos.
  destruct (Z.ltb_spec w p) as [L|L]; cbn [negb].
  - rewrite (Z.mod_small w p) by lia. destruct (Z.ltb_spec w p); [reflexivity|lia].
  - rewrite (Z.mod_small (w - p)) by lia.
    assert (E : w mod p = w - p) by (symmetry; apply (Z.mod_unique_pos w p 1); lia).
    rewrite E. destruct (Z.ltb_spec (w - p) p); [reflexivity|lia].
Qed.
Lemma decompress_scalar_ok s : reach SECP s -> decompress_scalar s = Ok (fint SECP s).
Proof.
  intro H. unfold decompress_scalar. pose proof (api_range _ _ VP s H). pose proof p_256.
  destruct (api_to_bytes _ _ VP _ H) as (_ & _ & T).
  assert (E : of_le (to_bytes SECP s) = fint SECP s) by reflexivity.
  rewrite E, reduced_ok by lia. rewrite Z.mod_small by lia. reflexivity.
Qed.
Lemma repr_ok bs : length bs = 32%nat -> bytes_ok bs ->
  s_from_repr bs = (let v := of_le (rev bs) in if v <? p then Some v else None) /\
  (forall s, s_from_repr bs = Some s -> 0 <= s < p /\ s_to_repr s = bs).
Proof.
  intros HL HB. split; [reflexivity|]. intros s. unfold s_from_repr, s_to_repr. cbv zeta. rewrite order_p.
  destruct (Z.ltb_spec (of_le (rev bs)) p) as [L|L]; [|discriminate]. intros [= <-].
  assert (B : bytes_ok (rev bs)) by (apply Forall_rev, HB).
  split; [split; [apply of_le_bound, B|exact L]|].
  replace 32%nat with (length (rev bs)) by (rewrite rev_length; exact HL). rewrite le_bytes_of_le by exact B. apply rev_involutive.
Qed.
Lemma repr_round s : 0 <= s < p -> s_from_repr (s_to_repr s) = Some s.
Proof.
  intro H. unfold s_from_repr, s_to_repr. cbv zeta. rewrite rev_involutive, le32, order_p by exact H.
  destruct (Z.ltb_spec s p); [reflexivity|lia].
Qed.

(** ** the group *)
Lemma generator_good : good generator /\ pq generator = base.
Proof.
  assert (R : rel (fst GENERATOR) (fn gx) /\ rel (snd GENERATOR) (fn gy)).
  { split; (apply R_const; [repeat split; try (vm_compute; congruence)|vm_compute; reflexivity|vm_compute; reflexivity]). }
  destruct R as [[R1 E1] [R2 E2]].
  assert (E : pq generator = base).
  { unfold pq, generator, option_map, fq2. rewrite E1, E2. reflexivity. }
  split; [|exact E]. unfold good, generator. destruct GENERATOR as [x y]. cbn [fst snd] in *.
  split; [exact R1|]. split; [exact R2|]. rewrite E1, E2. exact base_on.
Qed.
Lemma group_cyclic P : on_curve secq P = true -> exists k, 0 <= k < p /\ P = emul k (pq generator) /\
  forall j, 0 <= j < p -> P = emul j (pq generator) -> j = k.
Proof.
  intro H. rewrite (proj2 generator_good). destruct (all_multiples P H) as (k & Hk & E). exists k. split; [exact Hk|]. split; [exact E|].
  intros j Hj Ej. apply base_eq; [exact Hj|exact Hk|]. rewrite <- Ej, <- E. reflexivity.
Qed.
Lemma all_p P : on_curve secq P = true -> emul p P = None.
Proof.
  intro H. destruct (all_multiples P H) as (k & Hk & ->). rewrite <- (emul_mul secq) by exact base_on.
  rewrite Z.mul_comm, (emul_mul secq), base_order, emul_0 by exact base_on. reflexivity.
Qed.
Lemma group_order P k : on_curve secq P = true -> P <> None -> (emul k P = None <-> (p | k)).
Proof. intros H N. exact (order_iff P H (all_p P H) N k). Qed.
Lemma emul_modp P k : on_curve secq P = true -> emul (k mod p) P = emul k P.
Proof.
  intro H. destruct P as [P|]; [|rewrite !emul_0; reflexivity]. apply emul_mod; [exact H|apply all_p, H|discriminate].
Qed.

Definition SQ : Type := { P : option (Fn * Fn) | on_curve secq P = true }.
Lemma SQ_eq (a b : SQ) : proj1_sig a = proj1_sig b -> a = b.
Proof.
  destruct a as [a Ha], b as [b Hb]. cbn. intros ->. f_equal. apply UIP_dec, bool_dec.
Qed.
Definition sq0 : SQ := exist _ None eq_refl.
Definition sqadd (a b : SQ) : SQ := exist _ (eadd (proj1_sig a) (proj1_sig b)) (on_add secq _ _ (proj2_sig a) (proj2_sig b)).
Definition sqopp (a : SQ) : SQ := exist _ (eopp (proj1_sig a)) (on_opp secq _ (proj2_sig a)).
Definition sqmul (x : Fp) (a : SQ) : SQ := exist _ (emul (zval x) (proj1_sig a)) (on_emul secq _ _ (proj2_sig a)).
Definition pteqb (P Q : option (Fn * Fn)) : bool :=
  match P, Q with Some (x, y), Some (x', y') => feqb x x' && feqb y y' | None, None => true | _, _ => false end.
Lemma pteqb_spec P Q : reflect (P = Q) (pteqb P Q).
Proof.
  destruct P as [[x y]|], Q as [[x' y']|]; cbn [pteqb]; try (constructor; congruence).
  destruct (feqb_spec Fn x x') as [->|N]; [|constructor; congruence]. cbn [andb].
  destruct (feqb_spec Fn y y') as [->|N]; constructor; congruence.
Qed.
Lemma sqeqb_spec (a b : SQ) : reflect (a = b) (pteqb (proj1_sig a) (proj1_sig b)).
Proof.
  destruct (pteqb_spec (proj1_sig a) (proj1_sig b)) as [E|N]; constructor; [apply SQ_eq, E|intros ->; apply N; reflexivity].
Qed.
Lemma zval_fadd (x y : Fp) : zval (fadd x y) = (zval x + zval y) mod p. Proof. reflexivity. Qed.
Lemma zval_fmul (x y : Fp) : zval (fmul x y) = (zval x * zval y) mod p. Proof. reflexivity. Qed.

(** the vector space over [Fp] of the points of secq256k1 *)
Definition SecqG : Mod Fp.
Proof.
  refine (@MkMod Fp SQ sq0 sqadd sqopp sqmul _ _ _ _ _ _ _ _ (fun a b => pteqb (proj1_sig a) (proj1_sig b)) sqeqb_spec).
  - intros a b c. apply SQ_eq. symmetry. exact (add_assoc secq _ _ _ (proj2_sig a) (proj2_sig b) (proj2_sig c)).
  - intros a b. apply SQ_eq. exact (add_comm secq _ _ (proj2_sig a) (proj2_sig b)).
  - intros a. apply SQ_eq. reflexivity.
  - intros a. apply SQ_eq. exact (add_opp (proj1_sig a)).
  - intros x a b. apply SQ_eq. exact (emul_dist secq (zval x) _ _ (proj2_sig a) (proj2_sig b)).
  - intros x y a. apply SQ_eq. unfold sqmul, sqadd. cbn [proj1_sig]. rewrite zval_fadd, emul_modp by exact (proj2_sig a).
    exact (emul_add secq _ _ _ (proj2_sig a)).
  - intros x y a. apply SQ_eq. unfold sqmul. cbn [proj1_sig]. rewrite zval_fmul, emul_modp by exact (proj2_sig a).
    exact (emul_mul secq _ _ _ (proj2_sig a)).
  - intros a. apply SQ_eq. reflexivity.
Defined.

(** ** encodings *)
Lemma land1 b : 0 <= b -> Z.land b 1 = b mod 2.
Proof. intro H. change 1 with (Z.ones 1). rewrite Z.land_ones by lia. reflexivity. Qed.
Lemma last_be_odd y : reach SECQ y -> Z.land (last (to_be_bytes SECQ y) 0) 1 = if Z.odd (fint SECQ y) then 1 else 0.
Proof.
  intro H. destruct (api_to_bytes _ _ V _ H) as (L & B & T). rewrite (proj1 (api_be _ _ V _ H)).
  destruct (to_bytes SECQ y) as [|b l] eqn:E; [discriminate L|]. cbn [rev]. rewrite last_last.
  assert (Hb : 0 <= b < 256) by (inversion B; assumption). rewrite land1 by lia.
  assert (F : fint SECQ y = of_le (b :: l)) by (rewrite <- E; reflexivity).
  rewrite F. cbn [of_le]. rewrite Z.odd_add, Z.odd_mul. cbn [Z.odd]. rewrite andb_false_l, xorb_false_r.
  rewrite Zmod_odd. reflexivity.
Qed.
Lemma rhs_ok x : reach SECQ x -> rel (curve_rhs x) (fadd (fmul (fmul (fq x) (fq x)) (fq x)) (fn 7)).
Proof.
  intro H. assert (Rx : rel x (fq x)) by (split; auto). assert (R0 := R_zero). assert (RB := R_B).
  replace (fadd (fmul (fmul (fq x) (fq x)) (fq x)) (fn 7)) with (fadd (fadd (fmul (fmul (fq x) (fq x)) (fq x)) (fmul f0 (fq x))) (fn 7)) by ring.
  unfold curve_rhs. auto using R_add, R_mul.
Qed.
Lemma fq_eq a b : reach SECQ a -> reach SECQ b -> fq a = fq b -> a = b.
Proof.
  intros Ha Hb H. apply (api_unique _ _ V); [exact Ha|exact Hb|]. apply (f_equal (@zval n)) in H. unfold fq in H. rewrite !zval_fn in H.
  rewrite !Z.mod_small in H by (apply (api_range _ _ V); assumption). exact H.
Qed.
Lemma zval_fq a : reach SECQ a -> zval (fq a) = fint SECQ a.
Proof. intro H. apply rel_val. split; auto. Qed.
Lemma on_nz x y : on_curve secq (Some (x, y)) = true -> y <> f0.
Proof.
  intros H E. apply feqb_t in H. rewrite E in H. change (cb secq) with (fn 7) in H.
  apply (seven_no_cube x). rewrite <- H. ring.
Qed.
Lemma sqrt_rhs f x : ksqrt_ok n f -> reach SECQ x ->
  match secq_sqrt SECQ f (curve_rhs x) with
  | Ok (Some r) => reach SECQ r /\ on_curve secq (Some (fq x, fq r)) = true
  | Ok None => forall y, on_curve secq (Some (fq x, y)) = false
  | _ => False
  end.
Proof.
  intros Hf Hx. destruct (rhs_ok x Hx) as [Rr Er]. pose proof (api_ksqrt _ _ V f (curve_rhs x) Hf Rr) as K.
  assert (Ev : fint SECQ (curve_rhs x) = zval (fadd (fmul (fmul (fq x) (fq x)) (fq x)) (fn 7))).
  { rewrite <- Er. symmetry. apply zval_fq, Rr. }
  destruct (secq_sqrt SECQ f (curve_rhs x)) as [[r|]| |]; try contradiction.
  - destruct K as [Rq Eq]. split; [exact Rq|]. apply feqb_t. change (cb secq) with (fn 7). apply (zq_eq n).
    rewrite <- Ev, <- Eq. change (zval (fmul (fq r) (fq r))) with ((zval (fq r) * zval (fq r)) mod n). rewrite zval_fq by exact Rq. reflexivity.
  - intro y. destruct (on_curve secq (Some (fq x, y))) eqn:O; [|reflexivity]. exfalso. apply feqb_t in O.
    apply (K (zval y)). rewrite Ev. apply (f_equal (@zval n)) in O. exact O.
Qed.
Lemma two_roots x y z : on_curve secq (Some (x, y)) = true -> on_curve secq (Some (x, z)) = true -> z = y \/ z = fopp y.
Proof.
  intros A B. apply feqb_t in A, B.
  assert (M : fmul (fsub z y) (fadd z y) = f0) by (transitivity (fsub (fmul z z) (fmul y y)); [ring|rewrite A, B; ring]).
  destruct (fmul_0 _ _ M) as [Z0|Z0]; [left|right].
  - transitivity (fadd (fsub z y) y); [ring|rewrite Z0; ring].
  - transitivity (fsub (fadd z y) y); [ring|rewrite Z0; ring].
Qed.
Lemma odd_fq a : reach SECQ a -> is_odd SECQ a = Z.odd (zval (fq a)).
Proof. intro H. rewrite (api_odd _ _ V a H), zval_fq by exact H. reflexivity. Qed.
Lemma neg_fq a : reach SECQ a -> reach SECQ (neg SECQ a) /\ fq (neg SECQ a) = fopp (fq a).
Proof. intro H. exact (R_neg a (fq a) (conj H eq_refl)). Qed.

(** the root chosen for a parity *)
Lemma pick_ok x y z b : on_curve secq (Some (x, fq y)) = true -> on_curve secq (Some (x, fq z)) = true -> reach SECQ y -> reach SECQ z ->
  Z.odd (zval (fq y)) = b ->
  (if Bool.eqb (is_odd SECQ z) b then z else neg SECQ z) = y.
Proof.
  intros Oy Oz Ry Rz Hb. rewrite (odd_fq z Rz). destruct (neg_fq z Rz) as [Rn En].
  destruct (two_roots _ _ _ Oy Oz) as [E|E].
  - rewrite E, Hb, Bool.eqb_reflx. apply fq_eq; assumption.
  - rewrite E, (odd_opp (fq y) (on_nz _ _ Oy)), Hb.
    replace (Bool.eqb (negb b) b) with false by (destruct b; reflexivity).
    apply fq_eq; [exact Rn|exact Ry|]. rewrite En, E. ring.
Qed.
Lemma if_eqb3 (b : bool) : (2 + (if b then 1 else 0) =? 3) = b. Proof. destruct b; reflexivity. Qed.
Lemma to_be_length a : reach SECQ a -> length (to_be_bytes SECQ a) = 32%nat.
Proof. intro H. rewrite (proj1 (api_be _ _ V _ H)), rev_length. apply (api_to_bytes _ _ V a H). Qed.
Lemma tag_cases (b : bool) : (2 + (if b then 1 else 0) =? 0) = false /\ ((2 + (if b then 1 else 0) =? 2) || (2 + (if b then 1 else 0) =? 3)) = true.
Proof. destruct b; split; reflexivity. Qed.
Lemma decode_encode f P : ksqrt_ok n f -> good P -> decompress_point f (compress_point P) = Ok (Some P).
Proof.
  intros Hf HP. destruct P as [[x y]|]; [|reflexivity]. destruct HP as (Rx & Ry & O).
  unfold compress_point. rewrite (last_be_odd y Ry), <- (zval_fq y Ry). set (b := Z.odd (zval (fq y))).
  unfold decompress_point. destruct (tag_cases b) as [T0 T1]. rewrite T0, T1, (to_be_length x Rx). cbn [andb Nat.eqb].
  rewrite (proj2 (api_be _ _ V x Rx)). pose proof (sqrt_rhs f x Hf Rx) as S.
  destruct (secq_sqrt SECQ f (curve_rhs x)) as [[r|]| |]; try contradiction.
  - destruct S as [Rr Or]. rewrite bind_ok. unfold option_map. rewrite if_eqb3, (pick_ok (fq x) y r b O Or Ry Rr eq_refl). reflexivity.
  - rewrite (S (fq y)) in O. discriminate O.
Qed.
Lemma sec1_some bs x : length bs = 32%nat -> bytes_ok bs -> from_sec1 SECQ bs = Some x -> reach SECQ x /\ to_be_bytes SECQ x = bs.
Proof.
  intros HL HB E. unfold from_sec1 in E.
  assert (HL' : length (rev bs) = 32%nat) by (rewrite rev_length; exact HL). assert (HB' : bytes_ok (rev bs)) by (apply Forall_rev, HB).
  assert (R : reach SECQ x) by exact (reach_from_bytes SECQ _ x HL' HB' E). split; [exact R|].
  rewrite (proj1 (api_be _ _ V x R)), (roundtrip_bytes _ _ V _ _ HL' HB' E). apply rev_involutive.
Qed.
Lemma pick_parity x z b : on_curve secq (Some (x, fq z)) = true -> reach SECQ z ->
  let y := if Bool.eqb (is_odd SECQ z) b then z else neg SECQ z in
  reach SECQ y /\ on_curve secq (Some (x, fq y)) = true /\ Z.odd (zval (fq y)) = b.
Proof.
  intros O R. cbv zeta. rewrite (odd_fq z R). destruct (neg_fq z R) as [Rn En]. destruct (Bool.eqb (Z.odd (zval (fq z))) b) eqn:E.
  - apply Bool.eqb_prop in E. auto.
  - split; [exact Rn|]. rewrite En, (odd_opp (fq z) (on_nz _ _ O)). split; [exact (on_opp secq (Some (x, fq z)) O)|].
    destruct (Z.odd (zval (fq z))), b; try reflexivity; discriminate E.
Qed.
Lemma ok_some {A} (a b : A) : Ok (Some a) = Ok (Some b) -> a = b. Proof. congruence. Qed.
Lemma decode_ok f bs : ksqrt_ok n f -> bytes_ok bs ->
  match decompress_point f bs with
  | Ok (Some P) => good P /\ (length bs <> 65%nat -> compress_point P = bs)
  | Ok None => forall P, good P -> compress_point P <> bs
  | _ => False
  end.
Proof.
  intros Hf HB.
  assert (Hno : forall r, r = Ok None -> decompress_point f bs = r -> forall P, good P -> compress_point P <> bs).
  { intros r -> E P HP Ec. rewrite <- Ec, (decode_encode f P Hf HP) in E. discriminate E. }
  destruct (decompress_point f bs) as [[P|]|e|] eqn:E.
  2: exact (Hno _ eq_refl eq_refl).
  - unfold decompress_point in E. destruct bs as [|tag rest]; [discriminate E|].
    destruct (Z.eqb_spec tag 0) as [->|N0]; cbn [andb orb] in E.
    { destruct rest as [|c rest]; cbn [length Nat.eqb] in E; [injection E as <-; split; [exact I|reflexivity]|].
      cbn [Z.eqb orb andb] in E. discriminate E. }
    destruct ((tag =? 2) || (tag =? 3)) eqn:T; cbn [andb] in E.
    + destruct (Nat.eqb_spec (length rest) 32) as [L|L].
      2:{ destruct (Z.eqb_spec tag 4) as [->|N4]; [discriminate T|]. discriminate E. }
      assert (HB' : bytes_ok rest) by (inversion HB; assumption).
      destruct (from_sec1 SECQ rest) as [x|] eqn:Ex; [|discriminate E].
      destruct (sec1_some rest x L HB' Ex) as [Rx Bx].
      pose proof (sqrt_rhs f x Hf Rx) as S. destruct (secq_sqrt SECQ f (curve_rhs x)) as [[r|]| |]; try contradiction.
      2:{ rewrite bind_ok in E. discriminate E. }
      rewrite bind_ok in E. unfold option_map in E. apply ok_some in E. rewrite <- E. clear Hno E. destruct S as [Rr Or].
      destruct (pick_parity (fq x) r (tag =? 3) Or Rr) as (Ry & Oy & Py). cbv zeta in Ry, Oy, Py.
      split; [exact (conj Rx (conj Ry Oy))|]. intros _. unfold compress_point.
      rewrite (last_be_odd _ Ry), <- (zval_fq _ Ry), Py, Bx. f_equal.
      destruct (Z.eqb_spec tag 3) as [->|]; [reflexivity|]. rewrite orb_false_r in T. apply Z.eqb_eq in T. subst. reflexivity.
    + destruct (Z.eqb_spec tag 4) as [->|N4]; cbn [andb] in E; [|discriminate E].
      destruct (Nat.eqb_spec (length rest) 64) as [L|L]; [|discriminate E].
      assert (HB' : bytes_ok rest) by (inversion HB; assumption).
      assert (B1 : bytes_ok (slice rest 0 32)) by (rewrite <- (firstn_skipn 32 rest) in HB'; apply Forall_app in HB'; apply HB').
      assert (B2 : bytes_ok (slice rest 32 64)).
      { unfold slice. rewrite firstn_all2 by (rewrite skipn_length; lia).
        rewrite <- (firstn_skipn 32 rest) in HB'. apply Forall_app in HB'. apply HB'. }
      assert (L1 : length (slice rest 0 32) = 32%nat) by (change (slice rest 0 32) with (firstn 32 rest); rewrite firstn_length; lia).
      assert (L2 : length (slice rest 32 64) = 32%nat) by (unfold slice; rewrite firstn_length, skipn_length; lia).
      destruct (from_sec1 SECQ (slice rest 32 64)) as [y|] eqn:Ey; [|discriminate E].
      destruct (from_sec1 SECQ (slice rest 0 32)) as [x|] eqn:Ex; [|discriminate E].
      destruct (sec1_some _ x L1 B1 Ex) as [Rx _]. destruct (sec1_some _ y L2 B2 Ey) as [Ry _].
      destruct (Limb.eqb (mul SECQ y y) (curve_rhs x)) eqn:Q; [|discriminate E].
      unfold option_map in E. apply ok_some in E. rewrite <- E. clear Hno E. split; [|intro N; exfalso; apply N; cbn [length]; rewrite L; reflexivity].
      split; [exact Rx|]. split; [exact Ry|].
      rewrite (rel_feqb _ _ _ _ (R_mul y y (fq y) (fq y) (conj Ry eq_refl) (conj Ry eq_refl)) (rhs_ok x Rx)) in Q. exact Q.
  - exfalso. unfold decompress_point in E. destruct bs as [|tag rest]; [discriminate E|].
    destruct ((tag =? 0) && Nat.eqb (length rest) 0); [discriminate E|].
    destruct (((tag =? 2) || (tag =? 3)) && Nat.eqb (length rest) 32) eqn:T.
    2:{ destruct ((tag =? 4) && Nat.eqb (length rest) 64); discriminate E. }
    destruct (from_sec1 SECQ rest) as [x|] eqn:Ex; [|discriminate E].
    apply andb_prop in T. destruct T as [_ T]. apply Nat.eqb_eq in T.
    assert (HB' : bytes_ok rest) by (inversion HB; assumption).
    pose proof (sqrt_rhs f x Hf (proj1 (sec1_some rest x T HB' Ex))) as S.
    destruct (secq_sqrt SECQ f (curve_rhs x)) as [[r|]| |]; try contradiction; rewrite bind_ok in E; discriminate E.
  - exfalso. unfold decompress_point in E. destruct bs as [|tag rest]; [discriminate E|].
    destruct ((tag =? 0) && Nat.eqb (length rest) 0); [discriminate E|].
    destruct (((tag =? 2) || (tag =? 3)) && Nat.eqb (length rest) 32) eqn:T.
    2:{ destruct ((tag =? 4) && Nat.eqb (length rest) 64); discriminate E. }
    destruct (from_sec1 SECQ rest) as [x|] eqn:Ex; [|discriminate E].
    apply andb_prop in T. destruct T as [_ T]. apply Nat.eqb_eq in T.
    assert (HB' : bytes_ok rest) by (inversion HB; assumption).
    pose proof (sqrt_rhs f x Hf (proj1 (sec1_some rest x T HB' Ex))) as S.
    destruct (secq_sqrt SECQ f (curve_rhs x)) as [[r|]| |]; try contradiction; rewrite bind_ok in E; discriminate E.
Qed.

(** a square root meeting the contract *)
Definition ksqrt_ref (x : Z) : option Z :=
  if x =? 0 then Some 0 else let (b, y) := sqrt_ratio fn_traits (fn x) f1 in if b then Some (zval y) else None.
Lemma one_nz : (f1 : Fn) <> f0. Proof. intro E. apply (f_equal (@zval n)) in E. discriminate E. Qed.
Lemma ksqrt_ref_ok : ksqrt_ok n ksqrt_ref.
Proof.
  intros x Hx. unfold ksqrt_ref. destruct (Z.eqb_spec x 0) as [->|N]; [split; [split; [discriminate|reflexivity]|reflexivity]|].
  assert (Ex : zval (fn x) = x) by (rewrite zval_fn; apply Z.mod_small, Hx).
  pose proof (sqrt_ratio_ok (fn x) f1) as H. destruct (sqrt_ratio fn_traits (fn x) f1) as [b y]. destruct H as (Hb & H1 & _). destruct b.
  - split; [apply (zval_range n y)|]. specialize (H1 eq_refl).
    assert (E : fmul y y = fn x) by (rewrite <- H1; ring). apply (f_equal (@zval n)) in E. rewrite Ex in E. exact E.
  - intros y0 E. assert (S : is_square (fn x)).
    { exists (fn y0). rewrite <- fn_mul. apply fn_eq. rewrite E. symmetry. apply Z.mod_small, Hx. }
    assert (L : leg (fn x) f1 = f1).
    { apply leg_square; [intro Z0; apply (f_equal (@zval n)) in Z0; rewrite Ex in Z0; exact (N Z0)|exact one_nz|].
      replace (fdiv (fn x) f1) with (fn x) by (field; exact one_nz). exact S. }
    rewrite L, (proj2 (feqb_t f1 f1) eq_refl) in Hb. discriminate Hb.
Qed.

(** ** the encoding, for the protocols *)
Definition lift (x : Fn) : fe := from_bytes_wide SECQ (le_bytes 64 (zval x)).
Lemma lift_ok x : reach SECQ (lift x) /\ fq (lift x) = x.
Proof.
  destruct (fq_wide (le_bytes 64 (zval x)) (le_bytes_length _ _) (le_bytes_ok _ _)) as [R E]. split; [exact R|].
  unfold lift. rewrite E. pose proof (zval_range n x) as Z0. rewrite of_le_le_bytes by apply Z0.
  rewrite Z.mod_small; [apply fn_zval|]. split; [apply Z0|]. apply Z.lt_trans with n; [apply Z0|reflexivity].
Qed.
Definition lift_pt (P : SQ) : point := option_map (fun c => (lift (fst c), lift (snd c))) (proj1_sig P).
Lemma lift_pt_ok P : good (lift_pt P) /\ pq (lift_pt P) = proj1_sig P.
Proof.
  destruct P as [[[x y]|] H]; [|split; [exact I|reflexivity]]. unfold lift_pt, pq, good, fq2. cbn [proj1_sig option_map fst snd].
  destruct (lift_ok x) as [Rx Ex], (lift_ok y) as [Ry Ey]. rewrite Ex, Ey. auto.
Qed.
Definition to_SQ (P : point) : option SQ :=
  match bool_dec (on_curve secq (pq P)) true with left H => Some (exist _ (pq P) H) | right _ => None end.
Lemma to_SQ_some P H : to_SQ P = Some (exist _ (pq P) H).
Proof.
  unfold to_SQ. destruct (bool_dec (on_curve secq (pq P)) true) as [H'|N]; [|contradiction]. f_equal. apply SQ_eq. reflexivity.
Qed.
Definition sq_compress (P : SQ) : list Z := compress_point (lift_pt P).
Definition sq_decompress (ksqrt : Z -> option Z) (bs : list Z) : option SQ :=
  match decompress_point ksqrt bs with Ok (Some P) => to_SQ P | _ => None end.
Lemma sq_roundtrip f : ksqrt_ok n f -> forall P, sq_decompress f (sq_compress P) = Some P.
Proof.
  intros Hf P. destruct (lift_pt_ok P) as [HG E]. unfold sq_decompress, sq_compress. rewrite (decode_encode f _ Hf HG).
  assert (O : on_curve secq (pq (lift_pt P)) = true) by (rewrite E; exact (proj2_sig P)).
  rewrite (to_SQ_some _ O). f_equal. apply SQ_eq. exact E.
Qed.
Definition lz_eqb (a b : list Z) : bool := if list_eq_dec Z.eq_dec a b then true else false.
Lemma lz_eqb_spec a b : reflect (a = b) (lz_eqb a b).
Proof. unfold lz_eqb. destruct (list_eq_dec Z.eq_dec a b); constructor; assumption. Qed.
Definition SecqE (f : Z -> option Z) (Hf : ksqrt_ok n f) : Enc SecqG :=
  MkEnc Fp SecqG (list Z) sq_compress (sq_decompress f) (sq_roundtrip f Hf) lz_eqb lz_eqb_spec.

(** ** the generators *)
Lemma gens_on (xof : nat -> list Z) : (forall i, length (xof i) = 128%nat /\ bytes_ok (xof i)) ->
  exists stream : nat -> SecqG, forall i,
    gens_point sum_points xof i = Ok (proj1_sig (stream i : SQ)) /\
    exists P1 P2, proj1_sig (stream i : SQ) = eadd (Some P1) (Some P2) /\
      half_hash (firstn 64 (xof i)) P1 /\ half_hash (skipn 64 (xof i)) P2.
Proof.
  intro HX.
  exists (fun i => match from_uniform_bytes sum_points (xof i) with
                   | Ok P => match bool_dec (on_curve secq P) true with left H => exist _ P H : SQ | right _ => sq0 end
                   | _ => sq0 end).
  intro i. destruct (HX i) as [HL HB]. destruct (uniform_on (xof i) HL HB) as (P1 & P2 & E & A & B & _ & _ & O).
  unfold gens_point. rewrite E. destruct (bool_dec (on_curve secq (eadd (Some P1) (Some P2))) true) as [H|N]; [|contradiction].
  split; [reflexivity|]. exists P1, P2. split; [reflexivity|]. split; assumption.
Qed.

(** ** constants of the [PrimeField] implementations *)
Lemma scalar_root_bad : exists z, s_root_of_unity = Ok z /\ ~ two_adic_root p SCALAR_S z /\
  z ^ (2 ^ SCALAR_S) mod p <> 1 /\ (p - 1) mod 2 ^ SCALAR_S <> 0.
Proof.
  eexists. split; [vm_compute; reflexivity|].
  assert (N : (p - 1) mod 2 ^ SCALAR_S <> 0) by (vm_compute; discriminate).
  split; [intros (D & _); exact (N D)|]. split; [|exact N].
  rewrite <- (powm_ok p) by (reflexivity || discriminate). vm_compute. discriminate.
Qed.
Lemma secq_root_bad : ~ two_adic_root n SECQ_S (fint SECQ secq_root_of_unity) /\ two_adic_root n 6 (fint SECQ secq_root_of_unity).
Proof.
  split; [intros (_ & D & _); apply D; reflexivity|].
  split; [reflexivity|]. split; [vm_compute; discriminate|].
  replace (fint SECQ secq_root_of_unity) with 5480320495727936603795231718619559942670027629901634955707709633242980176626 by (vm_compute; reflexivity).
  split; rewrite <- (powm_ok n) by (reflexivity || discriminate); [vm_compute; reflexivity|vm_compute; discriminate].
Qed.
Lemma secp_root_ok : two_adic_root p SECP_S (fint SECP secp_root_of_unity).
Proof. repeat split; vm_compute; try reflexivity; discriminate. Qed.
Lemma char_bits_bad : of_le char_le_bits <> ORDER /\ of_le (rev char_le_bits) = ORDER.
Proof. split; [vm_compute; discriminate|vm_compute; reflexivity]. Qed.
Lemma secp_generates : generates p (fint SECP secp_generator).
Proof. unfold secp_generator. rewrite (api_u64 SECP p VP 3) by (split; [discriminate|reflexivity]). change (3 mod p) with 3. exact generates_p. Qed.
Lemma scalar_not_generates : ~ generates ORDER s_generator /\ ~ exists i, 0 <= i /\ s_generator ^ i mod ORDER = 3.
Proof.
  split; [|exact seven_not_p]. intro H. destruct (H 3) as (i & [Hi _] & E); [split; reflexivity|]. apply seven_not_p. exists i. split; assumption.
Qed.

(** ** scalars and multiples of points *)
Lemma scalar_action a b P : 0 <= a < p -> 0 <= b < p -> on_curve secq P = true ->
  0 <= s_add a b < p /\ emul (s_add a b) P = eadd (emul a P) (emul b P) /\
  0 <= s_sub a b < p /\ emul (s_sub a b) P = eadd (emul a P) (eopp (emul b P)) /\
  0 <= s_neg a < p /\ emul (s_neg a) P = eopp (emul a P) /\
  0 <= s_double a < p /\ emul (s_double a) P = eadd (emul a P) (emul a P) /\
  exists c, s_mul a b = Ok c /\ 0 <= c < p /\ emul c P = emul a (emul b P).
Proof.
  intros Ha Hb H. pose proof p_pos as Q.
  split; [apply Z.mod_pos_bound, Q|]. split; [unfold s_add; rewrite emul_modp by exact H; apply (emul_add secq), H|].
  split; [apply Z.mod_pos_bound, Q|]. split; [unfold s_sub; rewrite emul_modp by exact H; apply (emul_sub secq), H|].
  split; [apply Z.mod_pos_bound, Q|]. split; [unfold s_neg; rewrite emul_modp by exact H; apply (emul_opp secq), H|].
  split; [apply Z.mod_pos_bound, Q|]. split; [unfold s_double, s_add; rewrite emul_modp by exact H; apply (emul_add secq), H|].
  exists ((a * b) mod p). split; [apply s_mul_ok; assumption|]. split; [apply Z.mod_pos_bound, Q|]. rewrite emul_modp by exact H. apply (emul_mul secq), H.
Qed.
