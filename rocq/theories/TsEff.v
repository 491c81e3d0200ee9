(** Proofs about computeEffEcdsaPubInput and verifyEffEcdsaPubInput. *)
From Coq Require Import ZArith Znumtheory List Bool Lia Zpow_facts.
From Verif Require Import Base Fermat Primes Field Zq CurveSpec CurveProofs Secp SecpOrder SecpCofactor CircSpec CircApi TsModel TsSpec TsProofs.
Import ListNotations.
Local Open Scope Z_scope.

Lemma all_secp P : on_secp P -> secp_point P.
Proof. intro H. split; [exact H|exact (all_order P H)]. Qed.

(** * Square roots *)
Lemma sqrt_ok y0 : 0 <= y0 -> let y2 := (y0 * y0) mod p in
  let y := powm p y2 ((p + 1) / 4) in (y * y) mod p = y2.
Proof.
  intros H0 y2 y. unfold y. rewrite powm_ok by reflexivity || discriminate. rewrite <- Zmult_mod.
  unfold y2. destruct (Zdivide_dec p y0) as [D|D].
  - assert (E : (y0 * y0) mod p = 0) by (apply Z.mod_divide; [discriminate|apply Z.divide_mul_l, D]). rewrite E.
    rewrite Z.pow_0_l by reflexivity. reflexivity.
  - rewrite <- Z.pow_add_r by discriminate. change ((p + 1) / 4 + (p + 1) / 4) with ((p - 1) / 2 + 1).
    rewrite Z.pow_add_r, Z.pow_1_r by discriminate. rewrite Zmult_mod, (Zpower_mod _ ((p - 1) / 2)), Zmod_mod by reflexivity.
    rewrite <- Zpower_mod by reflexivity. rewrite <- Z.pow_2_r, <- Z.pow_mul_r by discriminate.
    change (2 * ((p - 1) / 2)) with (p - 1). rewrite (fermat_Z1 y0 p prime_p D). rewrite Z.mul_1_l, Zmod_mod. reflexivity.
Qed.

Lemma zval_mod (x : Fp) : zval x mod p = zval x.
Proof. apply Z.mod_small, zval_range. Qed.
Lemma fp_zval (x : Fp) : fp (zval x) = x.
Proof. apply zof_zval. Qed.
Lemma curve_Z (x y : Fp) : on_secp (Some (x, y)) <-> (zval y * zval y) mod p = (zval x * zval x * zval x + 7) mod p.
Proof.
  unfold on_secp. rewrite (onE secp).
  assert (L : zval (fmul y y) = (zval y * zval y) mod p) by reflexivity.
  assert (R : zval (fadd (fmul (fmul x x) x) (cb secp)) = (zval x * zval x * zval x + 7) mod p).
  { change (zval (fadd (fmul (fmul x x) x) (cb secp))) with (((zval x * zval x) mod p * zval x mod p + 7) mod p).
    rewrite Zmult_mod_idemp_l, Zplus_mod_idemp_l. reflexivity. }
  rewrite <- L, <- R. split; intro H; [rewrite H; reflexivity|apply zq_eq, H].
Qed.

Lemma pointFromX_ok x b R : pointFromX x b = Ok R <->
  0 <= x /\ on_secp (Some R) /\ zval (fst R) = x mod p /\ Z.odd (zval (snd R)) = b.
Proof.
  unfold pointFromX. destruct (Z.ltb_spec x 0) as [L|L].
  { split; [discriminate|]. intros (A & _). lia. }
  set (u := x mod p). assert (Hu : zval (fp u) = u) by (apply Z.mod_mod; discriminate).
  set (y2 := (u * u * u + 7) mod p). set (y := powm p y2 ((p + 1) / 4)).
  assert (Ry : 0 <= y < p) by (unfold y; rewrite powm_ok by reflexivity || discriminate; apply Z.mod_pos_bound; reflexivity).
  assert (Hy : zval (fp y) = y) by (apply Z.mod_small; exact Ry).
  destruct (Z.eqb_spec ((y * y) mod p) y2) as [E|E].
  - assert (Oy : on_secp (Some (fp u, fp y))) by (apply curve_Z; rewrite Hu, Hy; exact E).
    assert (On : on_secp (Some (fp u, fopp (fp y)))) by exact (on_opp secp _ Oy).
    assert (Nz := on_nz secp _ _ Oy).
    assert (Pn : Z.odd (zval (fopp (fp y))) = negb (Z.odd y)).
    { rewrite (zval_opp _ Nz), Hy, Z.odd_sub. change (Z.odd p) with true. destruct (Z.odd y); reflexivity. }
    split.
    + intro H. assert (HR : R = (fp u, fp (if Bool.eqb b (Z.odd y) then y else - y))) by congruence. subst R. cbn [fst snd].
      split; [lia|]. destruct (Bool.eqb b (Z.odd y)) eqn:B.
      * apply eqb_prop in B. rewrite Hy. auto.
      * rewrite fp_opp. split; [exact On|]. split; [exact Hu|]. rewrite Pn. destruct b, (Z.odd y); try reflexivity; discriminate.
    + intros (_ & HR & HX & HP). destruct R as [a c]. cbn [fst snd] in *.
      assert (Ea : fp u = a) by (apply zq_eq; rewrite Hu; symmetry; exact HX). rewrite <- Ea in *.
      assert (G : Some (fp u, fp (if Bool.eqb b (Z.odd y) then y else - y)) = Some (fp u, c)); [|apply (f_equal (fun o => match o with Some q => Ok q | None => Panic end)) in G; exact G].
      destruct (Bool.eqb b (Z.odd y)) eqn:B.
      * apply code_inj; [exact Oy|exact HR|]. cbn [code]. rewrite Hy, HP. apply eqb_prop in B. congruence.
      * rewrite fp_opp. apply code_inj; [exact On|exact HR|]. cbn [code]. rewrite Pn, HP. destruct b, (Z.odd y); try reflexivity; discriminate.
  - split; [discriminate|]. intros (_ & HR & HX & _). exfalso. apply E. destruct R as [a c]. cbn [fst snd] in *.
    apply curve_Z in HR. rewrite HX in HR. fold u in HR. fold y2 in HR.
    pose proof (sqrt_ok (zval c) (proj1 (zval_range p c))) as S. cbv zeta in S. rewrite HR in S. exact S.
Qed.
Lemma pointFromX_total x b : pointFromX x b = Panic \/ exists R, pointFromX x b = Ok R.
Proof. unfold pointFromX. destruct (x <? 0); [auto|]. cbv zeta. destruct (_ =? _); eauto. Qed.

(** * Inverses *)
Lemma invm_ok r : ~ (n | r) -> (r * invm_n r) mod n = 1 /\ 0 <= invm_n r < n.
Proof.
  intro D. split; [|apply zval_range]. unfold invm_n.
  assert (N : fn r <> (f0 : Fn)).
  { intro E. apply D. apply (f_equal zval) in E. change (r mod n = 0 mod n) in E. apply Z.mod_divide; [discriminate|exact E]. }
  pose proof (finv_r Fn (fn r) N) as I. apply (f_equal zval) in I.
  change ((r mod n * zval (finv (fn r))) mod n = 1 mod n) in I. rewrite Zmult_mod_idemp_l in I. exact I.
Qed.
Lemma invm_0 r : (n | r) -> invm_n r = 0.
Proof.
  intro D. unfold invm_n. assert (E : fn r = fn 0) by (apply zq_eq; apply Z.mod_divide in D; [exact D|discriminate]).
  rewrite E. reflexivity.
Qed.
Lemma inv_mod r a b : (r * a) mod n = 1 -> (r * b) mod n = 1 -> (n | a - b).
Proof.
  intros Ha Hb. apply Z.mod_divide; [discriminate|].
  assert (X : a mod n = b mod n).
  { rewrite <- (Z.mul_1_r a), <- Hb, Zmult_mod_idemp_r. replace (a * (r * b)) with (r * a * b) by ring.
    rewrite <- Zmult_mod_idemp_l, Ha, Z.mul_1_l. reflexivity. }
  rewrite Zminus_mod, X, Z.sub_diag. reflexivity.
Qed.
Lemma inv_coprime r a : (r * a) mod n = 1 -> ~ (n | r) /\ ~ (n | a).
Proof.
  intro H. split; intros [d E]; subst; [replace (d * n * a) with (d * a * n) in H by ring|rewrite Z.mul_assoc in H];
    rewrite Z.mod_mul in H by discriminate; discriminate.
Qed.
Lemma odd_rem v : negb (Z.rem (v - 27) 2 =? 0) = Z.odd (v - 27).
Proof.
  rewrite <- Z.bit0_odd. set (a := v - 27). pose proof (Z.quot_rem a 2 ltac:(discriminate)) as Q.
  pose proof (Z.rem_bound_abs a 2 ltac:(discriminate)) as B.
  rewrite Z.bit0_odd. rewrite Q at 2. rewrite Z.odd_add, Z.odd_mul. cbn [Z.odd andb].
  assert (C : Z.rem a 2 = 0 \/ Z.rem a 2 = 1 \/ Z.rem a 2 = -1) by lia.
  destruct C as [-> |[-> | ->]]; reflexivity.
Qed.
Lemma mul_zero k P : on_secp P -> P <> None -> (emul k P = None <-> (n | k)).
Proof. intros H N. exact (order_iff P H (all_order P H) N k). Qed.

(** * computeEffEcdsaPubInput *)
Theorem computeEff_ok r v m Tx Ty Ux Uy : computeEff r v m = Ok (Tx, Ty, Ux, Uy) <-> 0 <= r /\ eff_inputs r v (be_value m) Tx Ty Ux Uy.
Proof.
  unfold computeEff. rewrite odd_rem, bn_bytes_ok. set (M := be_value m).
  assert (EU : emul ((- (invm_n r * M)) mod n) base = eff_U (invm_n r) M).
  { unfold eff_U. rewrite (emul_mod base base_on base_order base_some). f_equal. ring. }
  rewrite EU. split.
  - destruct (pointFromX r (Z.odd (v - 27))) as [R|e|] eqn:ER; cbn [bind]; [|discriminate..].
    apply pointFromX_ok in ER. destruct ER as (Hr & HR & HX & HO).
    destruct (emul (invm_n r) (Some R)) as [[tx ty]|] eqn:ET; cbn [coords bind fst snd]; [|discriminate].
    destruct (eff_U (invm_n r) M) as [[ux uy]|] eqn:EU'; cbn [coords bind fst snd]; [|discriminate].
    intro E. split; [exact Hr|].
    assert (D : ~ (n | r)) by (intro D; rewrite (invm_0 r D) in ET; discriminate).
    exists R, (invm_n r), (tx, ty), (ux, uy). cbn [fst snd].
    split; [split; [exact HR|split; assumption]|]. split; [exact (proj1 (invm_ok r D))|].
    split; [exact ET|]. split; [exact EU'|]. repeat split; congruence.
  - intros (Hr & R & ri & T & U & (HR & HX & HO) & Hi & HT & HU & -> & -> & -> & ->).
    rewrite (proj2 (pointFromX_ok r (Z.odd (v - 27)) R)) by auto. cbn [bind].
    destruct (inv_coprime r ri Hi) as [D _]. pose proof (inv_mod r (invm_n r) ri (proj1 (invm_ok r D)) Hi) as I.
    replace (emul (invm_n r) (Some R)) with (Some T) by (rewrite <- HT; symmetry; exact (emul_congr _ _ _ (all_secp _ HR) I)).
    replace (eff_U (invm_n r) M) with (Some U).
    + destruct T, U. reflexivity.
    + rewrite <- HU. symmetry. apply (emul_congr _ _ _ secp_base). destruct I as [d I]. exists (- (M * d)).
      replace (- (M * invm_n r) - - (M * ri)) with (- (M * (invm_n r - ri))) by ring. rewrite I. ring.
Qed.
Theorem computeEff_throws r v m : computeEff r v m = Panic <->
  r < 0 \/ (forall R, ~ nonce_point r v R) \/ (n | r) \/ (n | be_value m).
Proof.
  split.
  - intro H. destruct (Z.ltb_spec r 0) as [L|L]; [auto|]. right.
    destruct (Zdivide_dec n r) as [D|D]; [auto|]. destruct (Zdivide_dec n (be_value m)) as [Dm|Dm]; [auto|].
    left. intros R HR. assert (HR' := HR). destruct HR as (HR & HX & HO). destruct (invm_ok r D) as [Hi _].
    destruct (inv_coprime _ _ Hi) as [_ Di].
    destruct (eff_T (invm_n r) (Some R)) as [T|] eqn:ET; [|apply Di, (mul_zero _ (Some R) HR ltac:(discriminate)), ET].
    destruct (eff_U (invm_n r) (be_value m)) as [U|] eqn:EU.
    + pose proof (proj2 (computeEff_ok r v m (zval (fst T)) (zval (snd T)) (zval (fst U)) (zval (snd U)))) as X.
      rewrite X in H; [discriminate|]. split; [exact L|]. exists R, (invm_n r), T, U. tauto.
    + apply (mul_zero _ base base_on base_some) in EU. apply Z.divide_opp_r in EU. rewrite Z.opp_involutive in EU.
      destruct (prime_mult n prime_n _ _ EU) as [A|A]; contradiction.
  - intro H. destruct (computeEff r v m) as [[[[Tx Ty] Ux] Uy]|e|] eqn:E; [exfalso|exfalso|reflexivity].
    + apply computeEff_ok in E. destruct E as (L & R & ri & T & U & HR & Hi & HT & HU & _).
      destruct (inv_coprime _ _ Hi) as [D _]. destruct H as [H|[H|[H|H]]]; [lia|exact (H R HR)|exact (D H)|].
      unfold eff_U in HU. assert (X : emul (- (be_value m * ri)) base = None); [|congruence].
      apply (mul_zero _ base base_on base_some). apply Z.divide_opp_r, Z.divide_mul_l, H.
    + unfold computeEff in E. destruct (pointFromX_total r (negb (Z.rem (v - 27) 2 =? 0))) as [P|[R P]]; rewrite P in E; cbn [bind] in E; [discriminate|].
      destruct (emul (invm_n r) (Some R)) as [[? ?]|]; [|discriminate]. cbn [coords bind] in E.
      destruct (emul _ base) as [[? ?]|]; discriminate.
Qed.

(** * verifyEffEcdsaPubInput *)
Theorem verifyEff_true x : verifyEff x = Ok true <-> 0 <= pi_r x /\ eff_of x.
Proof.
  unfold verifyEff, eff_of. rewrite <- computeEff_ok.
  destruct (computeEff _ _ _) as [[[[Tx Ty] Ux] Uy]|e|]; cbn [bind]; [|split; discriminate..].
  split; intro H.
  - assert (X : (Tx =? cp_Tx (pi_circuit x)) && (Ty =? cp_Ty (pi_circuit x)) && (Ux =? cp_Ux (pi_circuit x)) && (Uy =? cp_Uy (pi_circuit x)) = true) by congruence.
    rewrite !andb_true_iff, !Z.eqb_eq in X. destruct X as [[[-> ->] ->] ->]. reflexivity.
  - assert (Tx = cp_Tx (pi_circuit x) /\ Ty = cp_Ty (pi_circuit x) /\ Ux = cp_Ux (pi_circuit x) /\ Uy = cp_Uy (pi_circuit x)) as (-> & -> & -> & ->)
      by (repeat split; congruence). rewrite !Z.eqb_refl. reflexivity.
Qed.
Theorem verifyEff_throws x : verifyEff x = Panic <->
  pi_r x < 0 \/ (forall R, ~ nonce_point (pi_r x) (pi_rV x) R) \/ (n | pi_r x) \/ (n | be_value (pi_msgHash x)).
Proof.
  rewrite <- (computeEff_throws (pi_r x) (pi_rV x)). unfold verifyEff.
  destruct (computeEff _ _ _) as [[[[Tx Ty] Ux] Uy]|e|]; cbn [bind]; split; congruence || discriminate.
Qed.
Theorem verifyEff_total x : verifyEff x = Panic \/ exists b, verifyEff x = Ok b.
Proof.
  unfold verifyEff. destruct (computeEff _ _ _) as [[[[Tx Ty] Ux] Uy]|e|] eqn:E; cbn [bind]; [eauto| |auto].
  exfalso. unfold computeEff in E. destruct (pointFromX_total (pi_r x) (negb (Z.rem (pi_rV x - 27) 2 =? 0))) as [P|[R P]]; rewrite P in E; cbn [bind] in E; [discriminate|].
  destruct (emul (invm_n _) (Some R)) as [[? ?]|]; [|discriminate]. cbn [coords bind] in E.
  destruct (emul _ base) as [[? ?]|]; discriminate.
Qed.
Theorem verifyEff_parity r v v' m c : Z.odd v = Z.odd v' -> verifyEff (MkPI r v m c) = verifyEff (MkPI r v' m c).
Proof.
  intro H. unfold verifyEff, computeEff. cbn [pi_r pi_rV pi_msgHash pi_circuit]. rewrite !odd_rem, !Z.odd_sub, H. reflexivity.
Qed.

(** with the circuit's s, an ECDSA signature *)
Theorem verifyEff_ecdsa x s : verifyEff x = Ok true -> 0 < pi_r x < n -> 0 < s < n ->
  let c := pi_circuit x in
  let T := Some (fp (cp_Tx c), fp (cp_Ty c)) in let U := Some (fp (cp_Ux c), fp (cp_Uy c)) in
  ecdsa_ok (eadd (emul s T) U) (be_value (pi_msgHash x)) (pi_r x) s.
Proof.
  intros H Hr Hs c T U. apply verifyEff_true in H. destruct H as (_ & R & ri & T' & U' & (HR & HX & _) & Hi & HT & HU & E1 & E2 & E3 & E4).
  assert (ET : T = Some T') by (unfold T, c; rewrite E1, E2, !fp_zval; destruct T'; reflexivity).
  assert (EU : U = Some U') by (unfold U, c; rewrite E3, E4, !fp_zval; destruct U'; reflexivity).
  assert (ST : secp_point (Some T')) by (rewrite <- HT; apply secp_mulk, all_secp, HR).
  assert (SU : secp_point (Some U')) by (rewrite <- HU; apply secp_mulk, secp_base).
  rewrite ET, EU. apply eff_equiv; try assumption; [apply secp_addp; [apply secp_mulk|]; assumption|].
  exists (fst R), (snd R), ri. destruct R as [x0 y0]. cbn [fst snd] in *. split; [apply all_secp, HR|]. split.
  - rewrite HX. rewrite (Z.mod_small (pi_r x) p) by (revert Hr; unfold n, p; lia). apply Z.mod_small. lia.
  - split; [exact Hi|]. rewrite HT, HU. reflexivity.
Qed.
