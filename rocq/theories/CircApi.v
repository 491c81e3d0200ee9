(** The circuit theorems in the form in which PropsCirc.v states them. *)
From Coq Require Import ZArith Znumtheory List Bool Arith Lia Field Ring.
From Verif Require Import Base Primes Field Zq CurveSpec CurveProofs Secp SecpOrder CircModel CircSpec CircProofs CircBits CircMul.
Import ListNotations.
Local Open Scope Z_scope.

Add Field Kca : (fth Fp).

(** ** additions *)
Lemma add_incomplete_iff x1 y1 x2 y2 (o : Fp * Fp) : x1 <> x2 ->
  (exists l, add_incomplete l x1 y1 x2 y2 = Some o) <-> eadd (Some (x1, y1)) (Some (x2, y2)) = Some o.
Proof.
  intro N. split.
  - intros [l H]. exact (add_incomplete_sound l x1 y1 x2 y2 o N H).
  - intro H. exists (h_add_incomplete fdiv x1 y1 x2 y2). rewrite add_incomplete_complete; [exact H|apply fdiv_division|exact N].
Qed.
Lemma double_iff x y (o : Fp * Fp) : on_secp (Some (x, y)) ->
  (exists l, double l x y = Some o) <-> eadd (Some (x, y)) (Some (x, y)) = Some o.
Proof.
  intro H. pose proof (on_nz secp _ _ H) as Y. split.
  - intros [l E]. exact (double_sound secp l x y o Y E).
  - intro E. exists (h_double fdiv x y). rewrite (double_complete secp); [exact E|apply fdiv_division|exact Y].
Qed.
Lemma add_complete_iff P Q (o : Fp * Fp) : on_secp P -> on_secp Q -> P <> Q \/ P = None -> ~ degenerate P Q ->
  (exists w, add_complete w (fst (enc P)) (snd (enc P)) (fst (enc Q)) (snd (enc Q)) = Some o) <-> o = enc (eadd P Q).
Proof.
  intros HP HQ Hne Hd. assert (B : bad P Q = false) by (destruct (bad P Q) eqn:B; [apply bad_iff in B; contradiction|reflexivity]).
  split.
  - intros [w H]. destruct (add_complete_sound secp secp_no0 w P Q o HP HQ H) as [(E & x & y & l & E1 & _)|[_ ->]].
    + destruct Hne as [Hne|Hne]; [contradiction|congruence].
    + rewrite B. reflexivity.
  - intros ->. eexists. rewrite (add_complete_complete secp secp_no0 fdiv P Q (fdiv_division Fp) HP HQ), B. reflexivity.
Qed.
Lemma add_complete_honest dv P Q : division dv -> on_secp P -> on_secp Q -> ~ degenerate P Q ->
  add_complete (h_add_complete dv (fst (enc P)) (snd (enc P)) (fst (enc Q)) (snd (enc Q)))
    (fst (enc P)) (snd (enc P)) (fst (enc Q)) (snd (enc Q)) = Some (enc (eadd P Q)).
Proof.
  intros Hdv HP HQ Hd. rewrite (add_complete_complete secp secp_no0 dv P Q Hdv HP HQ).
  destruct (bad P Q) eqn:B; [apply bad_iff in B; contradiction|reflexivity].
Qed.
Lemma enc_nz P : on_secp P -> enc P = (f0, f0) -> P = None.
Proof.
  destruct P as [[x y]|]; [|reflexivity]. cbn [enc]. intros H E. exfalso. injection E as -> ->. apply (on_x0 secp secp_no0 _ _ H). reflexivity.
Qed.
Lemma add_complete_degenerate w P Q (o : Fp * Fp) : on_secp P -> on_secp Q -> degenerate P Q ->
  add_complete w (fst (enc P)) (snd (enc P)) (fst (enc Q)) (snd (enc Q)) = Some o -> o = (f0, f0) /\ o <> enc (eadd P Q).
Proof.
  intros HP HQ Hd H. destruct (add_complete_sound secp secp_no0 w P Q o HP HQ H) as [(-> & _)|[_ ->]].
  - exfalso. destruct Hd as [Hd _]. apply Hd. reflexivity.
  - rewrite (proj2 (bad_iff P Q) Hd). split; [reflexivity|]. intro E. symmetry in E.
    apply (enc_nz _ (on_add secp _ _ HP HQ)) in E. destruct Hd as [Hd _]. apply Hd.
    destruct P as [[x1 y1]|], Q as [[x2 y2]|]; cbn [enc fst] in *; try discriminate; [|reflexivity].
    exfalso. rewrite add_ch in E by exact Hd. discriminate.
Qed.
Lemma add_complete_slope x y (l : Fp) : on_secp (Some (x, y)) ->
  exists w, add_complete w x y x y =
    Some (fsub (fmul l l) (fmul (fp 2) x), fsub (fmul l (fsub x (fsub (fmul l l) (fmul (fp 2) x)))) y).
Proof.
  intro H. destruct (add_complete_free secp secp_no0 fdiv x y l (fdiv_division Fp) H) as [w E]. exists w. exact E.
Qed.
Lemma nine_nz : (fp 9 : Fp) <> f0. Proof. intro H. apply (f_equal zval) in H. vm_compute in H. discriminate. Qed.
Lemma flat_off x y : on_secp (Some (x, y)) -> ~ on_secp (Some (fopp (fmul (fp 2) x), fopp y)).
Proof.
  intros H K. pose proof (on_x0 secp secp_no0 _ _ H) as X. unfold on_secp in *. apply (onE secp) in H. apply (onE secp) in K.
  assert (Z0 : fmul (fp 9) (fmul x (fmul x x)) = f0).
  { transitivity (fsub (fadd (fmul (fmul x x) x) (cb secp)) (fadd (fmul (fmul (fopp (fmul (fp 2) x)) (fopp (fmul (fp 2) x))) (fopp (fmul (fp 2) x))) (cb secp))).
    - change (fp 9) with (fadd (fmul (fmul (fp 2) (fp 2)) (fp 2)) f1). ring.
    - rewrite <- H, <- K. ring. }
  apply fmul_eq_0 in Z0. destruct Z0 as [Z0|Z0]; [exact (nine_nz Z0)|].
  repeat (apply fmul_eq_0 in Z0; destruct Z0 as [Z0|Z0]; [contradiction|]). contradiction.
Qed.
Lemma add_complete_off_curve x y : on_secp (Some (x, y)) ->
  exists w o, add_complete w x y x y = Some o /\ ~ on_secp (Some o).
Proof.
  intro H. destruct (add_complete_slope x y f0 H) as [w E]. exists w. eexists. split; [exact E|].
  replace (fsub (fmul f0 f0) (fmul (fp 2) x)) with (fopp (fmul (fp 2) x) : Fp) by ring.
  replace (fsub (fmul f0 (fsub x (fopp (fmul (fp 2) x)))) y) with (fopp y : Fp) by ring. apply flat_off. exact H.
Qed.

(** ** K() *)
Lemma Tlo_eq : (2 * n - 2 ^ 256) mod 2 ^ 128 = Tlo. Proof. reflexivity. Qed.
Lemma carry_dec s : carry_lost s <-> ((2 ^ 128 - Tlo <=? s) && (s <? 2 ^ 128))%bool = true.
Proof. unfold carry_lost. rewrite Tlo_eq, andb_true_iff, Z.leb_le, Z.ltb_lt. reflexivity. Qed.
Lemma honest_k_ok s : ~ carry_lost s -> honest_k s = (s - 2 ^ 256) mod n.
Proof. rewrite carry_dec. unfold honest_k. destruct (_ && _)%bool; tauto. Qed.
Lemma honest_k_lost s : carry_lost s -> honest_k s = (s - 2 ^ 256) mod n - 2 ^ 128.
Proof. rewrite carry_dec. unfold honest_k. intros ->. reflexivity. Qed.
Lemma honest_k_range s : 0 <= s < p -> 0 <= honest_k s < 2 ^ 256.
Proof.
  intro H. pose proof (Z.mod_pos_bound (s - 2 ^ 256) n ltac:(reflexivity)) as B.
  unfold honest_k. destruct ((2 ^ 128 - Tlo <=? s) && (s <? 2 ^ 128))%bool eqn:E.
  - apply carry_dec in E. unfold carry_lost in E. rewrite Tlo_eq in E. rewrite (s_mod s H).
    destruct (Z.leb_spec n (s + (2 * n - 2 ^ 256))); unfold n, Tlo in *; lia.
  - unfold n in *. lia.
Qed.
Lemma k_honest_ok dv s : division dv -> ~ carry_lost (zval s) -> k_tmpl (h_k dv s) s = Some (zbits 256 ((zval s - 2 ^ 256) mod n)).
Proof. intros Hd H. rewrite (k_honest dv s Hd), honest_k_ok by exact H. reflexivity. Qed.
Lemma k_honest_lost dv s : division dv -> carry_lost (zval s) ->
  k_tmpl (h_k dv s) s = Some (zbits 256 ((zval s - 2 ^ 256) mod n - 2 ^ 128)).
Proof. intros Hd H. rewrite (k_honest dv s Hd), honest_k_lost by exact H. reflexivity. Qed.
Lemma k_any s k : 0 <= k < 2 ^ 256 -> exists w, k_tmpl w s = Some (zbits 256 k).
Proof. exact (k_forge s k). Qed.

(** ** Secp256k1Mul *)
Lemma mul_sound_api w s x y o : secp_point (Some (x, y)) -> secp_mul w s x y = Some o ->
  exists k, 0 <= k < 2 ^ 256 /\ k_tmpl (ma_k w) s = Some (zbits 256 k) /\
    (k <> kfree -> tail_ok k (Some (x, y)) -> o = enc (emul (2 ^ 256 + k) (Some (x, y)))).
Proof.
  intros [HP Hn] H. assert (HK : exists kb, k_tmpl (ma_k w) s = Some kb).
  { unfold secp_mul in H. destruct (k_tmpl (ma_k w) s); [eauto|discriminate]. }
  destruct HK as [kb HK]. destruct (k_bits _ _ _ HK) as (k & Hk & ->). exists k. repeat split; try lia; [exact HK|].
  intros Hf Ht. exact (mul_sound x y HP Hn k Hk Ht w s o HK Hf H).
Qed.
Lemma h_mul_eq dv s x y : division dv -> h_mul dv s x y = h_mul_k x y (honest_k (zval s)) dv (h_k dv s).
Proof. intro Hd. unfold h_mul, h_mul_k. rewrite (k_honest dv s Hd). reflexivity. Qed.
Lemma emul_congr P a b : secp_point P -> (n | a - b) -> emul a P = emul b P.
Proof.
  intros [HP Hn] H. destruct P as [[x y]|]; [|rewrite !emul_0; reflexivity]. apply (order_eq _ HP Hn); [discriminate|exact H].
Qed.
Lemma mod_div a : (n | (a mod n) - a).
Proof. exists (- (a / n)). pose proof (Z.div_mod a n ltac:(discriminate)). lia. Qed.
Lemma mul_honest_api dv s x y : division dv -> secp_point (Some (x, y)) -> ~ carry_lost (zval s) ->
  tail_ok ((zval s - 2 ^ 256) mod n) (Some (x, y)) ->
  secp_mul (h_mul dv s x y) s x y = Some (enc (emul (zval s) (Some (x, y)))).
Proof.
  intros Hd SP Hc Ht. pose proof SP as [HP Hn]. rewrite h_mul_eq by exact Hd.
  rewrite (mul_honest x y HP Hn _ (honest_k_range _ (zval_rng s))); [|rewrite honest_k_ok by exact Hc; exact Ht|exact Hd|apply k_honest; exact Hd].
  do 2 f_equal. apply (emul_congr _ _ _ SP). unfold V. rewrite honest_k_ok by exact Hc.
  destruct (mod_div (zval s - 2 ^ 256)) as [d D]. exists d. lia.
Qed.
Lemma mul_lost_api dv s x y : division dv -> secp_point (Some (x, y)) -> carry_lost (zval s) ->
  tail_ok ((zval s - 2 ^ 256) mod n - 2 ^ 128) (Some (x, y)) ->
  secp_mul (h_mul dv s x y) s x y = Some (enc (emul (zval s - 2 ^ 128) (Some (x, y)))) /\
  emul (zval s - 2 ^ 128) (Some (x, y)) <> emul (zval s) (Some (x, y)).
Proof.
  intros Hd SP Hc Ht. pose proof SP as [HP Hn]. split.
  - rewrite h_mul_eq by exact Hd.
    rewrite (mul_honest x y HP Hn _ (honest_k_range _ (zval_rng s))); [|rewrite honest_k_lost by exact Hc; exact Ht|exact Hd|apply k_honest; exact Hd].
    do 2 f_equal. apply (emul_congr _ _ _ SP). unfold V. rewrite honest_k_lost by exact Hc.
    destruct (mod_div (zval s - 2 ^ 256)) as [d D]. exists d. lia.
  - intro E. apply (order_eq _ HP Hn) in E; [|discriminate]. revert E. apply ndiv. unfold n. lia.
Qed.
Lemma mul_any_api s k x y : secp_point (Some (x, y)) -> 0 <= k < 2 ^ 256 -> tail_ok k (Some (x, y)) ->
  exists w, secp_mul w s x y = Some (enc (emul (2 ^ 256 + k) (Some (x, y)))).
Proof.
  intros [HP Hn] Hk Ht. destruct (k_forge s k Hk) as [wk HK]. eexists.
  exact (mul_honest x y HP Hn k Hk Ht fdiv wk s (fdiv_division Fp) HK).
Qed.
Lemma kfree_range : 0 <= kfree < 2 ^ 256. Proof. unfold kfree, n. lia. Qed.
Lemma mul_free_api s l x y : secp_point (Some (x, y)) -> tail_ok kfree (Some (x, y)) ->
  exists w, secp_mul w s x y =
    Some (fsub (fmul l l) (fmul (fp 2) x), fadd (fmul l (fsub x (fsub (fmul l l) (fmul (fp 2) x)))) y).
Proof.
  intros [HP Hn] Ht. destruct (k_forge s kfree kfree_range) as [wk HK].
  destruct (mul_free x y HP Hn kfree kfree_range Ht fdiv wk s l (fdiv_division Fp) eq_refl HK) as [w E]. exists w. rewrite E.
  unfold free_double. cbv zeta. change (cst2 : Fp) with (fp 2). do 2 f_equal. ring.
Qed.
Lemma mul_off_curve s x y : secp_point (Some (x, y)) -> tail_ok kfree (Some (x, y)) ->
  exists w o, secp_mul w s x y = Some o /\ ~ on_secp (Some o).
Proof.
  intros SP Ht. destruct (mul_free_api s f0 x y SP Ht) as [w E]. exists w. eexists. split; [exact E|].
  replace (fsub (fmul f0 f0) (fmul (fp 2) x)) with (fopp (fmul (fp 2) x) : Fp) by ring.
  replace (fadd (fmul f0 (fsub x (fopp (fmul (fp 2) x)))) y) with (fopp (fopp y) : Fp) by ring. apply flat_off.
  exact (on_opp secp _ (proj1 SP)).
Qed.

(** ** EfficientECDSA *)
Lemma secp_mulk a P : secp_point P -> secp_point (emul a P).
Proof.
  intros [HP Hn]. split; [apply (on_emul secp); exact HP|]. rewrite <- (emul_mul secp) by exact HP.
  rewrite Z.mul_comm, (emul_mul secp), Hn, emul_0 by exact HP. reflexivity.
Qed.
Lemma secp_addp P Q : secp_point P -> secp_point Q -> secp_point (eadd P Q).
Proof.
  intros [HP Hp] [HQ Hq]. split; [apply (on_add secp); assumption|]. rewrite (emul_dist secp), Hp, Hq by assumption. reflexivity.
Qed.
Lemma secp_base : secp_point base. Proof. split; [exact base_on|exact base_order]. Qed.

Lemma eff_sound_api w s Tx Ty U o : secp_point (Some (Tx, Ty)) -> on_secp U ->
  eff_ecdsa w s Tx Ty (fst (enc U)) (snd (enc U)) = Some o ->
  exists k, 0 <= k < 2 ^ 256 /\
    (let M := emul (2 ^ 256 + k) (Some (Tx, Ty)) in
     k <> kfree -> tail_ok k (Some (Tx, Ty)) -> M <> U \/ M = None -> ~ degenerate M U -> o = enc (eadd M U)).
Proof.
  intros ST HU H. unfold eff_ecdsa in H. destruct (secp_mul (fst w) s Tx Ty) as [[mx my]|] eqn:E; [|discriminate].
  destruct (mul_sound_api _ _ _ _ _ ST E) as (k & Hk & HK & HM). exists k. split; [exact Hk|]. intros M Hf Ht Hne Hd.
  specialize (HM Hf Ht). fold M in HM.
  assert (H' : add_complete (snd w) (fst (mx, my)) (snd (mx, my)) (fst (enc U)) (snd (enc U)) = Some o) by exact H. rewrite HM in H'.
  apply (add_complete_iff M U o); try assumption; [|eexists; exact H'].
  exact (proj1 (secp_mulk (2 ^ 256 + k) _ ST)).
Qed.
Lemma eff_honest_api dv s Tx Ty U : division dv -> secp_point (Some (Tx, Ty)) -> on_secp U -> ~ carry_lost (zval s) ->
  tail_ok ((zval s - 2 ^ 256) mod n) (Some (Tx, Ty)) -> ~ degenerate (emul (zval s) (Some (Tx, Ty))) U ->
  eff_ecdsa (h_eff dv s Tx Ty (fst (enc U)) (snd (enc U))) s Tx Ty (fst (enc U)) (snd (enc U)) =
    Some (enc (eadd (emul (zval s) (Some (Tx, Ty))) U)).
Proof.
  intros Hd ST HU Hc Ht Hg. pose proof (mul_honest_api dv s Tx Ty Hd ST Hc Ht) as E. unfold eff_ecdsa, h_eff. rewrite E. cbn [get].
  destruct (enc (emul (zval s) (Some (Tx, Ty)))) as [mx my] eqn:Em. cbn [fst snd]. rewrite E.
  pose proof (add_complete_honest dv _ U Hd (proj1 (secp_mulk (zval s) _ ST)) HU Hg) as A. rewrite Em in A. exact A.
Qed.

Lemma inv_ex r : 0 < r < n -> exists ri, (r * ri) mod n = 1.
Proof.
  intro H. assert (R : rel_prime r n) by (apply rel_prime_le_prime; [exact prime_n|lia]).
  apply rel_prime_bezout in R. destruct R as [u v E]. exists u. symmetry. apply Z.mod_unique with (- v); [left; unfold n; lia|lia].
Qed.
Lemma mod1 a b : (a * b) mod n = 1 -> exists d, a * b = 1 + d * n.
Proof. intro H. exists (a * b / n). pose proof (Z.div_mod (a * b) n ltac:(discriminate)). lia. Qed.

Lemma eff_forward Q m r s si R ri : secp_point Q -> (s * si) mod n = 1 -> (r * ri) mod n = 1 ->
  eadd (emul (m * si) base) (emul (r * si) Q) = R -> Q = eadd (emul s (eff_T ri R)) (eff_U ri m).
Proof.
  intros SQ Hs Hr <-. pose proof SQ as [HQ _]. pose proof base_on as HB. unfold eff_T, eff_U.
  apply mod1 in Hs, Hr. destruct Hs as [a Ha], Hr as [b Hb].
  assert (O1 := on_emul secp (m * si) _ HB). assert (O2 := on_emul secp (r * si) _ HQ).
  rewrite <- (emul_mul secp) by (apply (on_add secp); assumption). rewrite (emul_dist secp) by assumption.
  rewrite <- !(emul_mul secp) by assumption.
  replace (emul (s * ri * (r * si)) Q) with Q.
  2:{ rewrite <- (emul_1 Q) at 1. apply (emul_congr Q _ _ SQ). exists (- (a + b + a * b * n)).
      replace (s * ri * (r * si)) with (s * si * (r * ri)) by ring. rewrite Ha, Hb. ring. }
  replace (emul (s * ri * (m * si)) base) with (emul (m * ri) base).
  2:{ apply (emul_congr _ _ _ secp_base). exists (- (m * ri * a)). replace (s * ri * (m * si)) with (s * si * (m * ri)) by ring. rewrite Ha. ring. }
  rewrite (emul_opp secp) by exact HB. assert (O3 := on_emul secp (m * ri) _ HB).
  rewrite (add_comm secp _ Q O3 HQ), (add_sub secp Q _ HQ O3). reflexivity.
Qed.
Lemma eff_backward m r s si R ri : secp_point R -> (s * si) mod n = 1 -> (r * ri) mod n = 1 ->
  eadd (emul (m * si) base) (emul (r * si) (eadd (emul s (eff_T ri R)) (eff_U ri m))) = R.
Proof.
  intros SR Hs Hr. pose proof SR as [HR _]. pose proof base_on as HB. unfold eff_T, eff_U.
  apply mod1 in Hs, Hr. destruct Hs as [a Ha], Hr as [b Hb].
  rewrite <- (emul_mul secp) by assumption.
  assert (O1 := on_emul secp (s * ri) _ HR). assert (O2 := on_emul secp (- (m * ri)) _ HB).
  rewrite (emul_dist secp) by assumption. rewrite <- !(emul_mul secp) by assumption.
  replace (emul (r * si * (s * ri)) R) with R.
  2:{ rewrite <- (emul_1 R) at 1. apply (emul_congr R _ _ SR). exists (- (a + b + a * b * n)).
      replace (r * si * (s * ri)) with (s * si * (r * ri)) by ring. rewrite Ha, Hb. ring. }
  replace (emul (r * si * - (m * ri)) base) with (eopp (emul (m * si) base)).
  2:{ rewrite <- (emul_opp secp) by exact HB. apply (emul_congr _ _ _ secp_base). exists (m * si * b).
      replace (r * si * - (m * ri)) with (- (m * si * (r * ri))) by ring. rewrite Hb. ring. }
  assert (O3 := on_emul secp (m * si) _ HB). assert (O4 := on_opp secp _ O3).
  rewrite (add_comm secp R _ HR O4), <- (add_assoc secp) by assumption. rewrite add_opp, add_0_l. reflexivity.
Qed.

Theorem eff_equiv Q m r s : secp_point Q -> 0 < r < n -> 0 < s < n ->
  ecdsa_ok Q m r s <->
  exists x y ri, secp_point (Some (x, y)) /\ zval x mod n = r /\ (r * ri) mod n = 1 /\
    Q = eadd (emul s (eff_T ri (Some (x, y)))) (eff_U ri m).
Proof.
  intros SQ Hr Hs. split.
  - intros (_ & _ & si & x & y & Hsi & HR & Hx). destruct (inv_ex r Hr) as [ri Hri]. exists x, y, ri. repeat split; try assumption.
    + rewrite <- HR. apply secp_addp; apply secp_mulk; [apply secp_base|exact SQ].
    + rewrite <- HR. apply secp_addp; apply secp_mulk; [apply secp_base|exact SQ].
    + exact (eff_forward Q m r s si (Some (x, y)) ri SQ Hsi Hri HR).
  - intros (x & y & ri & SR & Hx & Hri & ->). destruct (inv_ex s Hs) as [si Hsi]. split; [exact Hr|]. split; [exact Hs|].
    exists si, x, y. repeat split; try assumption. exact (eff_backward m r s si (Some (x, y)) ri SR Hsi Hri).
Qed.

(** the circuit and ECDSA together *)
Theorem eff_circuit_complete dv Q m r s x y ri Tx Ty : division dv ->
  0 < r < n -> 0 < s < n -> secp_point (Some (x, y)) -> zval x mod n = r -> (r * ri) mod n = 1 ->
  eff_T ri (Some (x, y)) = Some (Tx, Ty) -> Q = eadd (emul s (Some (Tx, Ty))) (eff_U ri m) ->
  ~ carry_lost s -> tail_ok ((s - 2 ^ 256) mod n) (Some (Tx, Ty)) -> ~ degenerate (emul s (Some (Tx, Ty))) (eff_U ri m) ->
  let U := enc (eff_U ri m) in
  ecdsa_ok Q m r s /\
  eff_ecdsa (h_eff dv (fp s) Tx Ty (fst U) (snd U)) (fp s) Tx Ty (fst U) (snd U) = Some (enc Q).
Proof.
  intros Hd Hr Hs SR Hx Hri HT HQ Hc Ht Hg U.
  assert (ST : secp_point (Some (Tx, Ty))) by (rewrite <- HT; apply secp_mulk; exact SR).
  assert (SU : secp_point (eff_U ri m)) by (apply secp_mulk, secp_base).
  assert (Zs : zval (fp s) = s) by (apply zval_fp; rewrite p_val; unfold n in *; lia). split.
  - apply eff_equiv; try assumption; [rewrite HQ; apply secp_addp; [apply secp_mulk; exact ST|exact SU]|].
    exists x, y, ri. rewrite HT. tauto.
  - unfold U. rewrite HQ. pose proof (eff_honest_api dv (fp s) Tx Ty (eff_U ri m) Hd ST (proj1 SU)) as E. rewrite Zs in E. apply E; assumption.
Qed.
Theorem eff_circuit_sound w s m r x y ri Tx Ty o :
  0 < r < n -> secp_point (Some (x, y)) -> zval x mod n = r -> (r * ri) mod n = 1 -> eff_T ri (Some (x, y)) = Some (Tx, Ty) ->
  eff_ecdsa w s Tx Ty (fst (enc (eff_U ri m))) (snd (enc (eff_U ri m))) = Some o ->
  exists k, 0 <= k < 2 ^ 256 /\
    (let M := emul (2 ^ 256 + k) (Some (Tx, Ty)) in
     k <> kfree -> tail_ok k (Some (Tx, Ty)) -> M <> eff_U ri m \/ M = None -> ~ degenerate M (eff_U ri m) ->
     (2 ^ 256 + k) mod n <> 0 ->
     exists Q, o = enc Q /\ ecdsa_ok Q m r ((2 ^ 256 + k) mod n)).
Proof.
  intros Hr SR Hx Hri HT H. assert (ST : secp_point (Some (Tx, Ty))) by (rewrite <- HT; apply secp_mulk; exact SR).
  assert (SU : secp_point (eff_U ri m)) by (apply secp_mulk, secp_base).
  destruct (eff_sound_api _ _ _ _ _ _ ST (proj1 SU) H) as (k & Hk & E). exists k. split; [exact Hk|].
  intros M Hf Ht Hne Hd Hz. exists (eadd M (eff_U ri m)). split; [exact (E Hf Ht Hne Hd)|].
  assert (EM : M = emul ((2 ^ 256 + k) mod n) (Some (Tx, Ty))) by (apply (emul_congr _ _ _ ST); destruct (mod_div (2 ^ 256 + k)) as [d D]; exists (- d); lia).
  pose proof (Z.mod_pos_bound (2 ^ 256 + k) n ltac:(reflexivity)).
  apply eff_equiv; [apply secp_addp; [apply secp_mulk; exact ST|exact SU]|exact Hr|lia|].
  exists x, y, ri. rewrite HT, EM. tauto.
Qed.
