From Coq Require Import String List Arith Bool Lia Field.
From Verif Require Import Base ListAux Field Vec MathModel PolyModel PolySpec PolyProofs PolyImp R1csModel R1csSpec R1csProofs R1csMore CommitModel SigmaModel CommitSpec CommitProofs BulletProofs SigmaProofs LogProofs.
From Verif Require Import SumModel SumSpec SumProofs SumZk SumApi NizkModel NizkProofs NizkApi EvalSpec EvalProofs AgmSpec AgmRare AgmZk AgmLp AgmProofs AgmApi EqSpec EqProofs.
Import ListNotations.

Section EA.
  Context {K : Fld} {G : Mod K} {E : Enc G}.
  Add Field Kea : (fth K).
  Local Open Scope fld_scope.
  Local Notation cmp := (CommitModel.compress E).
  Variables (stream : nat -> G) (a b : nat).
  Let k := (b - b / 2)%nat.
  Let n := (2 ^ k)%nat.
  Variable I : instance K (list nat).
  Hypothesis Sz : sized (inst I) a b.
  Variable input : list K.
  Variable g : r1csgens G.
  Hypothesis Hg : r1csgens_new (2 ^ b) stream = Ok g.
  Variable H : log E -> K.

  Lemma lp_halvings (pf : lproof E) m (gd : dgens G) tr x CX CY tr' : lp_verify H pf m gd tr x CX CY = Ok tr' -> m = (2 ^ length (bp_L (lp_bullet pf)))%nat.
  Proof.
    unfold lp_verify, challenge. destruct (Nat.eqb (dgn gd) m); [|discriminate]. destruct (Nat.eqb (length x) m); [|discriminate]. intro X.
    destruct (gens_scale _ _); try discriminate X. cbn [bind] in X. destruct (unpack CX); try discriminate X. destruct (unpack CY); try discriminate X. cbn [bind] in X.
    unfold bullet_verify, verification_scalars in X. destruct (Nat.leb 32 _); [discriminate X|]. unfold pow2 in X.
    destruct (Nat.eqb_spec m (2 ^ length (bp_L (lp_bullet pf)))) as [Q|]; [exact Q|discriminate X].
  Qed.
  Lemma gpc_new : dgens_new n stream = Ok (rgpc g).
  Proof. exact (gpc_ok stream b g Hg). Qed.
  Lemma tau_prod (tau rx : list K) : length rx = length tau ->
    fprod (map2 (fun x t => x * t + (1 - x) * (1 - t)) rx tau) = mle (eq_evals tau) rx.
  Proof.
    intro L. rewrite eq_mle by congruence. revert tau L. induction rx as [|x rx IH]; intros [|t tau] L; try discriminate; [reflexivity|].
    cbn [map2]. rewrite !fprod_cons, IH by (cbn in L; lia). ring.
  Qed.
  Lemma round_point_length m : forall cs : list K, length (round_point m cs) = m.
  Proof. induction m as [|m IH]; intro cs; cbn [round_point length]; [reflexivity|]. now rewrite IH. Qed.
  Lemma veqb_refl (l : list K) : veqb l l = true.
  Proof. induction l as [|x l IH]; [reflexivity|]. cbn [veqb]. rewrite IH. destruct (feqb_spec K x x); [reflexivity|congruence]. Qed.
  Lemma says_nth tr cs t i : answers H tr cs -> asked t = (asked tr + i)%nat -> (i < length cs)%nat -> says H t (nth i cs 0).
  Proof. intros An A L l Al. apply An; lia. Qed.
  Lemma nth_skip0 i (cs : list K) j : nth i (skipn j cs) 0 = nth (j + i) cs 0.
  Proof. now rewrite skipn_nth. Qed.
  Lemma last_def {A} (l : list A) x y : l <> [] -> last l x = last l y.
  Proof. induction l as [|z l IH]; [contradiction|]. intros _. destruct l as [|w l]; [reflexivity|]. cbn [last] in *. apply IH. discriminate. Qed.

  Lemma last_cons2 {A} (l : list A) x y : l <> [] -> last (x :: l) y = last l y.
  Proof. now destruct l. Qed.
  Lemma last_dec (l : list E) x : l <> [] -> Forall decodes l -> decodes (last l x).
  Proof.
    intros N F. rewrite Forall_forall in F. apply F. destruct l as [|y l]; [contradiction|]. clear. revert y. induction l as [|z l IH]; intro y; [now left|]. right. apply IH.
  Qed.

  Lemma nizk_fwd (pf : nizk E) tr cs t' : length (bp_R (lp_bullet (rp_eval (nz_proof pf)))) = length (bp_L (lp_bullet (rp_eval (nz_proof pf)))) ->
    answers H tr cs -> length cs = nizk_coins a b k -> nizk_verify H pf I input tr g = Ok t' ->
    nizk_wf a b (inst I) input pf cs /\ zeros (nizk_eqs a b (inst I) input g pf cs).
  Proof.
    intros Bal An Lc X. destruct pf as [p rx' ry']. cbn [nz_proof] in *. unfold nizk_coins in Lc. unfold nizk_wf, nizk_eqs. cbn [nz_proof nz_rx nz_ry]. fold k.
    unfold nizk_verify in X. cbn [nz_proof nz_rx nz_ry] in X.
    destruct (r1cs_evaluate (inst I) rx' ry') as [evals| |] eqn:Eev; try discriminate X. cbn [bind] in X.
    destruct (Nat.eqb_spec (length input) (rc_inputs (inst I))) as [Li|]; [|discriminate X].
    set (tr0 := MRaw "R1CSInstanceDigest" (idigest I) :: proto "Spartan NIZK proof" tr) in X.
    destruct (r1cs_verify H p (rc_vars (inst I)) (rc_cons (inst I)) input evals tr0 g) as [[[rx ry] tr9]| |] eqn:EV; try discriminate X. cbn [bind] in X.
    destruct (veqb rx rx') eqn:Q1; [|discriminate X]. destruct (veqb ry ry') eqn:Q2; [|discriminate X]. apply veqb_eq in Q1. apply veqb_eq in Q2. subst rx' ry'. clear X. rename EV into X.
    unfold r1cs_verify in X.
    rewrite (sz_cons _ _ _ Sz), (sz_vars _ _ _ Sz), log_2_pow in X. cbn [bind] in X. replace (2 * 2 ^ b)%nat with (2 ^ S b)%nat in X by (rewrite pow2_S; lia). rewrite log_2_pow in X. cbn [bind] in X.
    set (tr1 := app_commitment "poly_commitment" _ _) in X.
    assert (A1 : asked tr1 = asked tr) by (unfold tr1, tr0; rewrite asked_points, asked_scalars; unfold proto; rewrite !asked_cons; cbn [is_chal]; lia).
    assert (An1 : answers H tr1 cs) by (now apply (answers_same H tr)).
    pose proof (chals_firstn H "challenge_tau" a tr1 cs An1 ltac:(lia)) as Etau. destruct (challenges H "challenge_tau" a tr1) as [tau tr2] eqn:Ech. cbn [fst] in Etau.
    pose proof (asked_chals H _ _ _ _ _ Ech) as A2. assert (Lt : length tau = a) by (rewrite Etau, firstn_length_le; lia).
    destruct (rgens_facts b stream g Hg) as (G0 & G1 & N1 & G3 & N3 & G4 & N4 & _).
    rewrite (commit1_ok _ _ _ G1 N1) in X. cbn [bind] in X.
    destruct (zk_verify H (rp_sc1 p) _ a 3 (rg1 g) (rg4 g) tr2) as [[[e1 rx1] tr3]| |] eqn:Ez1; try discriminate X. cbn [bind] in X.
    assert (Ll1 : length (zk_polys (rp_sc1 p)) = a /\ length (zk_evals (rp_sc1 p)) = a).
    { unfold zk_verify in Ez1. destruct (Nat.eqb (gn (rg4 g)) _); [|discriminate Ez1]. destruct (Nat.eqb_spec (length (zk_polys (rp_sc1 p))) a); [|discriminate Ez1].
      destruct (Nat.eqb_spec (length (zk_evals (rp_sc1 p))) a); [|discriminate Ez1]. split; assumption. }
    destruct Ll1 as [Lp1 Le1]. destruct (zk_verify_inv (2 ^ 0 + 5) 0 ltac:(cbn; lia) ltac:(cbn; lia) H _ _ _ _ _ _ _ _ _ _ Ez1) as (Ha & Er1 & Ee1). clear Ez1.
    assert (LK1 : (4 * length (zk_polys (rp_sc1 p)) <= length (skipn a cs))%nat) by (rewrite skipn_length, Lp1; lia).
    assert (LE1 : length (zk_evals (rp_sc1 p)) = length (zk_polys (rp_sc1 p))) by congruence.
    destruct (zk_fwd H 3 (rg1 g) (rg4 g) G1 N4 _ _ _ _ (skipn a cs) _ _ _ (answers_skip H tr1 tr2 cs a An1 A2) LK1 (dec_cmp _) LE1 Er1)
      as (Wp1 & DP1 & DE1 & DD1 & Erx & Z1 & A3). rewrite Lp1 in Wp1, DD1, Erx, A3. rewrite point_cmp, ped1_zero in Z1.
    assert (Lrx : length rx1 = a) by (rewrite Erx; apply round_point_length).
    set (cs1 := skipn (a + 4 * a) cs). assert (An3 : answers H tr3 cs1) by (apply (answers_skip H tr1); [exact An1|lia]).
    assert (Lc1 : length cs1 = (6 + (4 * S b + (1 + (k + 2))))%nat) by (unfold cs1; rewrite skipn_length; lia).
    destruct (rp_claims p) as [[[Az Bz] Cz] Pr].
    destruct (kp_verify H (rp_pok p) (rg1 g) tr3 Cz) as [tr4| |] eqn:Ek; try discriminate X. cbn [bind] in X.
    destruct (kp_fwd H _ _ _ _ _ _ (says_nth tr3 cs1 tr3 0 An3 ltac:(lia) ltac:(lia)) Ek G1) as (DCz & Dka & Zk & A4).
    destruct (pp_verify H (rp_prod p) (rg1 g) tr4 Az Bz Pr) as [tr5| |] eqn:Ep; try discriminate X. cbn [bind] in X.
    destruct (pp_fwd H _ _ _ _ _ _ _ _ (says_nth tr3 cs1 tr4 1 An3 ltac:(lia) ltac:(lia)) Ep G1) as ((DA & DB & DP & Dpa & Dpb & Dpd) & Zp & A5).
    rewrite Lrx, Lt, Nat.leb_refl in X. rewrite (unpack_dec _ DP), (unpack_dec _ DCz) in X. cbn [bind] in X.
    set (tr6 := app_point "comm_prod_Az_Bz_claims" Pr _) in X. assert (A6 : asked tr6 = asked tr5) by (unfold tr6, app_point; rewrite !asked_cons; cbn [is_chal]; lia).
    destruct (ep_verify H (rp_eq1 p) (rg1 g) tr6 _ e1) as [tr7| |] eqn:Ee; try discriminate X. cbn [bind] in X.
    destruct (ep_fwd H _ _ _ _ _ _ _ (says_nth tr3 cs1 tr6 2 An3 ltac:(lia) ltac:(lia)) Ee) as (_ & _ & Dea & Ze & A7). rewrite point_cmp, tau_prod, Etau in Ze by congruence.
    unfold challenge in X. set (t8 := MChal "challenege_Az" :: tr7) in X. set (t9 := MChal "challenege_Bz" :: t8) in X. set (t10 := MChal "challenege_Cz" :: t9) in X.
    assert (A8 : asked t8 = (asked tr3 + 4)%nat) by (unfold t8; rewrite asked_cons; cbn [is_chal]; lia).
    assert (A9 : asked t9 = (asked tr3 + 5)%nat) by (unfold t9; rewrite asked_cons; cbn [is_chal]; lia).
    assert (A10 : asked t10 = (asked tr3 + 6)%nat) by (unfold t10; rewrite asked_cons; cbn [is_chal]; lia).
    rewrite (An3 t8 3%nat), (An3 t9 4%nat), (An3 t10 5%nat) in X by lia.
    set (rA := nth 3 cs1 0) in *. set (rB := nth 4 cs1 0) in *. set (rC := nth 5 cs1 0) in *.
    rewrite (unpack_dec _ DA), (unpack_dec _ DB) in X. cbn [bind] in X. rewrite msm_ok in X by (cbn; lia). cbn [bind] in X.
    destruct (zk_verify H (rp_sc2 p) _ (S b) 2 (rg1 g) (rg3 g) t10) as [[[e2 ry2] tr11]| |] eqn:Ez2; try discriminate X. cbn [bind] in X.
    assert (Ll2 : length (zk_polys (rp_sc2 p)) = S b /\ length (zk_evals (rp_sc2 p)) = S b).
    { unfold zk_verify in Ez2. destruct (Nat.eqb (gn (rg3 g)) _); [|discriminate Ez2]. destruct (Nat.eqb_spec (length (zk_polys (rp_sc2 p))) (S b)); [|discriminate Ez2].
      destruct (Nat.eqb_spec (length (zk_evals (rp_sc2 p))) (S b)); [|discriminate Ez2]. split; assumption. }
    destruct Ll2 as [Lp2 Le2]. destruct (zk_verify_inv (2 ^ 0 + 5) 0 ltac:(cbn; lia) ltac:(cbn; lia) H _ _ _ _ _ _ _ _ _ _ Ez2) as (_ & Er2 & Ee2). clear Ez2.
    assert (LK2 : (4 * length (zk_polys (rp_sc2 p)) <= length (skipn 6 cs1))%nat) by (rewrite skipn_length, Lp2; lia).
    assert (LE2 : length (zk_evals (rp_sc2 p)) = length (zk_polys (rp_sc2 p))) by congruence.
    destruct (zk_fwd H 2 (rg1 g) (rg3 g) G1 N3 _ _ _ _ (skipn 6 cs1) _ _ _ (answers_skip H tr3 t10 cs1 6 An3 A10) LK2 (dec_cmp _) LE2 Er2)
      as (Wp2 & DP2 & DE2 & DD2 & Ery & Z2 & A11). rewrite Lp2 in Wp2, DD2, Ery, A11. rewrite point_cmp in Z2.
    assert (Lry : length ry2 = S b) by (rewrite Ery; apply round_point_length). rewrite Lry in X. change (Nat.leb 1 (S b)) with true in X. cbv iota in X.
    set (cs2 := skipn (6 + 4 * S b) cs1). assert (An11 : answers H tr11 cs2) by (apply (answers_skip H tr3); [exact An3|lia]).
    assert (Lc2 : length cs2 = (1 + (k + 2))%nat) by (unfold cs2; rewrite skipn_length; lia).
    assert (Lr : length (tl ry2) = b) by (destruct ry2; cbn in *; lia).
    destruct (pe_verify H _ (rgpc g) tr11 (tl ry2) (rp_comm_ry p) (rp_comm_vars p)) as [tr12| |] eqn:Epe; try discriminate X. cbn [bind] in X.
    unfold pe_verify in Epe. pose proof (factored_ok K (tl ry2)) as F. destruct (compute_factored_evals (tl ry2)) as [L R] eqn:EF. destruct F as (LL & LR' & _). rewrite Lr in LL, LR'.
    destruct (mapM unpack (rp_comm_vars p)) as [Cs| |] eqn:EC; try discriminate Epe. cbn [bind] in Epe. apply map_unpack_inv in EC. destruct EC as [DC ->].
    destruct (msm L _) as [CL| |] eqn:EM; try discriminate Epe. cbn [bind] in Epe. apply msm_inv in EM. destruct EM as [LM ->]. rewrite map_length, LL in LM.
    rewrite LR' in Epe. fold k in Epe, LR'. set (tr11' := proto "polynomial evaluation proof" tr11) in Epe. assert (A11' : asked tr11' = asked tr11) by (unfold tr11', proto; rewrite asked_cons; reflexivity).
    assert (LLk : length (bp_L (lp_bullet (rp_eval p))) = k).
    { apply (Nat.pow_inj_r 2); [lia|]. symmetry. exact (lp_halvings _ _ _ _ _ _ _ _ Epe). }
    assert (RRk : length (bp_R (lp_bullet (rp_eval p))) = k) by congruence.
    destruct (lp_iff H k stream (rgpc g) (rp_eval p) R (cmp (lincomb L (map point (rp_comm_vars p)))) (rp_comm_ry p) tr11' cs2 gpc_new LR' (answers_same H tr11 tr11' cs2 An11 A11') ltac:(lia) (dec_cmp _) LLk RRk) as [LPI LPA].
    destruct (proj1 LPI (ex_intro _ _ Epe)) as (K32 & Nz & Wl & Dry & Zl). apply LPA in Epe. clear LPI LPA. rewrite point_cmp in Zl.
    rewrite log_2_pow in X. cbn [bind] in X.
    assert (Lin : (length input < 2 ^ b)%nat) by (rewrite Li; apply (sz_inputs _ _ _ Sz)).
    rewrite (input_eval_ok input (tl ry2) b (2 ^ b - length input - 1)) in X by (try exact (eq_sym Lr); exact Lin). cbn [bind] in X.
    destruct ry2 as [|ry0 ryt]; [discriminate Lry|]. rewrite idx_0 in X. cbn [bind tl] in X, EF, Lr.
    rewrite (unpack_dec _ Dry), <- G0, (commit1_ok _ _ _ G1 N1) in X. cbn [bind] in X. rewrite msm_ok in X by (cbn; lia). cbn [bind] in X.
    destruct evals as [[eA eB] eC]. destruct (ep_verify H (rp_eq2 p) (rg1 g) tr12 _ e2) as [tr13| |] eqn:Eq; try discriminate X. cbn [bind] in X. injection X as Ex Ey Et. subst rx ry.
    destruct (ep_fwd H _ _ _ _ _ _ _ (says_nth tr11 cs2 tr12 (2 + k) An11 ltac:(lia) ltac:(lia)) Eq) as (_ & _ & Deb & Zf & A13). rewrite point_cmp in Zf.
    rewrite (r1cs_evaluate_ok (inst I) a b rx1 (ry0 :: ryt) Sz Lrx Lry) in Eev. injection Eev as <- <- <-.
    subst e1 e2. cbn [tl]. rewrite EF.
    rewrite (last_def (zk_evals (rp_sc1 p)) _ Pr) in Ze by (intro Y; rewrite Y in Le1; cbn in Le1; lia).
    rewrite (last_def (zk_evals (rp_sc2 p)) _ Pr) in Zf by (intro Y; rewrite Y in Le2; cbn in Le2; lia).
    split.
    - unfold zk_wf. conj; try assumption.
    - rewrite !zeros_app. conj; try assumption.
      match type of Zf with zeros (ep_eqs _ _ _ ?P _) => match goal with |- zeros (ep_eqs _ _ _ ?P' _) => replace P' with P; [exact Zf|] end end.
      cbn [nth lincomb]. f_equal. module_red; ring.
  Qed.

  Lemma nizk_bwd (pf : nizk E) tr cs : length (bp_R (lp_bullet (rp_eval (nz_proof pf)))) = length (bp_L (lp_bullet (rp_eval (nz_proof pf)))) ->
    answers H tr cs -> length cs = nizk_coins a b k ->
    nizk_wf a b (inst I) input pf cs -> zeros (nizk_eqs a b (inst I) input g pf cs) -> exists t', nizk_verify H pf I input tr g = Ok t'.
  Proof.
    intros Bal An Lc W Z. destruct pf as [p rx ry]. cbn [nz_proof] in *. unfold nizk_coins in Lc. unfold nizk_wf in W. unfold nizk_eqs in Z. cbn [nz_proof nz_rx nz_ry] in W, Z. fold k in W, Z.
    destruct (rp_claims p) as [[[Az Bz] Cz] Pr] eqn:Ecl. set (cs1 := skipn (a + 4 * a) cs) in *. set (cs2 := skipn (6 + 4 * S b) cs1) in *.
    destruct W as (Li & Ha & K32 & Lcm & DC & (Lp1 & Le1 & Wp1 & DP1 & DE1 & DD1) & (Lp2 & Le2 & Wp2 & DP2 & DE2 & DD2) & Wl & (DA & DB & DCz & DP) & (Dka & Dpa & Dpb & Dpd & Dea & Deb & Dry) & Nz & Erx & Ery).
    assert (Lrx : length rx = a) by (rewrite Erx; apply round_point_length). assert (Lry : length ry = S b) by (rewrite Ery; apply round_point_length).
    assert (Lr : length (tl ry) = b) by (destruct ry; cbn in *; lia).
    pose proof (factored_ok K (tl ry)) as F. destruct (compute_factored_evals (tl ry)) as [L R] eqn:EF. destruct F as (LL & LR' & _). rewrite Lr in LL, LR'. fold k in LR'.
    rewrite !zeros_app in Z. destruct Z as (Z1 & Zk & Zp & Ze & Z2 & Zl & Zf).
    unfold nizk_verify. cbn [nz_proof nz_rx nz_ry]. rewrite (r1cs_evaluate_ok (inst I) a b rx ry Sz Lrx Lry). cbn [bind]. rewrite Li, Nat.eqb_refl.
    set (tr0 := MRaw "R1CSInstanceDigest" (idigest I) :: proto "Spartan NIZK proof" tr).
    match goal with |- context [r1cs_verify H p _ _ _ ?e tr0 g] => assert (V : exists t9, r1cs_verify H p (rc_vars (inst I)) (rc_cons (inst I)) input e tr0 g = Ok (rx, ry, t9)) end.
    2:{ destruct V as [t9 V]. rewrite V. cbn [bind]. rewrite !veqb_refl. eexists. reflexivity. }
    unfold r1cs_verify.
    rewrite (sz_cons _ _ _ Sz), (sz_vars _ _ _ Sz), log_2_pow. cbn [bind]. replace (2 * 2 ^ b)%nat with (2 ^ S b)%nat by (rewrite pow2_S; lia). rewrite log_2_pow. cbn [bind].
    set (tr1 := app_commitment "poly_commitment" _ _).
    assert (A1 : asked tr1 = asked tr) by (unfold tr1, tr0; rewrite asked_points, asked_scalars; unfold proto; rewrite !asked_cons; cbn [is_chal]; lia).
    assert (An1 : answers H tr1 cs) by (now apply (answers_same H tr)).
    pose proof (chals_firstn H "challenge_tau" a tr1 cs An1 ltac:(lia)) as Etau. destruct (challenges H "challenge_tau" a tr1) as [tau tr2] eqn:Ech. cbn [fst] in Etau.
    pose proof (asked_chals H _ _ _ _ _ Ech) as A2. assert (Lt : length tau = a) by (rewrite Etau, firstn_length_le; lia).
    destruct (rgens_facts b stream g Hg) as (G0 & G1 & N1 & G3 & N3 & G4 & N4 & _).
    rewrite (commit1_ok _ _ _ G1 N1). cbn [bind]. unfold zk_verify at 1. rewrite N4, Lp1, Le1, !Nat.eqb_refl. change (Nat.eqb 4 (3 + 1)) with true. cbv iota.
    assert (LK1 : (4 * length (zk_polys (rp_sc1 p)) <= length (skipn a cs))%nat) by (rewrite skipn_length, Lp1; lia).
    assert (LE1 : length (zk_evals (rp_sc1 p)) = length (zk_polys (rp_sc1 p))) by congruence.
    destruct (zk_bwd H 3 (rg1 g) (rg4 g) G1 N1 G4 N4 _ _ (zk_proofs (rp_sc1 p)) (cmp (ped1 (rg1 g) 0 0)) (skipn a cs) tr2 (answers_skip H tr1 tr2 cs a An1 A2) LK1 (dec_cmp _) LE1)
      as [tr3 E3]; try assumption; [lia|now rewrite Lp1|rewrite point_cmp, ped1_zero; exact Z1|].
    pose proof (zk_fwd H 3 (rg1 g) (rg4 g) G1 N4 _ _ _ _ (skipn a cs) _ _ _ (answers_skip H tr1 tr2 cs a An1 A2) LK1 (dec_cmp _) LE1 E3) as (_ & _ & _ & _ & _ & _ & A3).
    rewrite E3, Lp1, <- Erx. rewrite Lp1 in A3. cbn [bind]. rewrite (proj2 (Nat.leb_le 1 a) Ha).
    pose proof (nth_last (zk_evals (rp_sc1 p)) Pr Pr ltac:(lia)) as NL1. rewrite last_cons2 in NL1 by (intro Y; rewrite Y in Le1; cbn in Le1; lia). rewrite Le1 in NL1. rewrite NL1. clear NL1. cbn [bind]. rewrite Ecl.
    assert (An3 : answers H tr3 cs1) by (apply (answers_skip H tr1); [exact An1|lia]).
    assert (Lc1 : length cs1 = (6 + (4 * S b + (1 + (k + 2))))%nat) by (unfold cs1; rewrite skipn_length; lia).
    destruct (kp_bwd H (rp_pok p) (rg1 g) tr3 Cz _ (says_nth tr3 cs1 tr3 0 An3 ltac:(lia) ltac:(lia)) G1 N1 DCz Dka Zk) as [tr4 E4]. rewrite E4. cbn [bind].
    destruct (kp_fwd H _ _ _ _ _ _ (says_nth tr3 cs1 tr3 0 An3 ltac:(lia) ltac:(lia)) E4 G1) as (_ & _ & _ & A4).
    destruct (pp_bwd H (rp_prod p) (rg1 g) tr4 Az Bz Pr _ (says_nth tr3 cs1 tr4 1 An3 ltac:(lia) ltac:(lia)) G1 N1) as [tr5 E5]; try assumption. rewrite E5. cbn [bind].
    pose proof (pp_asked H _ _ _ _ _ _ _ E5) as A5.
    rewrite Lrx, Lt, Nat.leb_refl. rewrite (unpack_dec _ DP), (unpack_dec _ DCz). cbn [bind].
    set (tr6 := app_point "comm_prod_Az_Bz_claims" Pr _). assert (A6 : asked tr6 = asked tr5) by (unfold tr6, app_point; rewrite !asked_cons; cbn [is_chal]; lia).
    rewrite tau_prod, Etau by congruence. assert (NE1 : zk_evals (rp_sc1 p) <> []) by (intro Y; rewrite Y in Le1; cbn in Le1; lia). assert (NE2 : zk_evals (rp_sc2 p) <> []) by (intro Y; rewrite Y in Le2; cbn in Le2; lia).
    match goal with |- context [ep_verify H (rp_eq1 p) (rg1 g) tr6 (cmp ?P) ?e] => destruct (ep_bwd H (rp_eq1 p) (rg1 g) tr6 (cmp P) e _ (says_nth tr3 cs1 tr6 2 An3 ltac:(lia) ltac:(lia)) (dec_cmp _)) as [tr7 E7] end;
      [apply last_dec; assumption|exact Dea|rewrite point_cmp; exact Ze|].
    rewrite E7. cbn [bind]. pose proof (ep_asked H _ _ _ _ _ _ E7) as A7.
    unfold challenge. set (t8 := MChal "challenege_Az" :: tr7). set (t9 := MChal "challenege_Bz" :: t8). set (t10 := MChal "challenege_Cz" :: t9).
    assert (A8 : asked t8 = (asked tr3 + 4)%nat) by (unfold t8; rewrite asked_cons; cbn [is_chal]; lia).
    assert (A9 : asked t9 = (asked tr3 + 5)%nat) by (unfold t9; rewrite asked_cons; cbn [is_chal]; lia).
    assert (A10 : asked t10 = (asked tr3 + 6)%nat) by (unfold t10; rewrite asked_cons; cbn [is_chal]; lia).
    rewrite (An3 t8 3%nat), (An3 t9 4%nat), (An3 t10 5%nat) by lia.
    set (rA := nth 3 cs1 0) in *. set (rB := nth 4 cs1 0) in *. set (rC := nth 5 cs1 0) in *.
    rewrite (unpack_dec _ DA), (unpack_dec _ DB). cbn [bind]. rewrite msm_ok by (cbn; lia). cbn [bind].
    unfold zk_verify. rewrite N3, Lp2, Le2, !Nat.eqb_refl. change (Nat.eqb 3 (2 + 1)) with true. cbv iota.
    assert (LK2 : (4 * length (zk_polys (rp_sc2 p)) <= length (skipn 6 cs1))%nat) by (rewrite skipn_length, Lp2; lia).
    assert (LE2 : length (zk_evals (rp_sc2 p)) = length (zk_polys (rp_sc2 p))) by congruence.
    set (claim2 := lincomb [rA; rB; rC] [point Az; point Bz; point Cz]) in *.
    destruct (zk_bwd H 2 (rg1 g) (rg3 g) G1 N1 G3 N3 _ _ (zk_proofs (rp_sc2 p)) (cmp claim2) (skipn 6 cs1) t10 (answers_skip H tr3 t10 cs1 6 An3 A10) LK2 (dec_cmp _) LE2)
      as [tr11 E11]; try assumption; [lia|now rewrite Lp2|rewrite point_cmp; exact Z2|].
    pose proof (zk_fwd H 2 (rg1 g) (rg3 g) G1 N3 _ _ _ _ (skipn 6 cs1) _ _ _ (answers_skip H tr3 t10 cs1 6 An3 A10) LK2 (dec_cmp _) LE2 E11) as (_ & _ & _ & _ & _ & _ & A11).
    rewrite E11, Lp2, <- Ery. rewrite Lp2 in A11. cbn [bind]. change (Nat.leb 1 (S b)) with true. cbv iota.
    pose proof (nth_last (zk_evals (rp_sc2 p)) Pr Pr ltac:(lia)) as NL2. rewrite last_cons2 in NL2 by (intro Y; rewrite Y in Le2; cbn in Le2; lia). rewrite Le2 in NL2. rewrite NL2. clear NL2. cbn [bind]. rewrite Lry. change (Nat.leb 1 (S b)) with true. cbv iota.
    assert (An11 : answers H tr11 cs2) by (apply (answers_skip H tr3); [exact An3|lia]).
    assert (Lc2 : length cs2 = (1 + (k + 2))%nat) by (unfold cs2; rewrite skipn_length; lia).
    unfold pe_verify. rewrite EF, (map_unpack _ DC). cbn [bind]. rewrite msm_ok by (rewrite map_length; lia). cbn [bind]. rewrite LR'.
    set (tr11' := proto "polynomial evaluation proof" tr11). assert (A11' : asked tr11' = asked tr11) by (unfold tr11', proto; rewrite asked_cons; reflexivity).
    assert (LLk : length (bp_L (lp_bullet (rp_eval p))) = k) by apply Wl.
    assert (RRk : length (bp_R (lp_bullet (rp_eval p))) = k) by congruence.
    destruct (lp_iff H k stream (rgpc g) (rp_eval p) R (cmp (lincomb L (map point (rp_comm_vars p)))) (rp_comm_ry p) tr11' cs2 gpc_new LR' (answers_same H tr11 tr11' cs2 An11 A11') ltac:(lia) (dec_cmp _) LLk RRk) as [LPI LPA].
    destruct (proj2 LPI) as [tr12 E12]; [rewrite point_cmp; conj; assumption|]. pose proof (LPA _ E12) as A12. rewrite E12. cbn [bind]. clear LPI LPA.
    rewrite log_2_pow. cbn [bind].
    assert (Lin : (length input < 2 ^ b)%nat) by (rewrite Li; apply (sz_inputs _ _ _ Sz)).
    rewrite (input_eval_ok input (tl ry) b (2 ^ b - length input - 1)) by (try exact (eq_sym Lr); exact Lin). cbn [bind].
    destruct ry as [|ry0 ryt]; [discriminate Lry|]. rewrite idx_0. cbn [bind tl]. cbn [tl nth] in Zf.
    rewrite (unpack_dec _ Dry), <- G0, (commit1_ok _ _ _ G1 N1). cbn [bind]. rewrite msm_ok by (cbn; lia). cbn [bind].
    match goal with |- context [ep_verify H (rp_eq2 p) (rg1 g) tr12 (cmp ?P) ?e] => destruct (ep_bwd H (rp_eq2 p) (rg1 g) tr12 (cmp P) e _ (says_nth tr11 cs2 tr12 (2 + k) An11 ltac:(lia) ltac:(lia)) (dec_cmp _)) as [tr13 E13] end.
    - apply last_dec; assumption.
    - exact Deb.
    - rewrite point_cmp. match type of Zf with zeros (ep_eqs _ _ _ ?P _) => match goal with |- zeros (ep_eqs _ _ _ ?P' _) => replace P' with P; [exact Zf|] end end.
      cbn [lincomb]. f_equal. module_red; ring.
    - rewrite E13. cbn [bind]. eexists. reflexivity.
  Qed.
End EA.
