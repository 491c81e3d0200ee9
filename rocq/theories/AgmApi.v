From Coq Require Import String List Arith Bool Lia Field.
From Verif Require Import Base ListAux Field Vec MathModel PolyModel PolySpec PolyProofs PolyImp R1csModel R1csSpec R1csProofs R1csMore CommitModel SigmaModel CommitSpec CommitProofs BulletProofs SigmaProofs LogProofs.
From Verif Require Import SumModel SumSpec SumProofs SumZk SumApi NizkModel NizkProofs NizkApi EvalSpec EvalProofs AgmSpec AgmRare AgmZk AgmLp AgmProofs.
Import ListNotations.

Section AR.
  Context {K : Fld} {G : Mod K} {E : Enc G}.
  Add Field Kar : (fth K).
  Local Open Scope fld_scope.
  Local Notation cmp := (CommitModel.compress E).
  Variables (N : nat) (stream : nat -> G) (co : nat -> G -> K) (a b : nat).
  Hypothesis Co : coordinates N stream co.
  Let k := (b - b / 2)%nat.
  Let n := (2 ^ k)%nat.
  Hypothesis HN : (n + 1 < N)%nat.
  Hypothesis H5 : (5 <= N)%nat.
  Variable I : instance K (list nat).
  Hypothesis Sz : sized (inst I) a b.
  Variable input : list K.
  Variable g : r1csgens G.
  Hypothesis Hg : r1csgens_new (2 ^ b) stream = Ok g.
  Variable H : log E -> K.

  Lemma asked_points lb (C : list E) tr : asked (app_commitment lb C tr) = asked tr.
  Proof.
    unfold app_commitment. rewrite asked_cons. unfold asked. rewrite filter_app, app_length. cbn [filter is_chal].
    replace (filter is_chal (rev (map (MPoint "poly_commitment_share") C))) with ([] : list (msg E)); [reflexivity|].
    symmetry. rewrite <- map_rev. induction (rev C) as [|y t IH]; [reflexivity|exact IH].
  Qed.
  Lemma zk_verify_inv pf cc m d (g1 gN : gens G) tr e r tr' : zk_verify H pf cc m d g1 gN tr = Ok (e, r, tr') ->
    (1 <= m)%nat /\ zk_rounds H (zk_polys pf) (zk_evals pf) (zk_proofs pf) cc d g1 gN tr = Ok (r, tr') /\ e = last (zk_evals pf) cc.
  Proof.
    unfold zk_verify. intro X. destruct (Nat.eqb (gn gN) (d + 1)); [|discriminate]. destruct (Nat.eqb_spec (length (zk_polys pf)) m) as [_|]; [|discriminate].
    destruct (Nat.eqb_spec (length (zk_evals pf)) m) as [Le|]; [|discriminate].
    destruct (zk_rounds H (zk_polys pf) (zk_evals pf) (zk_proofs pf) cc d g1 gN tr) as [[r1 t1]| |]; try discriminate. cbn [bind] in X.
    destruct (Nat.leb_spec 1 m) as [Hm|]; [|discriminate]. rewrite <- Le in X at 1. rewrite (nth_last _ cc cc) in X by lia. cbn [bind] in X.
    injection X as <- <- <-. split; [exact Hm|]. split; [reflexivity|]. destruct (zk_evals pf) as [|y l]; [cbn in Le; lia|reflexivity].
  Qed.
  Lemma zk_acc_const d (F : Prop) : forall m A (s : zk_plan E m A) cc cs, zk_acc co n d s cc cs (fun _ _ _ _ => F) -> F.
  Proof.
    induction m as [|m IH]; intros A s cc cs X; [exact X|]. cbn [zk_acc] in X. destruct s as [P s1]. destruct (s1 (nth 0 cs 0)) as [e s2].
    destruct (s2 (nth 1 cs 0) (nth 2 cs 0)) as [[dl be] s3]. destruct (s3 (nth 3 cs 0)) as [[[z zd] zb] s4]. exact (IH _ _ _ _ (proj2 X)).
  Qed.
  Lemma va_lin2 (P Q : G) (x y : K) : co n (gadd (gmul x P) (gmul y Q)) = x * co n P + y * co n Q.
  Proof. now rewrite (co_add _ _ _ Co), !(co_mul _ _ _ Co). Qed.

  Lemma nizk_run (s : nizk_plan E a b k) tr cs t' : answers H tr cs -> length cs = nizk_coins a b k ->
    nizk_verify H (nizk_sent s cs) I input tr g = Ok t' ->
    length input = rc_inputs (inst I) /\ (2 ^ (b / 2) <= length (fst s))%nat /\ nizk_acc N stream co a b (inst I) input g (fst s) (snd s) cs.
  Proof.
    intros An Lc X. destruct s as [comm s]. cbn [fst snd]. unfold nizk_acc. unfold nizk_coins in Lc.
    pose proof (g1_value N stream b HN H5 g Hg) as V1. pose proof (g3_vector N stream b HN H5 g Hg) as V3. pose proof (g4_vector N stream b HN H5 g Hg) as V4.
    pose proof (gpc_ok stream b g Hg) as Vp.
    unfold nizk_sent in X.
    pose proof (fun tr rs tr' Kont => zk_run N stream co n Co H ltac:(lia) 3 (rg1 g) (rg4 g) V1 V4 a _ (s (firstn a cs)) (cmp (ped1 (rg1 g) 0 0)) (skipn a cs) tr rs tr' Kont) as RUN1.
    destruct (zk_sent (s (firstn a cs)) (skipn a cs)) as [[sc1 m] cs1] eqn:Es1. destruct m as [[Cz ka] s0].
    destruct (s0 (nth 0 cs1 0)) as [[kz1 kz2] s1] eqn:E0. destruct s1 as [[[[Az Bz] Pr] [[pa pb] pd]] s1]. destruct (s1 (nth 1 cs1 0)) as [zs [ea s2]] eqn:E1.
    destruct (s2 (nth 2 cs1 0)) as [ez s3] eqn:E2.
    pose proof (fun cc tr rs tr' Kont => zk_run N stream co n Co H ltac:(lia) 2 (rg1 g) (rg3 g) V1 V3 (S b) _ (s3 (nth 3 cs1 0) (nth 4 cs1 0) (nth 5 cs1 0)) cc (skipn 6 cs1) tr rs tr' Kont) as RUN2.
    destruct (zk_sent (s3 (nth 3 cs1 0) (nth 4 cs1 0) (nth 5 cs1 0)) (skipn 6 cs1)) as [[sc2 op] cs2] eqn:Es2. destruct op as [cry s4].
    pose proof (fun a Cx Cy tr tr' Kont => lp_run N stream co k Co HN H (rgpc g) a Cx Cy s4 tr cs2 tr' Kont Vp) as RUN3.
    destruct (lr_sent (s4 (nth 0 cs2 0)) (skipn 1 cs2)) as [[LR x] cs3] eqn:Es3. destruct x as [[dl be] s5].
    destruct (s5 (nth 0 cs3 0)) as [[z1 z2] [fa s6]] eqn:E5. destruct (s6 (nth 1 cs3 0)) as [fz [rx' ry']] eqn:E6.
    unfold nizk_verify in X. cbn [nz_proof nz_rx nz_ry] in X.
    destruct (r1cs_evaluate (inst I) rx' ry') as [evals| |] eqn:Eev; try discriminate X. cbn [bind] in X.
    destruct (Nat.eqb_spec (length input) (rc_inputs (inst I))) as [Li|]; [|discriminate X]. split; [exact Li|].
    set (tr0 := MRaw "R1CSInstanceDigest" (idigest I) :: proto "Spartan NIZK proof" tr) in X.
    destruct (r1cs_verify H _ (rc_vars (inst I)) (rc_cons (inst I)) input evals tr0 g) as [[[rx ry] tr9]| |] eqn:EV; try discriminate X. cbn [bind] in X.
    destruct (veqb rx rx') eqn:Q1; [|discriminate X]. destruct (veqb ry ry') eqn:Q2; [|discriminate X]. apply veqb_eq in Q1. apply veqb_eq in Q2. subst rx' ry'. clear X. rename EV into X.
    unfold r1cs_verify in X. cbn [rp_comm_vars rp_sc1 rp_claims rp_pok rp_prod rp_eq1 rp_sc2 rp_comm_ry rp_eval rp_eq2] in X.
    rewrite (sz_cons _ _ _ Sz), (sz_vars _ _ _ Sz), log_2_pow in X. cbn [bind] in X. replace (2 * 2 ^ b)%nat with (2 ^ S b)%nat in X by (rewrite pow2_S; lia). rewrite log_2_pow in X. cbn [bind] in X.
    set (tr1 := app_commitment "poly_commitment" comm _) in X.
    assert (A1 : asked tr1 = asked tr) by (unfold tr1, tr0; rewrite asked_points, asked_scalars; unfold proto; rewrite !asked_cons; cbn [is_chal]; lia).
    assert (An1 : answers H tr1 cs) by (now apply (answers_same H tr)).
    pose proof (chals_firstn H "challenge_tau" a tr1 cs An1 ltac:(lia)) as Etau. destruct (challenges H "challenge_tau" a tr1) as [tau tr2] eqn:Ech. cbn [fst] in Etau.
    pose proof (asked_chals H _ _ _ _ _ Ech) as A2. assert (Lt : length tau = a) by (rewrite Etau, firstn_length_le; lia).
    destruct (rgens_facts b stream g Hg) as (G0 & G1 & N1 & _).
    rewrite (commit1_ok _ _ _ G1 N1) in X. cbn [bind] in X.
    destruct (zk_verify H sc1 _ a 3 (rg1 g) (rg4 g) tr2) as [[[e1 rx1] tr3]| |] eqn:Ez1; try discriminate X. cbn [bind] in X.
    destruct (zk_verify_inv _ _ _ _ _ _ _ _ _ _ Ez1) as (Ha & Er1 & Ee1). clear Ez1.
    assert (LK1 : (4 * a <= length (skipn a cs))%nat) by (rewrite skipn_length; lia).
    specialize (fun Kont => RUN1 tr2 rx1 tr3 Kont (answers_skip H tr1 tr2 cs a An1 A2) LK1 Er1). cbv beta in RUN1. rewrite <- Ee1 in RUN1.
    assert (F1 : length rx1 = a /\ answers H tr3 cs1 /\ length cs1 = (6 + (4 * S b + (1 + (k + 2))))%nat).
    { eapply zk_acc_const. apply RUN1. intros L1 L2 L3 _ _ _. rewrite skipn_length in L3. split; [exact L1|]. split; [exact L2|]. lia. }
    destruct F1 as (Lrx & An3 & Lc1).
    destruct (kp_verify H (MkKP ka kz1 kz2) (rg1 g) tr3 Cz) as [tr4| |] eqn:Ek; try discriminate X. cbn [bind] in X.
    pose proof (kp_asked N n H ltac:(lia) _ _ _ _ _ Ek) as A4.
    destruct (pp_verify H (MkPP pa pb pd zs) (rg1 g) tr4 Az Bz Pr) as [tr5| |] eqn:Ep; try discriminate X. cbn [bind] in X.
    destruct (pp_coord N stream co n Co H ltac:(lia) _ _ _ _ _ _ _ Ep V1) as [A5 Q5]. cbn [pp_beta pp_delta] in Q5.
    rewrite (An3 tr5 1%nat) in Q5 by lia.
    rewrite Lrx, Lt, Nat.leb_refl in X.
    destruct (unpack Pr) as [Pp| |] eqn:UP; try discriminate X. cbn [bind] in X. destruct (unpack Cz) as [Pc| |] eqn:UC; try discriminate X. cbn [bind] in X.
    set (tr6 := app_point "comm_prod_Az_Bz_claims" Pr _) in X. assert (A6 : asked tr6 = asked tr5) by (unfold tr6, app_point; rewrite !asked_cons; cbn [is_chal]; lia).
    destruct (ep_verify H (MkEP ea ez) (rg1 g) tr6 _ e1) as [tr7| |] eqn:Ee; try discriminate X. cbn [bind] in X.
    destruct (ep_coord N stream co n Co H ltac:(lia) _ _ _ _ _ _ Ee V1) as [A7 Q7]. cbn [ep_alpha] in Q7. rewrite (An3 tr7 2%nat) in Q7 by lia.
    unfold challenge in X. set (t8 := MChal "challenege_Az" :: tr7) in X. set (t9 := MChal "challenege_Bz" :: t8) in X. set (t10 := MChal "challenege_Cz" :: t9) in X.
    assert (A8 : asked t8 = (asked tr3 + 4)%nat) by (unfold t8; rewrite asked_cons; cbn [is_chal]; lia).
    assert (A9 : asked t9 = (asked tr3 + 5)%nat) by (unfold t9; rewrite asked_cons; cbn [is_chal]; lia).
    assert (A10 : asked t10 = (asked tr3 + 6)%nat) by (unfold t10; rewrite asked_cons; cbn [is_chal]; lia).
    rewrite (An3 t8 3%nat), (An3 t9 4%nat), (An3 t10 5%nat) in X by lia.
    set (rA := nth 3 cs1 0) in *. set (rB := nth 4 cs1 0) in *. set (rC := nth 5 cs1 0) in *.
    destruct (unpack Az) as [Pa| |] eqn:UA; try discriminate X. cbn [bind] in X. destruct (unpack Bz) as [Pb| |] eqn:UB; try discriminate X. cbn [bind] in X.
    rewrite msm_ok in X by (cbn; lia). cbn [bind lincomb] in X.
    apply unpack_inv in UP. apply unpack_inv in UC. apply unpack_inv in UA. apply unpack_inv in UB.
    set (claim2 := gadd (gmul rA Pa) _) in X.
    assert (Ecl : cmp claim2 = cmp (gadd (gmul rA (point Az)) (gadd (gmul rB (point Bz)) (gmul rC (point Cz))))).
    { f_equal. unfold claim2. rewrite (point_some _ _ UA), (point_some _ _ UB), (point_some _ _ UC). module_red; ring. }
    rewrite Ecl in X. clear claim2 Ecl. set (claim2 := cmp (gadd (gmul rA (point Az)) _)) in *.
    destruct (zk_verify H sc2 claim2 (S b) 2 (rg1 g) (rg3 g) t10) as [[[e2 ry2] tr11]| |] eqn:Ez2; try discriminate X. cbn [bind] in X.
    destruct (zk_verify_inv _ _ _ _ _ _ _ _ _ _ Ez2) as (_ & Er2 & Ee2). clear Ez2.
    assert (LK2 : (4 * S b <= length (skipn 6 cs1))%nat) by (rewrite skipn_length; lia).
    specialize (fun Kont => RUN2 claim2 t10 ry2 tr11 Kont (answers_skip H tr3 t10 cs1 6 An3 A10) LK2 Er2). cbv beta in RUN2. rewrite <- Ee2 in RUN2.
    assert (F2 : length ry2 = S b /\ answers H tr11 cs2 /\ length cs2 = (1 + (k + 2))%nat).
    { eapply zk_acc_const. apply RUN2. intros L1 L2 L3 _ _ _. rewrite skipn_length in L3. split; [exact L1|]. split; [exact L2|]. lia. }
    destruct F2 as (Lry & An11 & Lc2). rewrite Lry in X. change (Nat.leb 1 (S b)) with true in X. cbv iota in X.
    destruct ry2 as [|ry0 ryt]; [discriminate Lry|]. cbn [tl] in X. assert (Lr : length ryt = b) by (cbn in Lry; lia).
    destruct (pe_verify H _ (rgpc g) tr11 ryt cry comm) as [tr12| |] eqn:Epe; try discriminate X. cbn [bind] in X.
    unfold pe_verify in Epe. pose proof (factored_ok K ryt) as F. destruct (compute_factored_evals ryt) as [L R] eqn:EF. destruct F as (LL & LR' & _). rewrite Lr in LL, LR'.
    destruct (mapM unpack comm) as [Cs| |] eqn:EC; try discriminate Epe. cbn [bind] in Epe. apply mapM_pt in EC.
    destruct (msm L Cs) as [CL| |] eqn:EM; try discriminate Epe. cbn [bind] in Epe. apply msm_inv in EM. destruct EM as [LM ->].
    assert (Lcm : (2 ^ (b / 2) <= length comm)%nat) by (subst Cs; rewrite map_length in LM; lia). split; [exact Lcm|].
    rewrite LR' in Epe. fold k in Epe. change (map pt comm) with (map point comm) in EC. subst Cs.
    set (tr11' := proto "polynomial evaluation proof" tr11) in Epe. assert (A11 : asked tr11' = asked tr11) by (unfold tr11', proto; rewrite asked_cons; reflexivity).
    assert (LK3 : (S (k + 1) <= length cs2)%nat) by lia.
    specialize (fun Kont => RUN3 R (cmp (lincomb L (map point comm))) cry tr11' tr12 Kont (answers_same H tr11 tr11' cs2 An11 A11) LK3). cbv beta in RUN3.
    rewrite log_2_pow in X. cbn [bind] in X.
    assert (Lin : (length input < 2 ^ b)%nat) by (rewrite Li; apply (sz_inputs _ _ _ Sz)).
    rewrite (input_eval_ok input ryt b (2 ^ b - length input - 1)) in X by (try exact (eq_sym Lr); exact Lin). cbn [bind idx nth_error of_opt] in X.
    destruct (unpack cry) as [Pv| |] eqn:UV; try discriminate X. cbn [bind] in X. apply unpack_inv in UV. rewrite <- G0, (commit1_ok _ _ _ G1 N1) in X. cbn [bind] in X.
    rewrite msm_ok in X by (cbn; lia). cbn [bind lincomb] in X. set (inp := mle ([1] ++ input ++ _) ryt) in *.
    destruct evals as [[eA eB] eC].
    match type of X with bind (ep_verify H (MkEP fa fz) (rg1 g) tr12 (cmp ?P) e2) _ = _ => set (P2 := P) in X; destruct (ep_verify H (MkEP fa fz) (rg1 g) tr12 (cmp P2) e2) as [tr13| |] eqn:Eq; try discriminate X end.
    cbn [bind] in X. injection X as Ex Ey Et. subst rx ry.
    destruct (ep_coord N stream co n Co H ltac:(lia) _ _ _ _ _ _ Eq V1) as [A13 Q13]. cbn [ep_alpha] in Q13.
    (* the values of the matrices *)
    rewrite (r1cs_evaluate_ok (inst I) a b rx1 (ry0 :: ryt) Sz Lrx Lry) in Eev. injection Eev as <- <- <-.
    apply RUN1. intros _ _ _ _ _ _. unfold mid_acc. rewrite E0, E1, E2. fold k n rA rB rC. split; [exact Q5|]. split.
    - unfold val in *. rewrite point_cmp, (co_mul _ _ _ Co) in Q7. rewrite <- Q7. rewrite (co_add _ _ _ Co), (co_opp N stream co Co). rewrite (point_some _ _ UP), (point_some _ _ UC).
      replace (fprod _) with (mle (eq_evals (firstn a cs)) rx1); [ring|].
      rewrite <- Etau. rewrite eq_mle by congruence. assert (Lx2 : length rx1 = length tau) by congruence. clear - Lx2. revert tau Lx2. induction rx1 as [|x rx IH]; intros [|t tau] L; try discriminate; [reflexivity|].
      cbn [map2]. rewrite !fprod_cons, IH by (cbn in L; lia). ring.
    - fold claim2. apply RUN2. intros _ _ _ _ _ _. unfold open_acc. cbn [fst snd tl]. rewrite EF. cbn [fst snd].
      refine (proj2 (RUN3 _ Epe _)). intros An12 Lc3. unfold end_acc. cbn [fst snd tl nth]. fold inp. fold k n.
      rewrite (An12 tr13 0%nat) in Q13 by (rewrite ?Lc3; lia). unfold val in *. rewrite <- Q13. f_equal. f_equal. unfold P2. rewrite point_cmp, (co_mul _ _ _ Co). unfold mats. f_equal.
      rewrite !(co_add _ _ _ Co), !(co_mul _ _ _ Co), (co_0 N stream co Co), (co_ped1 N stream co n Co ltac:(lia) (rg1 g)) by exact V1.
      rewrite (point_some _ _ UV). ring.
  Qed.
End AR.

Section AApi.
  Context {K : Fld} {G : Mod K} {E : Enc G}.
  Add Field Kaa : (fth K).
  Local Open Scope fld_scope.
  Context {bytes : Type} (parse : bytes -> option K) (digest_of : r1cs K -> list nat).

  Lemma coins_answers tr cs : answers (coins (E:=E) tr cs) tr cs.
  Proof. intros l i L _. unfold coins. f_equal. lia. Qed.

  Lemma fit_committed (co : nat -> G -> K) m n q (C : list E) : (m <= length C)%nat -> q = (m * n)%nat -> fit q (firstn q (committed co n C)) = firstn q (committed co n C).
  Proof.
    intros L Eq. assert (Lf : length (firstn q (committed co n C)) = q).
    { apply firstn_length_le. replace (length (committed co n C)) with (length C * n)%nat; [subst q; now apply Nat.mul_le_mono_r|].
      unfold committed. clear. induction C as [|e C IH]; [reflexivity|]. cbn [map concat length]. rewrite app_length, tab_length, <- IH. lia. }
    unfold fit. rewrite firstn_app, Lf, Nat.sub_diag, firstn_O, app_nil_r. apply firstn_all2. lia.
  Qed.

  Lemma api_agm nc nv ni (A B C : list (nat * nat * bytes)) I N stream (co : nat -> G -> K) (g : r1csgens G) (input : list K) (tr : log E) :
    instance_new parse digest_of nc nv ni A B C = Ok I -> nizkgens_new nv ni stream = Ok g -> coordinates N stream co ->
    let a := Nat.log2_up (pad_cons nc) in let b := Nat.log2_up (pad_vars nv ni) in let k := (b - b / 2)%nat in
    (5 <= N)%nat -> (2 ^ k + 1 < N)%nat ->
    forall s : nizk_plan E a b k,
    instance_is_sat I (firstn (2 ^ b) (committed co (2 ^ k) (fst s))) input <> Ok true ->
    rare 6 (nizk_coins a b k) (fun cs => exists tr', nizk_verify (coins tr cs) (nizk_sent s cs) I input tr g = Ok tr').
  Proof.
    intros HI Hg Co a b k H5 HN s NS. destruct (new_sized _ _ _ _ _ _ _ _ _ _ _ _ HI) as (Sz & Ei & Ev & W & Ec). fold a b in Sz.
    unfold nizkgens_new in Hg. rewrite <- Ev, (sz_vars _ _ _ Sz) in Hg.
    pose proof (fun cs t' => nizk_run N stream co a b Co HN H5 I Sz input g Hg (coins tr cs) s tr cs t' (coins_answers tr cs)) as RUN. fold k in RUN.
    destruct (Nat.eq_dec (length input) (rc_inputs (inst I))) as [Li|Li].
    2:{ apply rare_none. intros cs L (t' & V). pose proof (RUN cs t' L V) as (X & _); exact (Li X). }
    destruct (le_lt_dec (2 ^ (b / 2)) (length (fst s))) as [Lc|Lc].
    2:{ apply rare_none. intros cs L (t' & V). pose proof (proj1 (proj2 (RUN cs t' L V))). lia. }
    apply (rare_impl 6 (nizk_coins a b k) _ (nizk_acc N stream co a b (inst I) input g (fst s) (snd s))).
    - intros cs L (t' & V). exact (proj2 (proj2 (RUN cs t' L V))).
    - apply (nizk_rare N stream co a b Co HN H5 (inst I) Sz input g Hg (fst s) Li Lc).
      intro Sat. apply NS. unfold instance_is_sat.
      assert (E2 : (2 ^ b = 2 ^ (b / 2) * 2 ^ k)%nat).
      { unfold k. rewrite <- Nat.pow_add_r. f_equal. pose proof (Nat.div_le_upper_bound b 2 b ltac:(lia) ltac:(lia)). lia. }
      pose proof (fit_committed co _ (2 ^ k) (2 ^ b) (fst s) Lc E2) as F. set (vars := firstn (2 ^ b) _) in *.
      assert (Lv : length vars = rc_vars (inst I)) by (rewrite <- F, fit_length, (sz_vars _ _ _ Sz); reflexivity).
      rewrite Lv, Nat.ltb_irrefl, Li, Nat.eqb_refl. cbn [negb bind].
      destruct (r1cs_is_sat_ok K (inst I) vars input W Lv Li) as (r & Er & Hr). rewrite Er. f_equal. apply Hr. rewrite (sz_cons _ _ _ Sz). exact Sat.
  Qed.
End AApi.
