From Coq Require Import String List Arith ZArith Bool Lia Field Ring.
From Verif Require Import Base ListAux Field Zq Vec MathModel PolyModel PolySpec PolyProofs PolyImp R1csModel R1csSpec R1csProofs R1csMore R1csApi.
From Verif Require Import CommitModel SigmaModel CommitSpec CommitProofs SigmaProofs BulletProofs LogProofs SigmaApi SumModel SumSpec SumProofs SumComplete SumZk SumApi NizkModel NizkProofs NizkSpec.
Import ListNotations.

(** step through a successful run *)
Ltac run X := repeat match type of X with
  | bind ?c _ = _ => let N := fresh "R" in destruct c eqn:N; cbn [bind] in X; [|discriminate X|discriminate X]
  | (if ?b then _ else _) = _ => let N := fresh "B" in first [destruct b eqn:N; [|discriminate X] | destruct b eqn:N; [discriminate X|]]
  | (let '(_, _) := ?p in _) = _ => destruct p
  end.

Section New.
  Variable K : Fld.
  Variable bytes : Type.
  Variable parse : bytes -> option K.
  Variable D : Type.
  Variable digest_of : r1cs K -> D.
  Lemma log2_up_pow n : next_pow2 n = n -> n = (2 ^ Nat.log2_up n)%nat.
  Proof. unfold next_pow2. congruence. Qed.
  Lemma new_sized nc nv ni (A B C : list (nat * nat * bytes)) I : instance_new parse digest_of nc nv ni A B C = Ok I ->
    sized (inst I) (Nat.log2_up (pad_cons nc)) (Nat.log2_up (pad_vars nv ni)) /\ rc_inputs (inst I) = ni /\ rc_vars (inst I) = pad_vars nv ni /\ r1cs_wf (inst I) /\
    rc_cons (inst I) = pad_cons nc.
  Proof.
    intro X. pose proof (new_dims _ _ _ _ _ _ _ _ _ _ _ _ X) as (D1 & D2 & D3 & W). split; [|auto]. pose proof W as (WA & WB & WC).
    destruct (pad_cons_spec nc) as (_ & C2 & _). destruct (pad_vars_spec nv ni) as (_ & V2 & V3).
    pose proof (log2_up_pow _ C2) as EC. pose proof (log2_up_pow _ V3) as EV.
    set (a := Nat.log2_up (pad_cons nc)) in *. set (b := Nat.log2_up (pad_vars nv ni)) in *.
    assert (Ly : Nat.log2_up (2 * pad_vars nv ni) = S b).
    { rewrite EV. replace (2 * 2 ^ b)%nat with (2 ^ S b)%nat by (rewrite pow2_S; lia). apply Nat.log2_up_pow2. lia. }
    assert (Hs : (snx (rc_A (inst I)) = a /\ sny (rc_A (inst I)) = S b) /\ (snx (rc_B (inst I)) = a /\ sny (rc_B (inst I)) = S b) /\ (snx (rc_C (inst I)) = a /\ sny (rc_C (inst I)) = S b)).
    { pose proof (to_scalars_err K bytes parse nc nv ni A) as EA'. pose proof (to_scalars_err K bytes parse nc nv ni B) as EB'.
      pose proof (to_scalars_err K bytes parse nc nv ni C) as EC'. pose proof (api_accepts K bytes parse D digest_of nc nv ni A B C) as Ha.
      destruct (first_bad parse nc nv ni A); [congruence|]. destruct (first_bad parse nc nv ni B); [congruence|].
      destruct (first_bad parse nc nv ni C); [congruence|]. destruct EA' as [VA EA']. destruct EB' as [VB EB']. destruct EC' as [VC EC'].
      destruct (instance_new_ok K bytes parse D digest_of _ _ _ _ _ _ _ _ _ EA' EB' EC') as (I' & E' & EI & _).
      rewrite X in E'. injection E' as <-. rewrite EI. unfold inst_of. cbn [rc_A rc_B rc_C snx sny]. fold a. rewrite Ly. repeat split. }
    assert (Hw : forall es : list (entry K), ents_ok (rc_cons (inst I)) (rc_vars (inst I) + rc_inputs (inst I) + 1) es -> ents_ok (2 ^ a) (2 ^ S b) es).
    { intros es He e Hin. destruct (He e Hin). rewrite D1, EC in *. rewrite pow2_S. rewrite D2, D3 in *. split; lia. }
    destruct Hs as ((a1 & a2) & (b1 & b2) & (c1 & c2)). constructor; rewrite ?D1, ?D2, ?D3; auto; lia.
  Qed.
End New.

Section A.
  Context {K : Fld} {G : Mod K} {E : Enc G}.
  Variable H : log E -> K.
  Add Field Kna : (fth K).
  Local Open Scope fld_scope.
  Hypothesis two : (of_nat 2 : K) <> 0.
  Hypothesis three : (of_nat 3 : K) <> 0.
  Local Notation cmp := (CommitModel.compress E).
  Variable bytes : Type.
  Variable parse : bytes -> option K.
  Variable digest_of : r1cs K -> list nat.

  Lemma is_sat_inv (I : instance K (list nat)) vars input : r1cs_wf (inst I) -> instance_is_sat I vars input = Ok true ->
    (length vars <= rc_vars (inst I))%nat /\ length input = rc_inputs (inst I) /\
    sat (rc_cons (inst I)) (triples (sM (rc_A (inst I)))) (triples (sM (rc_B (inst I)))) (triples (sM (rc_C (inst I)))) (fit (rc_vars (inst I)) vars ++ [1] ++ input).
  Proof.
    intros W X. unfold instance_is_sat in X. destruct (Nat.ltb_spec (rc_vars (inst I)) (length vars)) as [|L]; [discriminate|].
    destruct (Nat.eqb_spec (length input) (rc_inputs (inst I))) as [Li|]; [|discriminate]. cbn [negb] in X. rewrite pad_fit in X by exact L. cbn [bind] in X.
    destruct (r1cs_is_sat_ok K (inst I) (fit (rc_vars (inst I)) vars) input W) as (b & Eb & Hb).
    { unfold fit. rewrite firstn_length_le; [reflexivity|]. rewrite app_length, repeat_length. lia. } { exact Li. }
    rewrite Eb in X. injection X as ->. split; [exact L|]. split; [exact Li|]. apply Hb. reflexivity.
  Qed.
  Lemma fit_length n (l : list K) : length (fit n l) = n.
  Proof. unfold fit. rewrite firstn_length_le; [reflexivity|]. rewrite app_length, repeat_length. lia. Qed.

  Lemma api_nizk_complete nc nv ni (A B C : list (nat * nat * bytes)) I stream (g : r1csgens G) (vars input : list K) (seed : K) (tr : log E) :
    (1 <= nc)%nat -> instance_new parse digest_of nc nv ni A B C = Ok I -> instance_is_sat I vars input = Ok true ->
    nizkgens_new nv ni stream = Ok g ->
    let b := Nat.log2_up (next_pow2 (Nat.max nv (ni + 1))) in
    (b - b / 2 < 32)%nat ->
    (forall pf tr', nizk_prove H I vars input g seed tr = Ok (pf, tr') -> nizk_verify H pf I input tr g = Ok tr') /\
    unless H "u" 0 (b - b / 2) (exists r, nizk_prove H I vars input g seed tr = Ok r).
  Proof.
    intros Hn HI Hs Hg b Hb. destruct (new_sized _ _ _ _ _ _ _ _ _ _ _ _ HI) as (Sz & Ei & Ev & W & Ec).
    rewrite pad_vars_eq in Sz, Ev. fold b in Sz. set (a := Nat.log2_up (pad_cons nc)) in *.
    destruct (is_sat_inv I vars input W Hs) as (Lv & Li & Sat). rewrite (sz_cons _ _ _ Sz) in Sat.
    assert (Ha : (1 <= a)%nat).
    { destruct (pad_cons_spec nc) as (_ & _ & X & _). specialize (X Hn). unfold a. change 1%nat with (Nat.log2_up 2). apply Nat.log2_up_le_mono, X. }
    unfold nizkgens_new in Hg. rewrite pad_vars_eq in Hg. rewrite <- Ev, (sz_vars _ _ _ Sz) in Hg.
    unfold nizk_prove, nizk_verify. rewrite pad_fit by exact Lv. cbn [bind]. set (tape := tape_new "proof" seed).
    set (tr0 := MRaw "R1CSInstanceDigest" (idigest I) :: proto "Spartan NIZK proof" tr).
    pose proof (r1cs_complete H two three (inst I) a b (fit (rc_vars (inst I)) vars) input stream g tr0 tape Sz Ha Hb) as X.
    specialize (X ltac:(rewrite fit_length; apply Sz) Li Hg Sat).
    destruct (r1cs_prove H (inst I) (fit (rc_vars (inst I)) vars) input g tr0 tape) as [[[[[pf rx] ry] tr'] tape']| |].
    - cbn [bind]. destruct X as (_ & _ & evals & Ee & Vf). split; [|apply unless_triv; eexists; reflexivity].
      intros pf' tr'' Q. injection Q as <- <-. cbn [nz_rx nz_ry nz_proof]. rewrite Ee. cbn [bind]. rewrite Li, Nat.eqb_refl, Vf. cbn [bind]. rewrite !veqb_refl. reflexivity.
    - split; [discriminate|]. refine (unless_mono H _ _ _ _ _ _ X). intros [].
    - split; [discriminate|]. refine (unless_mono H _ _ _ _ _ _ X). intros [].
  Qed.

  Lemma api_same_transcript nc nv ni (A B C : list (nat * nat * bytes)) I stream (g : r1csgens G) (vars input : list K) (seed : K) (tr : log E) pf trp trv :
    (1 <= nc)%nat -> instance_new parse digest_of nc nv ni A B C = Ok I -> instance_is_sat I vars input = Ok true ->
    nizkgens_new nv ni stream = Ok g ->
    (let b := Nat.log2_up (next_pow2 (Nat.max nv (ni + 1))) in b - b / 2 < 32)%nat ->
    nizk_prove H I vars input g seed tr = Ok (pf, trp) -> nizk_verify H pf I input tr g = Ok trv -> trp = trv.
  Proof.
    intros Hn HI Hs Hg Hb P V. destruct (api_nizk_complete nc nv ni A B C I stream g vars input seed tr Hn HI Hs Hg Hb) as [X _].
    apply X in P. congruence.
  Qed.

  (** without constraints the prover aborts *)
  Lemma api_zero_panic nv ni (A B C : list (nat * nat * bytes)) I stream (g : r1csgens G) (vars input : list K) (seed : K) (tr : log E) :
    instance_new parse digest_of 0 nv ni A B C = Ok I -> instance_is_sat I vars input = Ok true -> nizkgens_new nv ni stream = Ok g ->
    nizk_prove H I vars input g seed tr = Panic.
  Proof.
    intros HI Hs Hg. destruct (new_sized _ _ _ _ _ _ _ _ _ _ _ _ HI) as (Sz & Ei & Ev & W & Ec).
    rewrite pad_vars_eq in Sz, Ev. set (b := Nat.log2_up (next_pow2 (Nat.max nv (ni + 1)))) in *. change (Nat.log2_up (pad_cons 0)) with 0%nat in Sz.
    destruct (is_sat_inv I vars input W Hs) as (Lv & Li & _).
    unfold nizkgens_new in Hg. rewrite pad_vars_eq in Hg. rewrite <- Ev, (sz_vars _ _ _ Sz) in Hg.
    unfold nizk_prove. rewrite pad_fit by exact Lv. cbn [bind]. set (tape := tape_new "proof" seed). set (tr0 := MRaw _ _ :: _).
    pose proof Sz as [Ec' Ev' Ei' (xa & ya & OA) (xb & yb & OB) (xc & yc & OC)].
    destruct (rgens_facts b stream g Hg) as (E1 & G1 & N1 & G3 & N3 & G4 & N4 & Epc).
    set (fv := fit (rc_vars (inst I)) vars). assert (Lf : length fv = (2 ^ b)%nat) by (unfold fv; rewrite fit_length; exact Ev').
    assert (Lz : length (full_z fv input) = (2 ^ S b)%nat) by (rewrite full_z_length, Lf, pow2_S; lia).
    unfold r1cs_prove. replace (Nat.ltb (length input) (length fv)) with true by (symmetry; apply Nat.ltb_lt; lia).
    destruct (dense_new_ok K fv b Lf) as (Ed & Od & Ld). rewrite Ed. cbn [bind].
    destruct (poly_commit_ok H fv b (rgpc g) stream (Some tape) Lf Epc) as (blinds & tp' & Lbl & _ & Ecm). rewrite Ecm. cbn [bind].
    assert (Htp : exists tape1, tp' = Some tape1).
    { unfold poly_commit in Ecm. destruct (Nat.eqb (length _) _); [|discriminate]. destruct (compute_factored_lens _) as [ln rn]. destruct (Nat.eqb _ _); [|discriminate].
      unfold random_vector in Ecm. destruct (challenges H "poly_blinds" _ tape) as [v t]. destruct (commit_inner _ _ _); try discriminate. cbn [bind] in Ecm. injection Ecm as _ _ <-. eexists. reflexivity. }
    destruct Htp as [tape1 ->]. cbn [of_opt bind]. rewrite Ec', Lz, !log_2_pow. cbn [bind challenges].
    destruct (dense_new_ok K (eq_evals ([] : list K)) 0 eq_refl) as (Et & _). rewrite Et. cbn [bind].
    destruct (multiply_vec_ok K (rc_A (inst I)) (2 ^ 0) _ _ Lz OA) as (la & Ela & Lla & Nla).
    destruct (multiply_vec_ok K (rc_B (inst I)) (2 ^ 0) _ _ Lz OB) as (lb & Elb & Llb & Nlb).
    destruct (multiply_vec_ok K (rc_C (inst I)) (2 ^ 0) _ _ Lz OC) as (lc & Elc & Llc & Nlc).
    unfold r1cs_multiply_vec. rewrite Ec', Lz, !Nat.eqb_refl, Ev'.
    replace (Nat.ltb (2 ^ b) (2 ^ S b)) with true by (symmetry; apply Nat.ltb_lt; rewrite pow2_S; pose proof (pow2_pos b); lia).
    rewrite Ela. cbn [bind]. destruct (dense_new_ok K la 0 Lla) as (-> & _). cbn [bind]. rewrite Elb. cbn [bind]. destruct (dense_new_ok K lb 0 Llb) as (-> & _). cbn [bind].
    rewrite Elc. cbn [bind]. destruct (dense_new_ok K lc 0 Llc) as (-> & _). cbn [bind].
    unfold prove_phase_one, prove_cubic_additive, zk_prove. cbn [random_vector challenges]. rewrite (commit1_ok _ _ _ G1 N1). cbn [bind zk_prove_rounds Nat.leb]. reflexivity.
  Qed.

  (** * forging *)
  Lemma ped_zero (g : gens G) n : ped g (repeat 0 n) 0 = g0.
  Proof. unfold ped. rewrite lincomb_repeat0. module_red; ring. Qed.
  Lemma ped1_zero (g : gens G) : ped1 g 0 0 = g0.
  Proof. apply (ped_zero g 1). Qed.
  Lemma geqb_eq (a b : G) : a = b -> geqb a b = true.
  Proof. intros ->. destruct (geqb_spec K G b b); congruence. Qed.
  Lemma zero_dp_ok (g1 gN : gens G) n (tr : log E) a : gens_ok g1 -> gn g1 = 1%nat -> gens_ok gN -> gn gN = n -> length a = n ->
    exists tr', dp_verify H (zero_dp n) g1 gN tr a (cmp g0) (cmp g0) = Ok tr'.
  Proof.
    intros G1 N1 GN NN La. unfold dp_verify. rewrite NN, N1, La, !Nat.eqb_refl. unfold challenge, zero_dp. cbn [dp_delta dp_beta dp_z dp_zdelta dp_zbeta].
    rewrite !unpack_comp. cbn [bind]. rewrite commit_ok by (try exact GN; rewrite repeat_length; congruence). cbn [bind].
    unfold compute_dotproduct. rewrite repeat_length, La, Nat.eqb_refl. cbn [bind]. rewrite commit1_ok by assumption. cbn [bind].
    rewrite !geqb_eq; [eexists; reflexivity| |].
    - match goal with |- _ = ped1 g1 ?x 0 => replace x with (0 : K) end.
      + rewrite ped1_zero. module_red; ring.
      + clear. symmetry. revert a. induction n as [|n IH]; intros [|x a]; try reflexivity. cbn [repeat map2]. unfold dot in *. cbn [map2]. rewrite ?(fsum_cons K), IH. ring.
    - rewrite ped_zero. module_red; ring.
  Qed.
  Lemma zero_rounds_ok (g1 gN : gens G) d : gens_ok g1 -> gn g1 = 1%nat -> gens_ok gN -> gn gN = S d -> forall n (tr : log E),
    exists r tr', length r = n /\ zk_rounds H (repeat (cmp g0) n) (repeat (cmp g0) n) (repeat (zero_dp (S d)) n) (cmp g0) d g1 gN tr = Ok (r, tr') /\
      forall r0 r1, r = r0 :: r1 -> exists l, r0 = H (MChal "challenge_nextround" :: l).
  Proof.
    intros G1 N1 GN NN. induction n as [|n IH]; intro tr; [exists [], tr; repeat split; discriminate|].
    cbn [repeat zk_rounds]. unfold challenge. rewrite !idx_0. cbn [bind]. rewrite !unpack_comp. cbn [bind]. rewrite msm2. cbn [bind].
    match goal with |- context [cmp (gadd (gmul ?x g0) ?y)] => replace (gadd (gmul x g0) y) with (g0 : G) by (module_red; ring) end.
    match goal with |- context [dp_verify H _ g1 gN ?t ?a _ _] => destruct (zero_dp_ok g1 gN (S d) t a G1 N1 GN NN) as [tr1 ->] end.
    { rewrite zk_vector_length. lia. }
    cbn [tl]. destruct (IH tr1) as (r & tr' & Lr & -> & _). cbn [bind]. eexists. eexists. split; [|split; [reflexivity|]].
    - cbn. congruence.
    - intros r0 r1 X. injection X as <- _. eexists. reflexivity.
  Qed.
  Lemma zero_zk_ok (g1 gN : gens G) d n (tr : log E) : gens_ok g1 -> gn g1 = 1%nat -> gens_ok gN -> gn gN = S d -> (1 <= n)%nat ->
    exists r tr', length r = n /\ zk_verify H (zero_zk n (S d)) (cmp g0) n d g1 gN tr = Ok (cmp g0, r, tr') /\
      exists l, nth 0 r 0 = H (MChal "challenge_nextround" :: l).
  Proof.
    intros G1 N1 GN NN Hn. destruct (zero_rounds_ok g1 gN d G1 N1 GN NN n tr) as (r & tr' & Lr & Er & Hr). exists r, tr'. split; [exact Lr|].
    unfold zk_verify, zero_zk. cbn [zk_polys zk_evals zk_proofs]. rewrite !repeat_length, NN, Nat.add_1_r, !Nat.eqb_refl, Er. cbn [bind].
    replace (Nat.leb 1 n) with true by (symmetry; apply Nat.leb_le; exact Hn). split.
    - rewrite (idx_nth _ _ (cmp g0)) by (rewrite repeat_length; lia). cbn [bind].
      replace (nth (n - 1) (repeat (cmp g0) n) (cmp g0)) with (cmp g0); [reflexivity|].
      destruct (nth_in_or_default (n - 1) (repeat (cmp g0) n) (cmp g0)) as [X|X]; [|congruence]. apply repeat_spec in X. congruence.
    - destruct r as [|r0 r1]; [cbn in Lr; lia|]. destruct (Hr r0 r1 eq_refl) as [l ->]. exists l. reflexivity.
  Qed.
  Lemma zero_ep_ok (g : gens G) (tr : log E) (C1 C2 : G) : C1 = C2 -> exists tr', ep_verify H (MkEP (cmp g0) 0) g tr (cmp C1) (cmp C2) = Ok tr'.
  Proof.
    intros <-. unfold ep_verify, challenge. cbn [ep_alpha ep_z]. rewrite !unpack_comp. cbn [bind]. rewrite eeqb_comp_eq; [eexists; reflexivity|]. module_red; ring.
  Qed.
  Lemma zero_kp_ok (g : gens G) (tr : log E) : gens_ok g -> gn g = 1%nat -> exists tr', kp_verify H (MkKP (cmp g0) 0 0) g tr (cmp g0) = Ok tr'.
  Proof.
    intros Hg N. unfold kp_verify, challenge. cbn [kp_alpha kp_z1 kp_z2]. rewrite commit1_ok by assumption. cbn [bind]. rewrite !unpack_comp. cbn [bind].
    rewrite eeqb_comp_eq; [eexists; reflexivity|]. rewrite ped1_zero. module_red; ring.
  Qed.
  Lemma zero_pp_ok (g : gens G) (tr : log E) : gens_ok g -> gn g = 1%nat -> exists tr', pp_verify H (MkPP (cmp g0) (cmp g0) (cmp g0) (0, 0, 0, 0, 0)) g tr (cmp g0) (cmp g0) (cmp g0) = Ok tr'.
  Proof.
    intros Hg N. unfold pp_verify, challenge, pp_check. cbn [pp_alpha pp_beta pp_delta pp_z]. rewrite !unpack_comp. cbn [bind].
    rewrite !commit1_ok by (assumption || reflexivity). cbn [bind].
    rewrite ?unpack_comp; cbn [bind]; repeat (rewrite eeqb_comp_eq by (rewrite ped1_zero; module_red; ring)). eexists. reflexivity.
  Qed.

  Lemma cancel_ry (x c : K) (P : G) : x <> 1 -> gmul c (gadd (gmul (1 - x) (gmul (- (x * finv (1 - x))) P)) (gmul x P)) = g0.
  Proof. intro N. assert (Z : 1 - x <> 0) by (rewrite (fsub_eq_0 K); congruence). module_red; field; exact Z. Qed.
  Lemma zero_sub (c : K) : gmul c (gadd (g0 : G) (gopp g0)) = g0.
  Proof. module_red; ring. Qed.
  Lemma lincomb_zero3 (x y z : K) : lincomb [x; y; z] [g0; g0; (g0 : G)] = g0.
  Proof. apply (lincomb_g0 3 [x; y; z]). Qed.
  Lemma bind_Ok {A B} (x : A) (f : A -> res B) : bind (Ok x) f = f x.
  Proof. reflexivity. Qed.
  Lemma r1cs_forged (a b : nat) (input : list K) stream (g : r1csgens G) (tr : log E) (ev : list K -> list K -> K * K * K) :
    (1 <= a)%nat -> (b - b / 2 < 32)%nat -> (length input < 2 ^ b)%nat -> r1csgens_new (2 ^ b) stream = Ok g ->
    exists Cry rx ry, length rx = a /\ length ry = S b /\
      unless H "challenge_nextround" 1 1 (unless H "u" 0 (b - b / 2)
        (exists tr', r1cs_verify H (nz_proof (forged_nizk a b Cry rx ry)) (2 ^ b) (2 ^ a) input (ev rx ry) tr g = Ok (rx, ry, tr'))).
  Proof.
    intros Ha Hb Li Hg. destruct (rgens_facts b stream g Hg) as (E1 & G1 & N1 & G3 & N3 & G4 & N4 & Epc).
    set (tr0 := app_commitment "poly_commitment" (repeat (cmp g0) (2 ^ (b / 2))) (app_scalars "input" input (proto "R1CS proof" tr))).
    pose proof (challenges_length H "challenge_tau" a tr0) as Lt. destruct (challenges H "challenge_tau" a tr0) as [tau tr1] eqn:Etau. cbn [fst] in Lt.
    destruct (zero_zk_ok (rg1 g) (rg4 g) 3 a tr1 G1 N1 G4 N4 Ha) as (rx & tr2 & Lrx & V1 & _).
    destruct (zero_kp_ok (rg1 g) tr2 G1 N1) as [tr3 V2]. destruct (zero_pp_ok (rg1 g) tr3 G1 N1) as [tr4 V3].
    set (tr5 := app_point "comm_prod_Az_Bz_claims" (cmp g0) (app_point "comm_Cz_claim" (cmp g0) (app_point "comm_Bz_claim" (cmp g0) (app_point "comm_Az_claim" (cmp g0) tr4)))).
    destruct (zero_ep_ok (rg1 g) tr5 (gmul (fprod (map2 (fun x t => x * t + (1 - x) * (1 - t)) rx tau)) (gadd g0 (gopp g0))) g0 (zero_sub _)) as [tr6 V4].
    set (tr7 := MChal "challenege_Cz" :: MChal "challenege_Bz" :: MChal "challenege_Az" :: tr6).
    destruct (zero_zk_ok (rg1 g) (rg3 g) 2 (S b) tr7 G1 N1 G3 N3 ltac:(lia)) as (ry & tr8 & Lry & V5 & lq & Hry0).
    destruct ry as [|ry0 ryt]; [discriminate|]. cbn [nth] in Hry0. assert (Lryt : length ryt = b) by (cbn in Lry; lia).
    set (inp := mle ([1] ++ input ++ repeat 0 (2 ^ b - length input - 1)) ryt). set (Pi := ped1 (rg1 g) inp 0).
    exists (cmp (gmul (- (ry0 * finv (1 - ry0))) Pi)), rx, (ry0 :: ryt). split; [exact Lrx|]. split; [exact Lry|].
    apply (unless_step H _ _ _ _ lq). rewrite <- Hry0. intro N01. apply unless_triv.
    rewrite <- Lryt in Hb, Epc.
    destruct (api_forged H stream ryt (rgpc g) tr8 (repeat (cmp g0) (2 ^ (b / 2))) Hb Epc) as [F _].
    { rewrite repeat_length, Lryt. lia. } { intros c Hc. apply repeat_spec in Hc. exists g0. rewrite Hc. apply dec_comp. }
    specialize (F (cmp (gmul (- (ry0 * finv (1 - ry0))) Pi)) _ (dec_comp _ _ _)). rewrite Lryt in F.
    refine (unless_mono H _ _ _ _ _ _ F). intros [tr9 V6].
    destruct (ev rx (ry0 :: ryt)) as [[eA eB] eC].
    match type of V6 with pe_verify _ ?f _ _ _ _ _ = _ => set (fp := f) in *; set (Cry := cmp (gmul _ Pi)) in * end.
    unfold r1cs_verify, forged_nizk. cbn [nz_proof rp_comm_vars rp_sc1 rp_claims rp_pok rp_prod rp_eq1 rp_sc2 rp_comm_ry rp_eval rp_eq2].
    fold tr0. rewrite log_2_pow, bind_Ok. replace (2 * 2 ^ b)%nat with (2 ^ S b)%nat by (rewrite pow2_S; lia). rewrite log_2_pow, bind_Ok, Etau.
    rewrite (commit1_ok 0 0 _ G1 N1), bind_Ok, ped1_zero, V1, bind_Ok. cbv iota. rewrite V2, bind_Ok, V3, bind_Ok. fold tr5. rewrite Lrx, Lt, Nat.leb_refl.
    rewrite unpack_comp, !bind_Ok, V4, bind_Ok. unfold challenge at 1 2 3. rewrite !bind_Ok. rewrite msm_ok by (cbn; lia). rewrite bind_Ok, lincomb_zero3. fold tr7.
    rewrite V5, bind_Ok. cbv iota. rewrite Lry. change (Nat.leb 1 (S b)) with true. cbv iota. cbn [tl]. fold fp. rewrite V6, bind_Ok.
    rewrite log_2_pow, bind_Ok. rewrite (input_eval_ok input ryt b (2 ^ b - length input - 1)) by (lia || congruence). rewrite bind_Ok, idx_0, bind_Ok. unfold Cry. rewrite unpack_comp, bind_Ok.
    rewrite <- E1, (commit1_ok _ _ _ G1 N1), bind_Ok, msm2, bind_Ok. fold inp. fold Pi.
    match goal with |- context [ep_verify H _ (rg1 g) tr9 (cmp ?x) (cmp g0)] => destruct (zero_ep_ok (rg1 g) tr9 x g0) as [tr10 ->] end.
    - apply cancel_ry, N01.
    - rewrite bind_Ok. eexists. reflexivity.
  Qed.

  Lemma api_nizk_forged nc nv ni (A B C : list (nat * nat * bytes)) I stream (g : r1csgens G) (input : list K) (tr : log E) :
    (1 <= nc)%nat -> instance_new parse digest_of nc nv ni A B C = Ok I -> length input = ni -> nizkgens_new nv ni stream = Ok g ->
    let b := Nat.log2_up (next_pow2 (Nat.max nv (ni + 1))) in
    (b - b / 2 < 32)%nat ->
    exists pf, unless H "challenge_nextround" 1 1 (unless H "u" 0 (b - b / 2) (exists tr', nizk_verify H pf I input tr g = Ok tr')).
  Proof.
    intros Hn HI Li Hg b Hb. destruct (new_sized _ _ _ _ _ _ _ _ _ _ _ _ HI) as (Sz & Ei & Ev & W & Ec).
    rewrite pad_vars_eq in Sz, Ev. fold b in Sz. set (a := Nat.log2_up (pad_cons nc)) in *.
    assert (Ha : (1 <= a)%nat).
    { destruct (pad_cons_spec nc) as (_ & _ & X & _). specialize (X Hn). unfold a. change 1%nat with (Nat.log2_up 2). apply Nat.log2_up_le_mono, X. }
    unfold nizkgens_new in Hg. rewrite pad_vars_eq in Hg. rewrite <- Ev, (sz_vars _ _ _ Sz) in Hg.
    set (tr0 := MRaw "R1CSInstanceDigest" (idigest I) :: proto "Spartan NIZK proof" tr).
    set (ev := fun rx ry => match r1cs_evaluate (inst I) rx ry with Ok e => e | _ => (0, 0, 0) end).
    destruct (r1cs_forged a b input stream g tr0 ev Ha Hb) as (Cry & rx & ry & Lx & Ly & U).
    { rewrite Li, <- Ei. apply Sz. } { exact Hg. }
    exists (forged_nizk a b Cry rx ry). refine (unless_mono H _ _ _ _ _ _ U). intro U2. refine (unless_mono H _ _ _ _ _ _ U2). intros [tr' V].
    unfold nizk_verify. fold tr0. cbn [nz_rx nz_ry forged_nizk]. unfold ev in V. rewrite (r1cs_evaluate_ok _ a b rx ry Sz Lx Ly) in *. cbn [bind].
    rewrite Li, Ei, Nat.eqb_refl, (sz_vars _ _ _ Sz), (sz_cons _ _ _ Sz), V. cbn [bind]. rewrite !veqb_refl. eexists. reflexivity.
  Qed.

  (** * aborts *)
  Lemma api_panic_points nc nv ni (A B C : list (nat * nat * bytes)) I (g : r1csgens G) (input : list K) (tr : log E) pf :
    instance_new parse digest_of nc nv ni A B C = Ok I ->
    (rc_cons (inst I) <> 2 ^ length (nz_rx pf) \/ 2 * rc_vars (inst I) <> 2 ^ length (nz_ry pf))%nat ->
    nizk_verify H pf I input tr g = Panic.
  Proof.
    intros HI N. destruct (new_sized _ _ _ _ _ _ _ _ _ _ _ _ HI) as (Sz & Ei & Ev & W & Ec). destruct Sz as [c1 c2 _ (x1 & y1 & _) _ _].
    unfold nizk_verify, r1cs_evaluate, multi_evaluate. cbn [mapM]. unfold evaluate_with_tables at 1. rewrite !eq_evals_length, x1, y1. unfold pow2.
    rewrite <- c1. replace (2 ^ S _)%nat with (2 * rc_vars (inst I))%nat by (rewrite c2, pow2_S; lia).
    destruct (Nat.eqb_spec (rc_cons (inst I)) (2 ^ length (nz_rx pf))) as [E1|]; [|reflexivity].
    destruct (Nat.eqb_spec (2 * rc_vars (inst I)) (2 ^ length (nz_ry pf))) as [E2|]; [|reflexivity]. destruct N; contradiction.
  Qed.
  Lemma api_panic_inputs nc nv ni (A B C : list (nat * nat * bytes)) I (g : r1csgens G) (input : list K) (tr : log E) pf :
    instance_new parse digest_of nc nv ni A B C = Ok I -> length input <> ni -> nizk_verify H pf I input tr g = Panic.
  Proof.
    intros HI N. pose proof HI as HI'. apply new_sized in HI'. destruct HI' as (Sz & Ei & Ev & W & Ec).
    pose proof (api_panic_points _ _ _ _ _ _ I g input tr pf HI) as P.
    destruct (Nat.eq_dec (rc_cons (inst I)) (2 ^ length (nz_rx pf))) as [X|X]; [|apply P; left; exact X].
    destruct (Nat.eq_dec (2 * rc_vars (inst I)) (2 ^ length (nz_ry pf))) as [Y|Y]; [|apply P; right; exact Y].
    unfold nizk_verify. rewrite (api_new_evaluate _ _ _ _ _ _ _ _ _ _ _ _ (nz_rx pf) (nz_ry pf) HI X Y). cbn [bind]. rewrite Ei.
    destruct (Nat.eqb_spec (length input) ni); [contradiction|reflexivity].
  Qed.
  Lemma r1cs_abort (pf : r1csproof E) nv nc (input : list K) evals tr (g : r1csgens G) r cry lp' :
    r1cs_verify H pf nv nc input evals tr g = Ok r ->
    (forall t ry, (exists t', pe_verify H (rp_eval pf) (rgpc g) t ry (rp_comm_ry pf) (rp_comm_vars pf) = Ok t') ->
       pe_verify H lp' (rgpc g) t ry cry (rp_comm_vars pf) = Panic) ->
    r1cs_verify H (MkRP (rp_comm_vars pf) (rp_sc1 pf) (rp_claims pf) (rp_pok pf) (rp_prod pf) (rp_eq1 pf) (rp_sc2 pf) cry lp' (rp_eq2 pf)) nv nc input evals tr g = Panic.
  Proof.
    intros X P. unfold r1cs_verify in *. cbn [rp_comm_vars rp_sc1 rp_claims rp_pok rp_prod rp_eq1 rp_sc2 rp_comm_ry rp_eval rp_eq2].
    repeat match type of X with
    | bind (pe_verify _ _ _ _ _ _ _) _ = _ => fail 1
    | bind ?c _ = _ => let N := fresh "R" in destruct c eqn:N; rewrite ?bind_Ok in *; [|discriminate X|discriminate X]
    | (if ?b then _ else _) = _ => destruct b; [|discriminate X]
    | (let '(_, _) := ?p in _) = _ => destruct p
    end.
    rewrite P; [reflexivity|]. destruct (pe_verify H (rp_eval pf) _ _ _ _ _); try discriminate X. eexists. reflexivity.
  Qed.
  Lemma nizk_abort pf (I : instance K (list nat)) input tr (g : r1csgens G) tr' cry lp' :
    nizk_verify H pf I input tr g = Ok tr' ->
    (forall t ry, (exists t', pe_verify H (rp_eval (nz_proof pf)) (rgpc g) t ry (rp_comm_ry (nz_proof pf)) (rp_comm_vars (nz_proof pf)) = Ok t') ->
       pe_verify H lp' (rgpc g) t ry cry (rp_comm_vars (nz_proof pf)) = Panic) ->
    nizk_verify H (with_eval pf cry lp') I input tr g = Panic.
  Proof.
    intros X P. unfold nizk_verify, with_eval in *. cbn [nz_rx nz_ry nz_proof]. destruct (r1cs_evaluate _ _ _); [|discriminate X|discriminate X]. rewrite bind_Ok in *.
    destruct (Nat.eqb _ _); [|discriminate X]. destruct (r1cs_verify H (nz_proof pf) _ _ _ _ _ _) eqn:V; [|discriminate X|discriminate X].
    erewrite r1cs_abort; [reflexivity|exact V|exact P].
  Qed.
  Lemma scale_no_err (g : gens G) (x : K) e : gens_scale g x <> Err e.
  Proof.
    unfold gens_scale. generalize (seq 0 (gn g)). intro l. assert (X : forall l e, mapM (fun i => do y <- idx (gG g) i; Ok (gmul x y)) l <> Err e).
    { clear. induction l as [|i l IH]; intro e; [discriminate|]. cbn [mapM]. unfold idx at 1. destruct (nth_error (gG g) i); cbn [of_opt bind]; [|discriminate].
      specialize (IH e). destruct (mapM _ l); cbn [bind]; congruence. }
    specialize (X l e). destruct (mapM _ l); cbn [bind]; congruence.
  Qed.
  Lemma api_panic_undecodable pf (I : instance K (list nat)) input tr (g : r1csgens G) tr' c :
    nizk_verify H pf I input tr g = Ok tr' -> decompress E c = None -> nizk_verify H (with_comm_ry pf c) I input tr g = Panic.
  Proof.
    intros X D. apply (nizk_abort _ _ _ _ _ _ _ _ X). intros t ry [t' V]. unfold pe_verify in *. destruct (compute_factored_evals ry) as [L R].
    destruct (mapM unpack _); [|discriminate V|discriminate V]. rewrite bind_Ok in *. destruct (msm L a); [|discriminate V|discriminate V]. rewrite bind_Ok in *. clear V.
    unfold lp_verify in *. destruct (Nat.eqb _ _); [|reflexivity]. destruct (Nat.eqb _ _); [|reflexivity]. cbn [challenge] in *.
    destruct (gens_scale (dg1 (rgpc g)) _) eqn:Eg; cbn [bind]; [|now apply scale_no_err in Eg|reflexivity].
    rewrite unpack_comp. cbn [bind]. unfold unpack. rewrite D. reflexivity.
  Qed.
  Lemma gmul_nz (x : K) (h : G) : x <> 0 -> h <> g0 -> gmul x h <> g0.
  Proof.
    intros N Nh Q. apply Nh. transitivity (gmul (finv x * x) h); [module_red; field; exact N|].
    transitivity (gmul (finv x) (gmul x h)); [module_red; ring|]. rewrite Q. module_red; ring.
  Qed.
  Lemma api_panic_scalar pf (I : instance K (list nat)) input tr (g : r1csgens G) tr' z :
    nizk_verify H pf I input tr g = Ok tr' -> gh (dg1 (rgpc g)) <> g0 -> z <> lp_z2 (rp_eval (nz_proof pf)) -> nizk_verify H (with_z2 pf z) I input tr g = Panic.
  Proof.
    intros X Nh Nz. apply (nizk_abort _ _ _ _ _ _ _ _ X). intros t ry [t' V]. unfold pe_verify in *. destruct (compute_factored_evals ry) as [L R].
    destruct (mapM unpack _); [|discriminate V|discriminate V]. rewrite bind_Ok in *. destruct (msm L a); [|discriminate V|discriminate V]. rewrite bind_Ok in *.
    unfold lp_verify in *. destruct (Nat.eqb _ _); [|reflexivity]. destruct (Nat.eqb _ _); [|reflexivity]. cbn [challenge lp_bullet lp_delta lp_beta lp_z1 lp_z2] in *.
    destruct (gens_scale (dg1 (rgpc g)) _) as [gs| |] eqn:Eg; [|discriminate V|discriminate V]. rewrite bind_Ok in *.
    assert (Egh : gh gs = gh (dg1 (rgpc g))).
    { revert Eg. unfold gens_scale. clear. destruct (mapM _ _); try discriminate. intro Q. injection Q as <-. reflexivity. }
    rewrite unpack_comp, bind_Ok in *. destruct (unpack (rp_comm_ry (nz_proof pf))); [|discriminate V|discriminate V]. rewrite bind_Ok in *.
    destruct (bullet_verify H _ _ _ _ _ _) as [[[[gh' Gh] ah] tr2]| |]; [|discriminate V|discriminate V]. rewrite bind_Ok in *. cbv iota in *.
    destruct (unpack (lp_beta _)); [|discriminate V|discriminate V]. rewrite bind_Ok in *. destruct (unpack (lp_delta _)); [|discriminate V|discriminate V]. rewrite bind_Ok in *.
    destruct (idx (gG gs) 0); [|discriminate V|discriminate V]. rewrite bind_Ok in *.
    match type of V with (if ?b then _ else _) = _ => destruct b eqn:E1; [|discriminate V] end.
    match goal with |- (if ?b then _ else _) = _ => destruct b eqn:E2; [|reflexivity] end. exfalso.
    apply eeqb_comp in E1. apply eeqb_comp in E2. rewrite E1 in E2. rewrite Egh in E2.
    apply gadd_cancel_l in E2. apply (gmul_nz (lp_z2 (rp_eval (nz_proof pf)) - z) (gh (dg1 (rgpc g)))); [|exact Nh|].
    - rewrite (fsub_eq_0 K). congruence.
    - transitivity (gadd (gmul (lp_z2 (rp_eval (nz_proof pf))) (gh (dg1 (rgpc g)))) (gopp (gmul z (gh (dg1 (rgpc g)))))); [module_red; ring|]. rewrite E2. module_red; ring.
  Qed.
End A.

(** * what the final transcript determines *)
Section Bind.
  Context {K : Fld} {G : Mod K} {E : Enc G}.
  Variable H : log E -> K.
  Local Open Scope fld_scope.
  Definition ext (t tr : log E) : Prop := exists s, t = s ++ tr.
  Lemma ext_refl t : ext t t.
  Proof. now exists []. Qed.
  Lemma ext_cons m t tr : ext t tr -> ext (m :: t) tr.
  Proof. intros [s ->]. now exists (m :: s). Qed.
  Lemma ext_trans a b c : ext a b -> ext b c -> ext a c.
  Proof. intros [s ->] [s' ->]. exists (s ++ s'). now rewrite app_assoc. Qed.
  Lemma ext_scalars l xs t tr : ext t tr -> ext (app_scalars l xs t) tr.
  Proof. intros [s ->]. unfold app_scalars. eexists (_ :: rev _ ++ _ :: s). cbn [app]. f_equal. rewrite <- app_assoc. reflexivity. Qed.
  Lemma ext_challenges l n : forall t tr xs t', challenges H l n t = (xs, t') -> ext t tr -> ext t' tr.
  Proof.
    induction n as [|n IH]; intros t tr xs t' X; cbn [challenges challenge] in X; [injection X as _ <-; auto|].
    destruct (challenges H l n _) as [ys t''] eqn:Ec. injection X as _ <-. intro Y. apply (IH _ _ _ _ Ec). apply ext_cons, Y.
  Qed.
  Ltac ext1 := first [apply ext_refl | apply ext_scalars | apply ext_cons].
  Ltac exts := repeat ext1.
  Lemma kp_ext pf g tr C t : kp_verify H pf g tr C = Ok t -> ext t tr.
  Proof. unfold kp_verify, challenge. intro X. run X. injection X as <-. exts. Qed.
  Lemma ep_ext pf g tr C1 C2 t : ep_verify H pf g tr C1 C2 = Ok t -> ext t tr.
  Proof. unfold ep_verify, challenge. intro X. run X. injection X as <-. exts. Qed.
  Lemma pp_ext pf g tr A B C t : pp_verify H pf g tr A B C = Ok t -> ext t tr.
  Proof. unfold pp_verify, challenge. intro X. run X. injection X as <-. exts. Qed.
  Lemma dp_ext pf g1 gN tr a Cx Cy t : dp_verify H pf g1 gN tr a Cx Cy = Ok t -> ext t tr.
  Proof. unfold dp_verify, challenge. intro X. run X. injection X as <-. exts. Qed.
  Lemma zkr_ext ps : forall es pfs c d g1 gN tr r t, zk_rounds H ps es pfs c d g1 gN tr = Ok (r, t) -> ext t tr.
  Proof.
    induction ps as [|p ps IH]; intros es pfs c d g1 gN tr r t X; cbn [zk_rounds challenge] in X; [injection X as _ <-; apply ext_refl|].
    run X. match type of X with context [dp_verify H ?a ?b ?c0 ?d0 ?e ?f ?h] => destruct (dp_verify H a b c0 d0 e f h) eqn:Ed; try discriminate X end.
    run X. injection X as _ <-. eapply ext_trans; [eapply IH; eassumption|]. eapply ext_trans; [eapply dp_ext, Ed|]. exts.
  Qed.
  Lemma zk_ext pf c n d g1 gN tr e r t : zk_verify H pf c n d g1 gN tr = Ok (e, r, t) -> ext t tr.
  Proof. unfold zk_verify. intro X. run X. injection X as _ _ <-. eapply zkr_ext; eassumption. Qed.
  Lemma bc_ext LR : forall tr us t, bullet_challenges H LR tr = (us, t) -> ext t tr.
  Proof.
    induction LR as [|[L R] LR IH]; intros tr us t X; cbn [bullet_challenges challenge] in X; [injection X as _ <-; apply ext_refl|].
    destruct (bullet_challenges H LR _) as [us' t'] eqn:Eb. injection X as _ <-. eapply ext_trans; [eapply IH, Eb|]. exts.
  Qed.
  Lemma pe_ext pf g tr r CZ C t : pe_verify H pf g tr r CZ C = Ok t -> ext t tr.
  Proof.
    unfold pe_verify. intro X. run X. unfold lp_verify, challenge in X. run X. injection X as <-. exts.
    match goal with N : bullet_verify _ _ _ _ _ _ _ = Ok _ |- _ => unfold bullet_verify in N; run N; injection N as _ _ _ <- end.
    match goal with N : verification_scalars _ _ _ _ = Ok _ |- _ => unfold verification_scalars in N end.
    match goal with N : (if ?b then _ else _) = Ok (_, _, _, _) |- _ => destruct b; [discriminate N|]; destruct (negb _); [discriminate N|] end.
    match goal with N : (let '(_, _) := ?p in _) = Ok (_, _, _, _) |- _ => destruct p eqn:Ebc; run N; injection N as _ _ _ <- end.
    eapply ext_trans; [eapply bc_ext, Ebc|]. exts.
  Qed.
  Lemma r1cs_ext pf nv nc input ev tr (g : r1csgens G) rx ry t : r1cs_verify H pf nv nc input ev tr g = Ok (rx, ry, t) ->
    ext t (app_commitment "poly_commitment" (rp_comm_vars pf) (app_scalars "input" input (proto "R1CS proof" tr))).
  Proof.
    unfold r1cs_verify. intro X.
    repeat match type of X with
      | bind ?c _ = _ => let N := fresh "R" in destruct c eqn:N; rewrite ?bind_Ok in *; [|discriminate X|discriminate X]
      | (if ?b then _ else _) = _ => destruct b; [|discriminate X]
      | (let '(_, _) := ?p in _) = _ => destruct p eqn:?
      end.
    injection X as _ _ <-. unfold challenge in *.
    repeat match goal with N : (_, _) = (_, _) |- _ => injection N as <- <- end.
    repeat first [ext1
      | match goal with
        | N : ep_verify H _ _ _ _ _ = Ok ?t |- ext ?t _ => eapply ext_trans; [exact (ep_ext _ _ _ _ _ _ N)|]
        | N : pe_verify H _ _ _ _ _ _ = Ok ?t |- ext ?t _ => eapply ext_trans; [exact (pe_ext _ _ _ _ _ _ _ N)|]
        | N : zk_verify H _ _ _ _ _ _ _ = Ok (_, _, ?t) |- ext ?t _ => eapply ext_trans; [exact (zk_ext _ _ _ _ _ _ _ _ _ _ N)|]
        | N : kp_verify H _ _ _ _ = Ok ?t |- ext ?t _ => eapply ext_trans; [exact (kp_ext _ _ _ _ _ N)|]
        | N : pp_verify H _ _ _ _ _ _ = Ok ?t |- ext ?t _ => eapply ext_trans; [exact (pp_ext _ _ _ _ _ _ _ N)|]
        | N : challenges H _ _ _ = (_, ?t) |- ext ?t _ => eapply (ext_challenges _ _ _ _ _ _ N)
        end ].
  Qed.
  Lemma map_sep {A} (f : A -> msg E) (m : msg E) : (forall x y, f x = f y -> x = y) -> (forall x, f x <> m) -> forall xs ys r r',
    map f xs ++ m :: r = map f ys ++ m :: r' -> xs = ys /\ r = r'.
  Proof.
    intros Inj Nm. induction xs as [|x xs IH]; intros [|y ys] r r' X; cbn [map app] in X.
    - now injection X.
    - injection X as X _. symmetry in X. now apply Nm in X.
    - injection X as X _. now apply Nm in X.
    - injection X as X Y. apply Inj in X. apply IH in Y. destruct Y as [-> ->]. now subst.
  Qed.
  Lemma api_absorbed pf pf' (I I' : instance K (list nat)) input input' tr (g g' : r1csgens G) t :
    nizk_verify H pf I input tr g = Ok t -> nizk_verify H pf' I' input' tr g' = Ok t ->
    idigest I = idigest I' /\ input = input' /\ rp_comm_vars (nz_proof pf) = rp_comm_vars (nz_proof pf').
  Proof.
    assert (P : forall pf (I : instance K (list nat)) input (g : r1csgens G), nizk_verify H pf I input tr g = Ok t -> exists r,
      rev t = rev tr ++ MText "protocol-name" "Spartan NIZK proof" :: MRaw "R1CSInstanceDigest" (idigest I) :: MText "protocol-name" "R1CS proof" ::
        MText "input" "begin_append_vector" :: map (MScalar "input") input ++ MText "input" "end_append_vector" ::
        MText "poly_commitment" "poly_commitment_begin" :: map (MPoint "poly_commitment_share") (rp_comm_vars (nz_proof pf)) ++ MText "poly_commitment" "poly_commitment_end" :: r).
    { clear. intros pf I input g X. unfold nizk_verify in X. destruct (r1cs_evaluate _ _ _); [|discriminate X|discriminate X]. rewrite bind_Ok in X.
      destruct (Nat.eqb _ _); [|discriminate X]. destruct (r1cs_verify _ _ _ _ _ _ _ _) as [[[rx ry] t']| |] eqn:V; [|discriminate X|discriminate X]. rewrite bind_Ok in X.
      destruct (veqb _ _); [|discriminate X]. destruct (veqb _ _); [|discriminate X]. injection X as ->.
      apply r1cs_ext in V. destruct V as [s ->]. exists (rev s). unfold app_commitment, app_scalars, proto.
      rewrite rev_app_distr. cbn [rev]. rewrite !rev_app_distr. cbn [rev]. rewrite !rev_app_distr, !rev_involutive. cbn [rev].
      rewrite <- !app_assoc. cbn [app]. rewrite <- ?app_assoc. cbn [app]. reflexivity. }
    intros X Y. apply P in X. apply P in Y. destruct X as [r X]. destruct Y as [r' Y]. rewrite X in Y. apply app_inv_head in Y.
    injection Y as Yd Y. split; [exact Yd|]. apply map_sep in Y; [|congruence|discriminate]. destruct Y as [-> Y]. injection Y as Y.
    apply map_sep in Y; [|congruence|discriminate]. destruct Y as [-> _]. split; reflexivity.
  Qed.
End Bind.

(** * examples: one constraint x * x = y with public y, and an unsatisfiable one *)
Definition nzA : list (nat * nat * Z) := [(0, 0, 1%Z)]%nat.
Definition nzC : list (nat * nat * Z) := [(0, 2, 1%Z)]%nat.
Definition nzK : list (nat * nat * Z) := [(0, 1, 1%Z)]%nat.
Definition nz_run (A B C : list (nat * nat * Z)) (vars input : list Fp) (input' : list Fp) : res unit :=
  do ii <- instance_new zparse (fun _ => [1; 2; 3]%nat) 1 1 1 A B C;
  do g <- nizkgens_new 1 1 exStream;
  do p <- nizk_prove (E:=exE) exH ii vars input g (fp 17) [];
  let '(pf, tr) := p in do tr' <- nizk_verify exH pf ii input' [] g; assert (Nat.eqb (length tr) (length tr')); Ok tt.
Lemma unless_const {K : Fld} {G : Mod K} {E : Enc G} lb (x v : K) k P : x <> v -> unless (E:=E) (fun _ => x) lb v k P -> P.
Proof. intros N (ls & _ & _ & F). apply F. intros _ _. exact N. Qed.
Definition nz_unsat : res (instance Fp (list nat)) := instance_new zparse (fun _ => [1; 2; 3]%nat) 1 1 1 nzK nzK [].
Lemma fp5 : fp 5 <> f0 /\ fp 5 <> f1.
Proof. split; intro X; apply (f_equal zval) in X; vm_compute in X; discriminate. Qed.
Lemma unsat11 {K : Fld} : ((1 * 1 + 0) * (1 * 1 + 0) <> (0 : K))%fld.
Proof. intro X. apply (f1_neq_0 K). rewrite <- X. pose proof (fth K) as T. destruct T as [R _ _ _]. rewrite (Radd_comm R (1 * 1)%fld), (Radd_0_l R), !(Rmul_1_l R). reflexivity. Qed.
Lemma case31 : exists ii g, nz_unsat = Ok ii /\ nizkgens_new 1 1 exStream = Ok g /\
  (forall vars input, instance_is_sat ii vars input <> Ok true) /\
  (forall y, exists pf tr', nizk_verify (E:=exE) (fun _ => fp 5) pf ii [y] [] g = Ok tr').
Proof.
  assert (TK : triples_ok zparse 1 1 1 nzK [(0%nat, 1%nat, fp 1)]) by (constructor; [split; [reflexivity|split; [zqs|split; cbn; lia]]|constructor]).
  assert (T0 : triples_ok zparse 1 1 1 [] []) by constructor.
  destruct (api_is_sat Fp Z zparse (list nat) (fun _ => [1; 2; 3]%nat) 1 1 1 nzK nzK [] _ _ _ TK TK T0) as (ii & Ei & Hs).
  assert (Og : is_ok (nizkgens_new (G:=exG) 1 1 exStream) = true) by (vm_compute; reflexivity). apply is_ok_ex in Og. destruct Og as [g Eg].
  exists ii, g. split; [exact Ei|]. split; [exact Eg|]. split.
  - intros vars input X. specialize (Hs vars input). rewrite X in Hs. destruct (_ && _); [|discriminate].
    destruct Hs as (b & Eb & Hb). injection Eb as <-. destruct Hb as [Hb _]. specialize (Hb eq_refl 0%nat ltac:(lia)).
    unfold row_val in Hb. cbn [map Nat.eqb fsum fold_right] in Hb.
    assert (N1 : nth 1 (fit 1 vars ++ [f1] ++ input) f0 = (f1 : Fp)).
    { rewrite app_nth2 by (rewrite fit_length; lia). rewrite fit_length. reflexivity. }
    rewrite N1 in Hb. revert Hb. exact unsat11.
  - intro y. destruct fp5 as [N0 N1].
    destruct (api_nizk_forged (E:=exE) (fun _ => fp 5) Z zparse (fun _ => [1; 2; 3]%nat) 1 1 1 nzK nzK [] ii exStream g [y] [] ltac:(lia) Ei eq_refl Eg) as [pf U]; [cbn; lia|].
    exists pf. apply unless_const in U; [|exact N1]. apply unless_const in U; [exact U|exact N0].
Qed.

Lemma succ_neq (K : Fld) (z : K) : (z + 1)%fld <> z.
Proof.
  intro X. apply (f1_neq_0 K). pose proof (proj2 (fsub_eq_0 K _ _) X) as Y. rewrite <- Y. destruct (fth K) as [R _ _ _].
  rewrite (Rsub_def R), (Radd_comm R z 1%fld), <- (Radd_assoc R), (Ropp_def R), (Radd_comm R), (Radd_0_l R). reflexivity.
Qed.

Lemma case32 : exists ii g pf tr', nz_unsat = Ok ii /\ nizk_verify (E:=exE) (fun _ => fp 5) pf ii [fp 3] [] g = Ok tr' /\
  CommitModel.decompress exE None = None /\ gh (dg1 (rgpc g)) <> g0 /\
  nizk_verify (fun _ => fp 5) (with_comm_ry pf None) ii [fp 3] [] g = Panic /\
  nizk_verify (fun _ => fp 5) (with_z2 pf (lp_z2 (rp_eval (nz_proof pf)) + 1)%fld) ii [fp 3] [] g = Panic /\
  nizk_verify (fun _ => fp 5) pf ii [] [] g = Panic /\
  nizk_verify (fun _ => fp 5) (MkNizk (nz_proof pf) [] (nz_ry pf)) ii [fp 3] [] g = Panic.
Proof.
  destruct case31 as (ii & g & Ei & Eg & _ & F). destruct (F (fp 3)) as (pf & tr' & V). exists ii, g, pf, tr'.
  assert (Nh : gh (dg1 (rgpc g)) <> g0).
  { assert (X : (do h <- nizkgens_new (G:=exG) 1 1 exStream; Ok (geqb (gh (dg1 (rgpc h))) g0)) = Ok false) by (vm_compute; reflexivity).
    rewrite Eg in X. cbn [bind] in X. injection X as X. intro Q. pose proof (proj2 (geqb_true exG _ _) Q) as Y. discriminate (eq_trans (eq_sym Y) X). }
  split; [exact Ei|]. split; [exact V|]. split; [reflexivity|]. split; [exact Nh|]. split; [|split; [|split]].
  - eapply api_panic_undecodable; [exact V|reflexivity].
  - eapply api_panic_scalar; [exact V|exact Nh|]. apply succ_neq.
  - eapply api_panic_inputs; [exact Ei|discriminate].
  - eapply api_panic_points; [exact Ei|]. left. apply new_sized in Ei. destruct Ei as (_ & _ & _ & _ & ->). cbn. discriminate.
Qed.
