(** C62 and C63: statements. *)
From Coq Require Import String List Arith ZArith Lia Bool Field Ring.
From Verif Require Import Base ListAux Field Zq Vec MathModel PolyModel PolySpec PolyProofs PolyImp CommitModel CommitSpec CommitProofs SigmaModel SigmaApi BulletProofs LogProofs SumModel SumApi R1csModel R1csSpec R1csProofs R1csApi ProdModel ProdSpec ProdProofs ProdBatch NizkModel NizkSpec NizkProofs NizkApi SparModel SparSpec SparMem SparOpen SparNet SparTab SparProofs SparSound SparApi SnarkModel SnarkSpec.
Import ListNotations.

Lemma Forall2_len {A B} (R : A -> B -> Prop) l m : Forall2 R l m -> length l = length m.
Proof. induction 1; cbn; congruence. Qed.

Section Sizes.
  Context {K : Fld}.
  Variable bytes : Type.
  Variable parse : bytes -> option K.
  Variable D : Type.
  Variable digest_of : r1cs K -> D.
  Lemma new_entries nc nv ni (A B C : list (nat * nat * bytes)) I : (1 <= nc)%nat -> instance_new parse digest_of nc nv ni A B C = Ok I ->
    max_entries [rc_A (inst I); rc_B (inst I); rc_C (inst I)] = most_entries nc A B C.
  Proof.
    intros Hn X.
    pose proof (to_scalars_err K bytes parse nc nv ni A) as EA'. pose proof (to_scalars_err K bytes parse nc nv ni B) as EB'.
    pose proof (to_scalars_err K bytes parse nc nv ni C) as EC'. pose proof (api_accepts K bytes parse D digest_of nc nv ni A B C) as Ha.
    destruct (first_bad parse nc nv ni A); [congruence|]. destruct (first_bad parse nc nv ni B); [congruence|].
    destruct (first_bad parse nc nv ni C); [congruence|]. destruct EA' as [VA EA']. destruct EB' as [VB EB']. destruct EC' as [VC EC'].
    destruct (instance_new_ok K bytes parse D digest_of _ _ _ _ _ _ _ _ _ EA' EB' EC') as (I' & E' & EI & _).
    rewrite X in E'. injection E' as <-. rewrite EI. unfold max_entries, most_entries, inst_of. cbn [map rc_A rc_B rc_C sM].
    assert (L : forall (T : list (nat * nat * bytes)) V, triples_ok parse nc nv ni T V -> length (map (to_entry K nv ni) V ++ pad_rows nc nv (length T)) = stored nc (length T)).
    { intros T V TV. apply Forall2_len in TV. rewrite app_length, map_length, <- TV. unfold pad_rows, stored. destruct nc as [|[|nc]]; [lia| |cbn [Nat.eqb orb length]; lia].
      cbn [Nat.eqb orb]. rewrite map_length, seq_length. change (pad_cons 1) with 2%nat. lia. }
    rewrite (L A VA EA'), (L B VB EB'), (L C VC EC'). reflexivity.
  Qed.
End Sizes.

Section A.
  Context {K : Fld} {G : Mod K} {E : Enc G}.
  Variable H : log E -> K.
  Add Field Ksn : (fth K).
  Local Open Scope fld_scope.
  Hypothesis two : (of_nat 2 : K) <> 0.
  Hypothesis three : (of_nat 3 : K) <> 0.
  Variable bytes : Type.
  Variable parse : bytes -> option K.
  Variable digest_of : r1cs K -> list nat.
  Local Notation mats I := [rc_A (inst I); rc_B (inst I); rc_C (inst I)].

  Lemma sgens_max x y x' y' nz k (stream : nat -> G) : Nat.max x y = Nat.max x' y' -> sgens_new x y nz k stream = sgens_new x' y' nz k stream.
  Proof.
    intro X. unfold sgens_new. assert (M : forall u v, (if Nat.ltb v u then u else v) = Nat.max u v) by (intros u v; destruct (Nat.ltb_spec v u); lia).
    rewrite !M, X. reflexivity.
  Qed.
  (** everything about sizes in one place *)
  Lemma snark_sizes nc nv ni (A B C : list (nat * nat * bytes)) (I : instance K (list nat)) (s1 s2 : nat -> G) (g : @snarkgens K G) nz :
    instance_new parse digest_of nc nv ni A B C = Ok I -> snarkgens_new nc nv ni nz s1 s2 = Ok g ->
    let b := Nat.log2_up (next_pow2 (Nat.max nv (ni + 1))) in (1 <= nc)%nat ->
    exists a, sized (inst I) a b /\ (1 <= a)%nat /\ rc_inputs (inst I) = ni /\ Nat.max a (S b) = Nat.max (Nat.log2_up nc) (S b) /\ a = Nat.max 1 (Nat.log2_up nc) /\
      r1cs_wf (inst I) /\ r1csgens_new (2 ^ b) s1 = Ok (sn_sat g) /\ sgens_new a (S b) nz 3 s2 = Ok (sn_eval g) /\
      (forall P, In P (mats I) -> shape a (S b) P) /\ max_entries (mats I) = most_entries nc A B C.
  Proof.
    intros HI Hg b Hn. destruct (new_sized _ _ _ _ _ _ _ _ _ _ _ _ HI) as (Sz & Ei & Ev & W & Ec).
    rewrite pad_vars_eq in Sz, Ev. fold b in Sz. set (a := Nat.log2_up (pad_cons nc)) in *.
    assert (Ha : a = Nat.max 1 (Nat.log2_up nc)).
    { unfold a. rewrite pad_cons_eq. destruct (Nat.eqb_spec nc 1) as [->|N]; [reflexivity|]. unfold next_pow2. rewrite Nat.log2_up_pow2 by lia.
      enough (1 <= Nat.log2_up nc)%nat by lia. change 1%nat with (Nat.log2_up 2). apply Nat.log2_up_le_mono. lia. }
    unfold snarkgens_new in Hg. rewrite pad_vars_eq in Hg. rewrite <- Ev, (sz_vars _ _ _ Sz) in Hg.
    destruct (r1csgens_new (2 ^ b) s1) as [g1| |] eqn:G1; try discriminate Hg. cbn [bind] in Hg. unfold cgens_new in Hg.
    destruct (Nat.ltb ni (2 ^ b)); [|discriminate Hg]. destruct nc as [|nc0]; [lia|]. cbn [log_2 bind] in Hg.
    replace (2 * 2 ^ b)%nat with (2 ^ S b)%nat in Hg by (rewrite pow2_S; lia). rewrite log_2_pow in Hg. cbn [bind] in Hg.
    rewrite (sgens_max _ _ a (S b)) in Hg by lia.
    destruct (sgens_new a (S b) nz 3 s2) as [g2| |] eqn:G2; try discriminate Hg. injection Hg as <-. cbn [sn_sat sn_eval].
    exists a. split; [exact Sz|]. split; [lia|]. split; [exact Ei|]. split; [lia|]. split; [exact Ha|]. split; [exact W|]. split; [first [exact G1|reflexivity]|]. split; [first [exact G2|reflexivity]|]. split.
    - intros P [<-|[<-|[<-|[]]]]; apply Sz.
    - eapply new_entries; [exact Hn|exact HI].
  Qed.
  Lemma mats_fit nc b (A B C : list (nat * nat * bytes)) (I : instance K (list nat)) nz a rx ry :
    snark_size nc b A B C nz -> (forall P, In P (mats I) -> shape a (S b) P) -> max_entries (mats I) = most_entries nc A B C -> a = Nat.max 1 (Nat.log2_up nc) ->
    length rx = a -> length ry = S b -> mats_ok (mats I) rx ry nz.
  Proof.
    intros (Z1 & Z2 & Z3 & Z4 & Z5 & Z6) SH ME Ea Lx Ly. unfold mats_ok. rewrite Lx, Ly, ME. split; [exact SH|]. split; [lia|]. split; [exact Z4|]. split; [exact Z5|exact Z6].
  Qed.
  Lemma eval_map (I : instance K (list nat)) a b rx ry : sized (inst I) a b -> length rx = a -> length ry = S b ->
    exists eA eB eC, r1cs_evaluate (inst I) rx ry = Ok (eA, eB, eC) /\ [eA; eB; eC] = map (fun P => mat_at P rx ry) (mats I).
  Proof.
    intros Sz Lx Ly. eexists _, _, _. split; [exact (r1cs_evaluate_ok _ a b rx ry Sz Lx Ly)|]. unfold mat_at. cbn [map]. rewrite Lx, Ly. reflexivity.
  Qed.

  (** parameters and the commitment exist *)
  Lemma api_snark_setup nc nv ni nz (A B C : list (nat * nat * bytes)) (I : instance K (list nat)) (s1 s2 : nat -> G) :
    (1 <= nc)%nat -> instance_new parse digest_of nc nv ni A B C = Ok I -> next_pow2 nz = next_pow2 (most_entries nc A B C) ->
    exists g comm d, snarkgens_new nc nv ni nz s1 s2 = Ok g /\ snark_encode H I g = Ok (comm, d) /\
      cm_cons comm = rc_cons (inst I) /\ cm_vars comm = rc_vars (inst I) /\ cm_inputs comm = ni.
  Proof.
    intros Hn HI NZ.
    assert (X : exists g, snarkgens_new nc nv ni nz s1 s2 = Ok g).
    { unfold snarkgens_new. destruct (pad_vars_spec nv ni) as (_ & V2 & V3). pose proof (log2_up_pow _ V3) as EV. rewrite EV.
      set (b := Nat.log2_up (pad_vars nv ni)) in *. unfold r1csgens_new. rewrite log_2_pow. cbn [bind]. unfold pcgens_new. rewrite dgens_new_ok. cbn [bind].
      unfold cgens_new. rewrite <- EV. replace (Nat.ltb ni (pad_vars nv ni)) with true by (symmetry; apply Nat.ltb_lt, V2). rewrite EV.
      destruct nc as [|nc0]; [lia|]. cbn [log_2 bind]. replace (2 * 2 ^ b)%nat with (2 ^ S b)%nat by (rewrite pow2_S; lia). rewrite log_2_pow. cbn [bind].
      unfold sgens_new. unfold next_pow2 at 1. rewrite log_2_pow. cbn [bind]. change (log_2 (next_pow2 (3 * 5))) with (Ok 4%nat). change (log_2 (next_pow2 (3 * 2))) with (Ok 3%nat). cbn [bind].
      unfold pcgens_new. rewrite !dgens_new_ok. cbn [bind]. eexists. reflexivity. }
    destruct X as (g & Hg). destruct (snark_sizes _ _ _ _ _ _ _ _ _ _ _ HI Hg Hn) as (a & Sz & Ha & Ei & Em & Ea & W & G1 & G2 & SH & ME).
    rewrite <- ME in NZ. destruct (api_gens_commit H _ _ _ _ _ _ s2 SH NZ) as (g2 & comm & d & G2' & MC & _).
    assert (g2 = sn_eval g) as -> by congruence. exists g, (MkRC (rc_cons (inst I)) (rc_vars (inst I)) (rc_inputs (inst I)) comm), d.
    split; [exact Hg|]. split; [|split; [reflexivity|split; [reflexivity|exact Ei]]]. unfold snark_encode, r1cs_commit. rewrite MC. reflexivity.
  Qed.

  Lemma api_snark_complete nc nv ni nz (A B C : list (nat * nat * bytes)) (I : instance K (list nat)) (s1 s2 : nat -> G) (g : @snarkgens K G) comm d (vars input : list K) (seed : K) (tr : log E) :
    let b := Nat.log2_up (next_pow2 (Nat.max nv (ni + 1))) in
    snark_size nc b A B C nz -> instance_new parse digest_of nc nv ni A B C = Ok I -> instance_is_sat I vars input = Ok true ->
    snarkgens_new nc nv ni nz s1 s2 = Ok g -> snark_encode H I g = Ok (comm, d) ->
    (forall pf tr', snark_prove H I comm d vars input g seed tr = Ok (pf, tr') -> snark_verify H pf comm input tr g = Ok tr') /\
    unless H "u" 0 (half_up b + openings (Nat.log2_up nz) (Nat.max (Nat.log2_up nc) (S b))) (exists r, snark_prove H I comm d vars input g seed tr = Ok r).
  Proof.
    intros b Z HI Hs Hg Hc. pose proof Z as (Hn & _ & Z3 & _).
    destruct (snark_sizes _ _ _ _ _ _ _ _ _ _ _ HI Hg Hn) as (a & Sz & Ha & Ei & Em & Ea & W & G1 & G2 & SH & ME). fold b in Sz, Em, G1, G2, SH.
    destruct (is_sat_inv I vars input W Hs) as (Lv & Li & Sat). rewrite (sz_cons _ _ _ Sz) in Sat.
    unfold snark_encode, r1cs_commit in Hc. destruct (multi_commit H (mats I) (sn_eval g)) as [[comm0 d0]| |] eqn:MC; try discriminate Hc. injection Hc as <- <-.
    unfold snark_prove, snark_verify. rewrite pad_fit by exact Lv. cbn [bind cm_inputs cm_vars cm_cons cm_comm]. set (tape := tape_new "proof" seed).
    set (tr0 := app_rcomm _ _).
    assert (Hb : (b - b / 2 < 32)%nat) by (pose proof (Nat.div_mod_eq b 2); pose proof (Nat.mod_upper_bound b 2); lia).
    pose proof (r1cs_complete H two three (inst I) a b (fit (rc_vars (inst I)) vars) input s1 (sn_sat g) tr0 tape Sz Ha Hb) as X.
    specialize (X ltac:(rewrite fit_length; apply Sz) Li G1 Sat). rewrite Li, Nat.eqb_refl.
    destruct (r1cs_prove H (inst I) (fit (rc_vars (inst I)) vars) input (sn_sat g) tr0 tape) as [[[[[pf rx] ry] tr1] tape1]|er|].
    - cbn [bind]. destruct X as (Lx & Ly & evals & Ee & Vf). destruct (eval_map I a b rx ry Sz Lx Ly) as (eA & eB & eC & Ee' & Em').
      rewrite Ee' in Ee. injection Ee as <-. rewrite Ee'. cbn [bind]. rewrite Em'. set (tr2 := app_scalar "Cr_claim" eC _).
      pose proof (api_spar_complete H two three _ _ _ rx ry nz s2 (sn_eval g) comm0 d0 tr2 tape1 (mats_fit nc b A B C I nz a rx ry Z SH ME Ea Lx Ly)) as Q.
      rewrite Lx, Ly in Q. destruct (Q G2 MC) as [Q1 Q2]. clear Q. split.
      + intros pf' tr'' R. destruct (spar_prove H d0 rx ry _ (sn_eval g) tr2 tape1) as [[[ep tr3] tape3]| |] eqn:SP; try discriminate R. cbn [bind] in R.
        injection R as <- <-. cbn [sn_proof sn_evals sn_evalproof]. rewrite Vf. cbn [bind]. fold tr2. rewrite Em'. exact (Q1 _ _ _ eq_refl).
      + rewrite <- Em. destruct Q2 as (ls & L1 & L2 & L3). exists (repeat [MChal "u"] (half_up b) ++ ls). split; [rewrite app_length, repeat_length, L1; reflexivity|]. split.
        * intros l J. apply in_app_or in J. destruct J as [J|J]; [|apply L2, J]. apply repeat_spec in J. exists []. exact J.
        * intro N. destruct L3 as ([[ep tr3] tp3] & ->); [intros l J; apply N; apply in_or_app; right; exact J|]. cbn [bind]. eexists. reflexivity.
    - split; [discriminate|]. destruct X as (ls & L1 & L2 & L3). exists (ls ++ repeat [MChal "u"] (openings (Nat.log2_up nz) (Nat.max (Nat.log2_up nc) (S b)))).
      split; [rewrite app_length, repeat_length, L1; reflexivity|]. split.
      + intros l J. apply in_app_or in J. destruct J as [J|J]; [apply L2, J|]. apply repeat_spec in J. exists []. exact J.
      + intro N. destruct L3. intros l J. apply N. apply in_or_app. left. exact J.
    - split; [discriminate|]. destruct X as (ls & L1 & L2 & L3). exists (ls ++ repeat [MChal "u"] (openings (Nat.log2_up nz) (Nat.max (Nat.log2_up nc) (S b)))).
      split; [rewrite app_length, repeat_length, L1; reflexivity|]. split.
      + intros l J. apply in_app_or in J. destruct J as [J|J]; [apply L2, J|]. apply repeat_spec in J. exists []. exact J.
      + intro N. destruct L3. intros l J. apply N. apply in_or_app. left. exact J.
  Qed.

  (** an accepted proof for every instance and every input *)
  Lemma api_snark_forged nc nv ni nz (A B C : list (nat * nat * bytes)) (I : instance K (list nat)) (s1 s2 : nat -> G) (g : @snarkgens K G) comm d (input : list K) (tr : log E) :
    let b := Nat.log2_up (next_pow2 (Nat.max nv (ni + 1))) in
    snark_size nc b A B C nz -> instance_new parse digest_of nc nv ni A B C = Ok I -> length input = ni ->
    snarkgens_new nc nv ni nz s1 s2 = Ok g -> snark_encode H I g = Ok (comm, d) ->
    unless H "challenge_nextround" 1 1 (unless H "u" 0 (half_up b + openings (Nat.log2_up nz) (Nat.max (Nat.log2_up nc) (S b)))
      (exists pf tr', snark_verify H pf comm input tr g = Ok tr')).
  Proof.
    intros b Z HI Li Hg Hc. pose proof Z as (Hn & _ & Z3 & _).
    destruct (snark_sizes _ _ _ _ _ _ _ _ _ _ _ HI Hg Hn) as (a & Sz & Ha & Ei & Em & Ea & W & G1 & G2 & SH & ME). fold b in Sz, Em, G1, G2, SH.
    unfold snark_encode, r1cs_commit in Hc. destruct (multi_commit H (mats I) (sn_eval g)) as [[comm0 d0]| |] eqn:MC; try discriminate Hc. injection Hc as <- <-.
    unfold snark_verify. cbn [cm_inputs cm_vars cm_cons cm_comm]. set (tr0 := app_rcomm _ _).
    assert (Hb : (b - b / 2 < 32)%nat) by (pose proof (Nat.div_mod_eq b 2); pose proof (Nat.mod_upper_bound b 2); lia).
    set (ev := fun rx ry => match r1cs_evaluate (inst I) rx ry with Ok e => e | _ => (0, 0, 0) end).
    destruct (r1cs_forged H a b input s1 (sn_sat g) tr0 ev Ha Hb) as (Cry & rx & ry & Lx & Ly & U).
    { rewrite Li, <- Ei. apply Sz. } { exact G1. }
    refine (unless_mono H _ _ _ _ _ _ U). clear U. intros (ls & L1 & L2 & L3).
    destruct (eval_map I a b rx ry Sz Lx Ly) as (eA & eB & eC & Ee & Em'). unfold ev in L3. rewrite Ee in L3.
    rewrite Li, Ei, Nat.eqb_refl. rewrite <- (sz_vars _ _ _ Sz), <- (sz_cons _ _ _ Sz) in L3.
    destruct (r1cs_verify H (nz_proof (forged_nizk a b Cry rx ry)) (rc_vars (inst I)) (rc_cons (inst I)) input (eA, eB, eC) tr0 (sn_sat g)) as [[[rx' ry'] tr1]|er|] eqn:RV.
    - set (tr2 := app_scalar "Cr_claim" eC (app_scalar "Br_claim" eB (app_scalar "Ar_claim" eA tr1))).
      pose proof (api_spar_complete H two three _ _ _ rx ry nz s2 (sn_eval g) comm0 d0 tr2 tr2 (mats_fit nc b A B C I nz a rx ry Z SH ME Ea Lx Ly)) as Q.
      rewrite Lx, Ly, Em in Q. destruct (Q G2 MC) as [Q1 (ls2 & K1 & K2 & K3)]. clear Q. exists (ls ++ ls2). split; [rewrite app_length, L1, K1; reflexivity|]. split.
      + intros l J. apply in_app_or in J. destruct J as [J|J]; [apply L2, J|apply K2, J].
      + intro N. destruct L3 as (trx & Q); [intros l J; apply N; apply in_or_app; left; exact J|]. injection Q as -> -> <-.
        destruct K3 as ([[ep tr3] tp3] & SP); [intros l J; apply N; apply in_or_app; right; exact J|].
        exists (MkSnark (nz_proof (forged_nizk a b Cry rx ry)) (eA, eB, eC) ep), tr3. cbn [sn_proof sn_evals sn_evalproof]. rewrite RV. cbn [bind]. fold tr2. rewrite Em'. exact (Q1 _ _ _ SP).
    - exists (ls ++ repeat [MChal "u"] (openings (Nat.log2_up nz) (Nat.max (Nat.log2_up nc) (S b)))). split; [rewrite app_length, repeat_length, L1; reflexivity|]. split.
      + intros l J. apply in_app_or in J. destruct J as [J|J]; [apply L2, J|]. apply repeat_spec in J. exists []. exact J.
      + intro N. destruct L3 as (trx & Q); [intros l J; apply N; apply in_or_app; left; exact J|discriminate Q].
    - exists (ls ++ repeat [MChal "u"] (openings (Nat.log2_up nz) (Nat.max (Nat.log2_up nc) (S b)))). split; [rewrite app_length, repeat_length, L1; reflexivity|]. split.
      + intros l J. apply in_app_or in J. destruct J as [J|J]; [apply L2, J|]. apply repeat_spec in J. exists []. exact J.
      + intro N. destruct L3 as (trx & Q); [intros l J; apply N; apply in_or_app; left; exact J|discriminate Q].
  Qed.

  (** a wrong number of public inputs *)
  Lemma api_snark_inputs (pf : snark) (comm : rcomm) (input : list K) (tr : log E) g : length input <> cm_inputs comm -> snark_verify H pf comm input tr g = Panic.
  Proof. intro N. unfold snark_verify. destruct (Nat.eqb_spec (length input) (cm_inputs comm)); [contradiction|reflexivity]. Qed.

  (** ** public parameters made for another number of entries *)
  Lemma commit_sized (d : dense K) (g : dgens G) n stream x : pcgens_new n stream = Ok g -> poly_commit H d g None = Ok x -> half_up (dnum_vars d) = half_up n.
  Proof.
    unfold pcgens_new, poly_commit. rewrite dgens_new_ok. unfold compute_factored_lens at 1 2 3 4. cbn [snd]. unfold half_up at 2. set (h := (n - n / 2)%nat). intro Q. injection Q as <-. cbn [dgN].
    destruct (Nat.eqb_spec (length (dZ d)) (pow2 (dnum_vars d))) as [LZ|]; [|discriminate]. unfold compute_factored_lens. cbn [snd].
    set (l := dnum_vars d) in *. destruct (Nat.eqb_spec (pow2 (l / 2) * pow2 (l - l / 2)) (length (dZ d))) as [LR|]; [|discriminate].
    unfold commit_inner. rewrite repeat_length. unfold pow2 in *. assert (P : (0 < 2 ^ (l / 2))%nat) by (pose proof (Nat.pow_nonzero 2 (l / 2)); lia).
    destruct (Nat.ltb_spec 0 (2 ^ (l / 2))); [|lia].
    assert (RS : (length (dZ d) / 2 ^ (l / 2) = 2 ^ (l - l / 2))%nat) by (rewrite <- LR, Nat.mul_comm, Nat.div_mul by lia; reflexivity).
    rewrite RS, LR, Nat.eqb_refl. destruct (2 ^ (l / 2))%nat as [|k] eqn:Ek; [lia|]. cbn [repeat seq mapM]. unfold idx at 1. cbn [nth_error of_opt bind].
    unfold commit at 1. cbn [gn]. rewrite Nat.mul_0_r. cbn [skipn]. rewrite firstn_length_le by nia.
    destruct (Nat.eqb_spec (2 ^ h) (2 ^ (l - l / 2))) as [X|]; [|intro Q; cbn [bind] in Q; discriminate Q]. intros _. unfold half_up. symmetry. apply (Nat.pow_inj_r 2); [lia|exact X].
  Qed.
  Lemma api_count (P0 P1 P2 : sparse K) (rx ry : list K) nz (stream : nat -> G) g comm d (evals : list K) (tr tape : log E) r : let Ps := [P0; P1; P2] in
    (forall P, In P Ps -> shape (length rx) (length ry) P) ->
    sgens_new (length rx) (length ry) nz 3 stream = Ok g -> multi_commit H Ps g = Ok (comm, d) -> spar_prove H d rx ry evals g tr tape = Ok r ->
    next_pow2 nz = next_pow2 (max_entries Ps).
  Proof.
    intros Ps SH Hg Hc Hp. set (c := Nat.max (length rx) (length ry)). set (m := Nat.log2_up (max_entries Ps)). assert (NP : next_pow2 (max_entries Ps) = (2 ^ m)%nat) by reflexivity.
    destruct (multi_dense_ok P0 P1 P2 _ _ m c SH eq_refl NP) as (d' & rr & ar & rc & ac & MD & MI & UR & UC & BT & CR & CC).
    fold Ps in MD, MI, UR, UC, CR, CC.
    assert (L3r : length rr = 3%nat) by (destruct CR as (Q & _ & _); apply (f_equal (@length nat)) in Q; rewrite !map_length in Q; exact Q).
    assert (L3c : length rc = 3%nat) by (destruct CC as (Q & _ & _); apply (f_equal (@length nat)) in Q; rewrite !map_length in Q; exact Q).
    unfold sgens_new in Hg. unfold next_pow2 in Hg at 1. rewrite log_2_pow in Hg. cbn [bind] in Hg. change (log_2 (next_pow2 (3 * 5))) with (Ok 4%nat) in Hg. change (log_2 (next_pow2 (3 * 2))) with (Ok 3%nat) in Hg. cbn [bind] in Hg.
    set (L := Nat.log2_up nz) in *.
    destruct (pcgens_new (L + 4) stream) as [g1| |] eqn:G1; [|discriminate Hg..]. cbn [bind] in Hg. destruct (pcgens_new _ stream) as [g2| |] in Hg; [|discriminate Hg..]. cbn [bind] in Hg.
    destruct (pcgens_new (L + 3) stream) as [g3| |] eqn:G3; [|discriminate Hg..]. injection Hg as <-.
    unfold multi_commit in Hc. rewrite MD in Hc. cbn [bind sg_ops sg_mem] in Hc.
    destruct (poly_commit H (md_ops d') g1 None) as [[[co bo] to]| |] eqn:C1; [|discriminate Hc..]. cbn [bind] in Hc.
    destruct (poly_commit H (md_mem d') g2 None) as [[[cm bm] tm]| |]; [|discriminate Hc..]. cbn [bind] in Hc. destruct (idx _ _) as [ir| |]; [|discriminate Hc..]. cbn [bind] in Hc.
    assert (d' = d) as -> by (injection Hc; intros; assumption). clear Hc.
    destruct MI as (AR & AC & _ & (EO & LO & _) & _ & LRU & LCU).
    apply (commit_sized _ _ _ _ _ G1) in C1. rewrite EO in C1. unfold dt in C1. cbn [dnum_vars] in C1.
    rewrite !app_length, !map_length, L3r, L3c in C1. change (length (rows_of m Ps)) with 3%nat in C1. change (length (cols_of m Ps)) with 3%nat in C1. change (length (vals_of m Ps)) with 3%nat in C1.
    change (Nat.log2_up (3 + (3 + (3 + (3 + 3))))) with 4%nat in C1.
    destruct (equalize_ok rx ry) as (Lx & Ly & _ & _). unfold spar_prove in Hp. destruct (Nat.eqb _ (md_batch d)); [|discriminate Hp].
    destruct (equalize rx ry) as [x y]. cbn [fst snd] in Lx, Ly. fold c in Lx, Ly.
    assert (LB : forall P, In P Ps -> (length (sM P) <= 2 ^ m)%nat) by (intros P I; rewrite <- NP; etransitivity; [apply max_ge, I|apply next_pow2_ge]).
    assert (LR : forall a, In a (rows_of m Ps) -> length a = (2 ^ m)%nat) by (intros a I; apply in_map_iff in I; destruct I as (P & <- & I); apply padto_len; rewrite map_length; apply LB, I).
    assert (LC : forall a, In a (cols_of m Ps) -> length a = (2 ^ m)%nat) by (intros a I; apply in_map_iff in I; destruct I as (P & <- & I); apply padto_len; rewrite map_length; apply LB, I).
    assert (Px : (2 ^ length rx <= 2 ^ c)%nat) by (apply Nat.pow_le_mono_r; unfold c; lia). assert (Py : (2 ^ length ry <= 2 ^ c)%nat) by (apply Nat.pow_le_mono_r; unfold c; lia).
    assert (Pc : (0 < 2 ^ c)%nat) by (pose proof (Nat.pow_nonzero 2 c); lia).
    assert (BR : forall a z, In a (rows_of m Ps) -> In z a -> (z < length (eq_evals x))%nat).
    { rewrite eq_evals_length, Lx. intros a z I Iz. apply in_map_iff in I. destruct I as (P & <- & I). apply in_app_or in Iz. destruct Iz as [Iz|Iz].
      - apply in_map_iff in Iz. destruct Iz as (e & <- & Ie). destruct (SH P I) as (_ & _ & O). destruct (O e Ie). lia.
      - apply repeat_spec in Iz. lia. }
    assert (BC : forall a z, In a (cols_of m Ps) -> In z a -> (z < length (eq_evals y))%nat).
    { rewrite eq_evals_length, Ly. intros a z I Iz. apply in_map_iff in I. destruct I as (P & <- & I). apply in_app_or in Iz. destruct Iz as [Iz|Iz].
      - apply in_map_iff in Iz. destruct Iz as (e & <- & Ie). destruct (SH P I) as (_ & _ & O). destruct (O e Ie). lia.
      - apply repeat_spec in Iz. lia. }
    set (RD := map (deref1 (eq_evals x)) (rows_of m Ps)). set (CD := map (deref1 (eq_evals y)) (cols_of m Ps)).
    assert (LRD : all_len m RD) by (intros Z I; apply in_map_iff in I; destruct I as (a & <- & I); unfold deref1; rewrite map_length; apply LR, I).
    assert (LCD : all_len m CD) by (intros Z I; apply in_map_iff in I; destruct I as (a & <- & I); unfold deref1; rewrite map_length; apply LC, I).
    assert (DR : at_deref (md_row d) (eq_evals x) = Ok (map (dt m) RD)) by (apply at_deref_ok; [exact UR|destruct AR as (-> & _); rewrite !map_length; reflexivity|exact LR|exact BR]).
    assert (DC : at_deref (md_col d) (eq_evals y) = Ok (map (dt m) CD)) by (apply at_deref_ok; [exact UC|destruct AC as (-> & _); rewrite !map_length; reflexivity|exact LC|exact BC]).
    destruct (derefs_ok m RD CD) as (f0 & F0 & DF0); [reflexivity|discriminate|apply all_len_app; split; assumption|]. unfold md_deref in Hp. rewrite DR, DC in Hp. cbn [bind] in Hp. rewrite F0 in Hp. cbn [bind sg_derefs] in Hp.
    unfold derefs_commit in Hp. destruct (poly_commit H (df_comb f0) g3 None) as [[[cd bd] td]| |] eqn:C3; [|discriminate Hp..].
    apply (commit_sized _ _ _ _ _ G3) in C3. destruct DF0 as (_ & _ & _ & _ & _ & EF). rewrite EF in C3. unfold dt in C3. cbn [dnum_vars] in C3. rewrite app_length in C3.
    change (length RD) with 3%nat in C3. change (length CD) with 3%nat in C3. change (Nat.log2_up (3 + 3)) with 3%nat in C3.
    assert (EL : L = m).
    { unfold half_up in C1, C3. clear - C1 C3. pose proof (Nat.div_mod_eq (4 + m) 2). pose proof (Nat.mod_upper_bound (4 + m) 2). pose proof (Nat.div_mod_eq (L + 4) 2). pose proof (Nat.mod_upper_bound (L + 4) 2).
      pose proof (Nat.div_mod_eq (3 + m) 2). pose proof (Nat.mod_upper_bound (3 + m) 2). pose proof (Nat.div_mod_eq (L + 3) 2). pose proof (Nat.mod_upper_bound (L + 3) 2). lia. }
    unfold next_pow2 at 1. fold L. rewrite EL. reflexivity.
  Qed.
  Lemma api_snark_count nc nv ni nz (A B C : list (nat * nat * bytes)) (I : instance K (list nat)) (s1 s2 : nat -> G) (g : @snarkgens K G) comm d (vars input : list K) (seed : K) (tr : log E) :
    (1 <= nc)%nat -> instance_new parse digest_of nc nv ni A B C = Ok I -> instance_is_sat I vars input = Ok true ->
    snarkgens_new nc nv ni nz s1 s2 = Ok g -> next_pow2 nz <> next_pow2 (most_entries nc A B C) -> (Nat.log2_up (next_pow2 (Nat.max nv (ni + 1))) < 50)%nat ->
    snark_encode H I g = Ok (comm, d) -> forall r, snark_prove H I comm d vars input g seed tr <> Ok r.
  Proof.
    intros Hn HI Hs Hg NZ Hb0 Hc r Hp.
    destruct (snark_sizes _ _ _ _ _ _ _ _ _ _ _ HI Hg Hn) as (a & Sz & Ha & Ei & Em & Ea & W & G1 & G2 & SH & ME). set (b := Nat.log2_up _) in *.
    destruct (is_sat_inv I vars input W Hs) as (Lv & Li & Sat). rewrite (sz_cons _ _ _ Sz) in Sat.
    unfold snark_encode, r1cs_commit in Hc. destruct (multi_commit H (mats I) (sn_eval g)) as [[comm0 d0]| |] eqn:MC; try discriminate Hc. injection Hc as <- <-.
    unfold snark_prove in Hp. rewrite pad_fit in Hp by exact Lv. cbn [bind] in Hp. set (tape := tape_new "proof" seed) in Hp. set (tr0 := app_rcomm _ _) in Hp.
    assert (Hb : (b - b / 2 < 32)%nat) by (pose proof (Nat.div_mod_eq b 2); pose proof (Nat.mod_upper_bound b 2); lia).
    pose proof (r1cs_complete H two three (inst I) a b (fit (rc_vars (inst I)) vars) input s1 (sn_sat g) tr0 tape Sz Ha Hb) as X.
    specialize (X ltac:(rewrite fit_length; apply Sz) Li G1 Sat).
    destruct (r1cs_prove H (inst I) (fit (rc_vars (inst I)) vars) input (sn_sat g) tr0 tape) as [[[[[pf rx] ry] tr1] tape1]|er|]; [|discriminate Hp..].
    cbn [bind] in Hp. destruct X as (Lx & Ly & _). destruct (r1cs_evaluate (inst I) rx ry) as [[[eA eB] eC]| |]; [|discriminate Hp..]. cbn [bind] in Hp.
    destruct (spar_prove H d0 rx ry _ (sn_eval g) _ tape1) as [q| |] eqn:SP; [|discriminate Hp..].
    apply NZ. rewrite <- ME. rewrite <- Lx, <- Ly in SH, G2. exact (api_count _ _ _ rx ry nz s2 (sn_eval g) comm0 d0 _ _ _ _ SH G2 MC SP).
  Qed.
End A.
