From Coq Require Import String List Arith Bool Lia Field.
From Verif Require Import Base ListAux Field Vec MathModel PolyModel CommitModel SigmaModel CommitSpec CommitProofs.
Import ListNotations.

Section SP.
  Context {K : Fld} {G : Mod K} {E : Enc G}.
  Variable H : log E -> K.
  Add Field Ksp : (fth K).
  Local Open Scope fld_scope.

  Ltac run := cbn [bind fst snd challenge random_scalar random_vector].

  Lemma kp_complete (g : gens G) (tr tape : log E) (x r : K) : gens_ok g -> gn g = 1%nat ->
    exists pf C tr' tape', kp_prove H g tr tape x r = Ok (pf, C, tr', tape') /\ opens1 g C x r /\ kp_verify H pf g tr C = Ok tr'.
  Proof.
    intros Hg N. destruct (gens_ok1 g Hg N) as [b Hb].
    unfold kp_prove. unfold random_scalar, challenge. rewrite !(commit1_ok _ _ g Hg N). run.
    do 4 eexists. split; [reflexivity|]. split; [apply dec_comp|].
    unfold kp_verify, challenge. cbn [kp_alpha kp_z1 kp_z2]. rewrite (commit1_ok _ _ g Hg N). run. rewrite !unpack_comp. run.
    rewrite eeqb_comp_eq; [reflexivity|]. rewrite !(ped1_unfold g b _ _ Hb). module_red; ring.
  Qed.
  Lemma ep_complete (g : gens G) (tr tape : log E) (v s1 s2 : K) : gens_ok g -> gn g = 1%nat ->
    exists pf C1 C2 tr' tape', ep_prove H g tr tape v s1 v s2 = Ok (pf, C1, C2, tr', tape') /\
      opens1 g C1 v s1 /\ opens1 g C2 v s2 /\ ep_verify H pf g tr C1 C2 = Ok tr'.
  Proof.
    intros Hg N. destruct (gens_ok1 g Hg N) as [b Hb].
    unfold ep_prove. unfold random_scalar, challenge. rewrite !(commit1_ok _ _ g Hg N). run.
    do 5 eexists. split; [reflexivity|]. split; [apply dec_comp|]. split; [apply dec_comp|].
    unfold ep_verify, challenge. cbn [ep_alpha ep_z]. rewrite !unpack_comp. run.
    rewrite eeqb_comp_eq; [reflexivity|]. rewrite !(ped1_unfold g b _ _ Hb). module_red; ring.
  Qed.
  Lemma pp_complete (g : gens G) (tr tape : log E) (x rX y rY rZ : K) : gens_ok g -> gn g = 1%nat ->
    exists pf X Y Z tr' tape', pp_prove H g tr tape x rX y rY (x * y) rZ = Ok (pf, X, Y, Z, tr', tape') /\
      opens1 g X x rX /\ opens1 g Y y rY /\ opens1 g Z (x * y) rZ /\ pp_verify H pf g tr X Y Z = Ok tr'.
  Proof.
    intros Hg N. destruct (gens_ok1 g Hg N) as [b Hb].
    unfold pp_prove. unfold random_scalar, challenge. rewrite !(commit1_ok _ _ g Hg N). run. rewrite !unpack_comp. run.
    set (gX := MkGens 1 [ped1 g x rX] (gh g)). assert (HgX : gens_ok gX) by reflexivity.
    rewrite (commit1_ok _ _ gX HgX eq_refl). run.
    do 6 eexists. split; [reflexivity|]. do 3 (split; [apply dec_comp|]).
    unfold pp_verify, pp_check, challenge. cbn [pp_alpha pp_beta pp_delta pp_z]. rewrite !unpack_comp. run.
    rewrite !(commit1_ok _ _ g Hg N). run.
    rewrite eeqb_comp_eq by (rewrite !(ped1_unfold g b _ _ Hb); module_red; ring).
    rewrite eeqb_comp_eq by (rewrite !(ped1_unfold g b _ _ Hb); module_red; ring).
    fold gX. rewrite (commit1_ok _ _ gX HgX eq_refl). run.
    rewrite eeqb_comp_eq; [reflexivity|].
    rewrite !(ped1_unfold gX _ _ _ eq_refl). cbn [gh gX]. rewrite !(ped1_unfold g b _ _ Hb). module_red; ring.
  Qed.

  (** dot product of a combination c*x + d *)
  Lemma lin_comb_zip c (x : list K) : forall d (gs : list G), length d = length x ->
    lincomb (map2 (fun x d => c * x + d) x d) gs = gadd (gmul c (lincomb x gs)) (lincomb d gs).
  Proof.
    induction x as [|x xs IH]; intros [|d ds] gs L; try discriminate L.
    - cbn [map2 lincomb]. module_red; ring.
    - injection L as L. destruct gs as [|g gs]; cbn [map2 lincomb]; [module_red; ring|].
      rewrite (IH ds gs L). module_red; ring.
  Qed.
  Lemma dot_zip c (x : list K) : forall d a, length d = length x ->
    dot (map2 (fun x d => c * x + d) x d) a = c * dot x a + dot d a.
  Proof. intros d a L. rewrite <- !(lincomb_self (K:=K)). rewrite (lincomb_self). clear H.
    revert d a L. induction x as [|x xs IH]; intros [|d ds] a L; try discriminate L.
    - cbn [map2]. rewrite !(dot_nil_l K). cbn. ring.
    - injection L as L. destruct a as [|a0 a].
      + rewrite !(dot_nil_r K). cbn. ring.
      + cbn [map2]. rewrite (dot_cons K). rewrite (IH ds a L). cbn. ring.
  Qed.

  Lemma dp_complete (g1 gN : gens G) (tr tape : log E) (x : list K) (blind_x : K) (a : list K) (blind_y : K) :
    gens_ok g1 -> gn g1 = 1%nat -> gens_ok gN -> gn gN = length x -> length a = length x ->
    exists pf Cx Cy tr' tape', dp_prove H g1 gN tr tape x blind_x a (dot x a) blind_y = Ok (pf, Cx, Cy, tr', tape') /\
      opens gN Cx x blind_x /\ opens1 g1 Cy (dot x a) blind_y /\ dp_verify H pf g1 gN tr a Cx Cy = Ok tr'.
  Proof.
    intros H1 N1 HN NN La. destruct (gens_ok1 g1 H1 N1) as [b Hb].
    unfold dp_prove. rewrite La, NN, N1, !Nat.eqb_refl.
    unfold random_vector. pose proof (challenges_length H "d_vec" (length x) tape) as Ld.
    destruct (challenges H "d_vec" (length x) tape) as [d tape']. cbn [fst] in Ld.
    unfold random_scalar, challenge. run.
    rewrite !(commit_ok _ _ gN) by (assumption || congruence).
    unfold compute_dotproduct. rewrite La, Ld, Nat.eqb_refl.
    rewrite !(commit1_ok _ _ g1 H1 N1). run. rewrite !(commit1_ok _ _ g1 H1 N1). run.
    do 5 eexists. split; [reflexivity|]. split; [apply dec_comp|]. split; [apply dec_comp|].
    unfold dp_verify, challenge. rewrite NN, La, N1, !Nat.eqb_refl. cbn [dp_delta dp_beta dp_z dp_zdelta dp_zbeta]. rewrite !unpack_comp. run.
    assert (Lz : forall c, length (map2 (fun x0 d0 => c * x0 + d0) x d) = length x) by (intro; rewrite map2_length, Ld; lia).
    rewrite (commit_ok _ _ gN) by (try assumption; rewrite Lz; congruence). run.
    unfold compute_dotproduct. rewrite Lz, La, Nat.eqb_refl. run. rewrite (commit1_ok _ _ g1 H1 N1). run.
    match goal with |- (if geqb ?p ?q && geqb ?p' ?q' then _ else _) = _ =>
      replace p with q; [replace p' with q'|] end.
    - rewrite !geqb_refl. reflexivity.
    - rewrite !(ped1_unfold g1 b _ _ Hb). rewrite (dot_zip _ x d a Ld). rewrite (dot_comm K a d). module_red; ring.
    - unfold ped. rewrite (lin_comb_zip _ x d (gG gN) Ld). module_red; ring.
  Qed.
End SP.

(** * Special soundness *)
Section SS.
  Context {K : Fld} {G : Mod K} {E : Enc G}.
  Add Field Kss : (fth K).
  Local Open Scope fld_scope.
  Variables H H' : log E -> K.

  (** solving  c P + A = L,  c' P + A = L'  for P *)
  Lemma two_eq (c c' : K) (P A L L' : G) : c <> c' -> gadd (gmul c P) A = L -> gadd (gmul c' P) A = L' ->
    P = gmul (finv (c - c')) (gadd L (gopp L')).
  Proof.
    intros Hc <- <-. assert (c - c' <> 0) by (rewrite (fsub_eq_0 K); exact Hc).
    module_red; field; assumption.
  Qed.

  Lemma kp_inv h pf (g : gens G) tr C tr' : kp_verify h pf g tr C = Ok tr' -> gens_ok g ->
    exists b Cg al, gG g = [b] /\ gn g = 1%nat /\ decompress E C = Some Cg /\ decompress E (kp_alpha pf) = Some al /\
      gadd (gmul (h tr') Cg) al = ped1 g (kp_z1 pf) (kp_z2 pf).
  Proof.
    unfold kp_verify, challenge. set (l := MChal "c" :: _). intros V Hg.
    destruct (commit1 (kp_z1 pf) (kp_z2 pf) g) as [cm| |] eqn:Ec; try discriminate V. cbn [bind] in V.
    destruct (commit1_inv _ _ _ _ Ec) as [N [b0 [rest [Eb ->]]]]. destruct (gens_ok1 g Hg N) as [b Hb]. rewrite Hb in Eb. injection Eb as <- <-.
    destruct (unpack C) as [Cg| |] eqn:EC; try discriminate V. destruct (unpack (kp_alpha pf)) as [al| |] eqn:Ea; try discriminate V.
    cbn [bind] in V. destruct (eeqb _ _ _) eqn:Ee; [|discriminate V]. injection V as <-. apply eeqb_comp in Ee.
    apply unpack_inv in EC, Ea. exists b, Cg, al. repeat split; try assumption.
    rewrite <- Ee. symmetry. apply ped1_unfold, Hb.
  Qed.
  Lemma kp_sound pf pf' (g : gens G) tr tr1 tr2 C : gens_ok g -> kp_alpha pf = kp_alpha pf' ->
    kp_verify H pf g tr C = Ok tr1 -> kp_verify H' pf' g tr C = Ok tr2 -> H tr1 <> H' tr2 ->
    opens1 g C (finv (H tr1 - H' tr2) * (kp_z1 pf - kp_z1 pf')) (finv (H tr1 - H' tr2) * (kp_z2 pf - kp_z2 pf')).
  Proof.
    intros Hg Ea V V' Hc. destruct (kp_inv _ _ _ _ _ _ V Hg) as (b & Cg & al & Hb & N & DC & Da & Q).
    destruct (kp_inv _ _ _ _ _ _ V' Hg) as (b' & Cg' & al' & _ & _ & DC' & Da' & Q').
    rewrite DC in DC'. injection DC' as <-. rewrite Ea, Da' in Da. injection Da as ->.
    unfold opens1, opens. rewrite DC. f_equal. rewrite (two_eq _ _ _ _ _ _ Hc Q Q').
    change (ped g [?x] ?r) with (ped1 g x r). rewrite !(ped1_unfold g b _ _ Hb). module_red; ring.
  Qed.
  Lemma ep_inv h pf (g : gens G) tr C1 C2 tr' : ep_verify h pf g tr C1 C2 = Ok tr' ->
    exists g1 g2 al, decompress E C1 = Some g1 /\ decompress E C2 = Some g2 /\ decompress E (ep_alpha pf) = Some al /\
      gadd (gmul (h tr') (gadd g1 (gopp g2))) al = gmul (ep_z pf) (gh g).
  Proof.
    unfold ep_verify, challenge. set (l := MChal "c" :: _). intros V.
    destruct (unpack C1) as [g1| |] eqn:E1; try discriminate V. destruct (unpack C2) as [g2| |] eqn:E2; try discriminate V.
    destruct (unpack (ep_alpha pf)) as [al| |] eqn:Ea; try discriminate V. cbn [bind] in V.
    destruct (eeqb _ _ _) eqn:Ee; [|discriminate V]. injection V as <-. apply eeqb_comp in Ee.
    exists g1, g2, al. rewrite (unpack_inv _ _ E1), (unpack_inv _ _ E2), (unpack_inv _ _ Ea). now rewrite Ee.
  Qed.
  Lemma ep_sound pf pf' (g : gens G) tr tr1 tr2 C1 C2 : ep_alpha pf = ep_alpha pf' ->
    ep_verify H pf g tr C1 C2 = Ok tr1 -> ep_verify H' pf' g tr C1 C2 = Ok tr2 -> H tr1 <> H' tr2 ->
    exists g1 g2, decompress E C1 = Some g1 /\ decompress E C2 = Some g2 /\
      g1 = gadd g2 (gmul (finv (H tr1 - H' tr2) * (ep_z pf - ep_z pf')) (gh g)).
  Proof.
    intros Ea V V' Hc. destruct (ep_inv _ _ _ _ _ _ _ V) as (g1 & g2 & al & D1 & D2 & Da & Q).
    destruct (ep_inv _ _ _ _ _ _ _ V') as (g1' & g2' & al' & D1' & D2' & Da' & Q').
    rewrite D1 in D1'. injection D1' as <-. rewrite D2 in D2'. injection D2' as <-. rewrite Ea, Da' in Da. injection Da as ->.
    exists g1, g2. repeat split; try assumption.
    transitivity (gadd g2 (gadd g1 (gopp g2))); [module_red; ring|]. rewrite (two_eq _ _ _ _ _ _ Hc Q Q'). module_red; ring.
  Qed.
  Lemma pp_check_inv P X c (g : gens G) z1 z2 : pp_check P X c g z1 z2 = Ok true -> gens_ok g ->
    exists b Pg Xg, gn g = 1%nat /\ gG g = [b] /\ decompress E P = Some Pg /\ decompress E X = Some Xg /\
      gadd (gmul c Xg) Pg = ped1 g z1 z2.
  Proof.
    unfold pp_check. intros V Hg. destruct (unpack P) as [Pg| |] eqn:EP; try discriminate V.
    destruct (unpack X) as [Xg| |] eqn:EX; try discriminate V. cbn [bind] in V.
    destruct (commit1 z1 z2 g) as [cm| |] eqn:Ec; try discriminate V. cbn [bind] in V.
    destruct (commit1_inv _ _ _ _ Ec) as [N [b0 [rest [Eb Q]]]]. destruct (gens_ok1 g Hg N) as [b Hb]. rewrite Hb in Eb. injection Eb as <- <-.
    injection V as V. apply eeqb_comp in V. exists b, Pg, Xg. rewrite (unpack_inv _ _ EP), (unpack_inv _ _ EX).
    repeat split; try assumption. rewrite (ped1_unfold g b _ _ Hb), <- Q, <- V. module_red; ring.
  Qed.
  Lemma pp_inv h pf (g : gens G) tr X Y Z tr' z1 z2 z3 z4 z5 : pp_verify h pf g tr X Y Z = Ok tr' ->
    pp_z pf = (z1, z2, z3, z4, z5) ->
    exists Xg, decompress E X = Some Xg /\ pp_check (pp_alpha pf) X (h tr') g z1 z2 = Ok true /\
      pp_check (pp_beta pf) Y (h tr') g z3 z4 = Ok true /\
      pp_check (pp_delta pf) Z (h tr') (MkGens 1 [Xg] (gh g)) z3 z5 = Ok true.
  Proof.
    unfold pp_verify, challenge. set (l := MChal "c" :: _). intros V Ez. rewrite Ez in V.
    destruct (pp_check (pp_alpha pf) X (h l) g z1 z2) as [[|]| |] eqn:B1; try discriminate V. cbn [bind] in V.
    destruct (pp_check (pp_beta pf) Y (h l) g z3 z4) as [[|]| |] eqn:B2; try discriminate V. cbn [bind] in V.
    destruct (unpack X) as [Xg| |] eqn:EX; try discriminate V. cbn [bind] in V.
    destruct (pp_check (pp_delta pf) Z (h l) (MkGens 1 [Xg] (gh g)) z3 z5) as [[|]| |] eqn:B3; try discriminate V. cbn [bind] in V.
    injection V as <-. exists Xg. rewrite (unpack_inv _ _ EX). repeat split; assumption.
  Qed.
  Lemma pp_sound pf pf' (g : gens G) tr tr1 tr2 X Y Z z1 z2 z3 z4 z5 z1' z2' z3' z4' z5' : gens_ok g ->
    pp_alpha pf = pp_alpha pf' -> pp_beta pf = pp_beta pf' -> pp_delta pf = pp_delta pf' ->
    pp_z pf = (z1, z2, z3, z4, z5) -> pp_z pf' = (z1', z2', z3', z4', z5') ->
    pp_verify H pf g tr X Y Z = Ok tr1 -> pp_verify H' pf' g tr X Y Z = Ok tr2 -> H tr1 <> H' tr2 ->
    let e := finv (H tr1 - H' tr2) in
    let x := e * (z1 - z1') in let rX := e * (z2 - z2') in let y := e * (z3 - z3') in let rY := e * (z4 - z4') in
    opens1 g X x rX /\ opens1 g Y y rY /\ opens1 g Z (x * y) (rX * y + e * (z5 - z5')).
  Proof.
    intros Hg Ea Eb Ed Ez Ez' V V' Hc e x rX y rY.
    destruct (pp_inv _ _ _ _ _ _ _ _ _ _ _ _ _ V Ez) as (Xg & DX & A1 & B1 & D1).
    destruct (pp_inv _ _ _ _ _ _ _ _ _ _ _ _ _ V' Ez') as (Xg' & DX' & A2 & B2 & D2).
    rewrite DX in DX'. injection DX' as <-. rewrite <- Ea in A2. rewrite <- Eb in B2. rewrite <- Ed in D2.
    destruct (pp_check_inv _ _ _ _ _ _ A1 Hg) as (b & Pa & XX & N & Hb & DPa & DXX & QA).
    destruct (pp_check_inv _ _ _ _ _ _ A2 Hg) as (b2 & Pa2 & XX2 & _ & _ & DPa2 & DXX2 & QA2).
    destruct (pp_check_inv _ _ _ _ _ _ B1 Hg) as (b3 & Pb & YY & _ & _ & DPb & DYY & QB).
    destruct (pp_check_inv _ _ _ _ _ _ B2 Hg) as (b4 & Pb2 & YY2 & _ & _ & DPb2 & DYY2 & QB2).
    assert (HX : gens_ok (MkGens 1 [Xg] (gh g))) by reflexivity.
    destruct (pp_check_inv _ _ _ _ _ _ D1 HX) as (b5 & Pd & ZZ & _ & _ & DPd & DZZ & QD).
    destruct (pp_check_inv _ _ _ _ _ _ D2 HX) as (b6 & Pd2 & ZZ2 & _ & _ & DPd2 & DZZ2 & QD2).
    rewrite DX in DXX, DXX2. injection DXX as <-. injection DXX2 as <-. rewrite DYY in DYY2. injection DYY2 as <-.
    rewrite DZZ in DZZ2. injection DZZ2 as <-. rewrite DPa in DPa2. injection DPa2 as <-. rewrite DPb in DPb2. injection DPb2 as <-.
    rewrite DPd in DPd2. injection DPd2 as <-.
    pose proof (two_eq _ _ _ _ _ _ Hc QA QA2) as EX. pose proof (two_eq _ _ _ _ _ _ Hc QB QB2) as EY.
    pose proof (two_eq _ _ _ _ _ _ Hc QD QD2) as EZ. fold e in EX, EY, EZ.
    rewrite !(ped1_unfold g b _ _ Hb) in EX. rewrite !(ped1_unfold g b _ _ Hb) in EY. rewrite !(ped1_unfold (MkGens 1 [Xg] (gh g)) Xg _ _ eq_refl) in EZ. cbn [gh] in EZ.
    unfold opens1, opens. rewrite DX, DYY, DZZ. change (ped g [?x] ?r) with (ped1 g x r). rewrite !(ped1_unfold g b _ _ Hb).
    unfold x, rX, y, rY. repeat split; f_equal.
    - rewrite EX. module_red; ring.
    - rewrite EY. module_red; ring.
    - rewrite EZ. rewrite EX. module_red; ring.
  Qed.
  Lemma dp_inv h pf (g1 gN : gens G) tr a Cx Cy tr' : dp_verify h pf g1 gN tr a Cx Cy = Ok tr' -> gens_ok g1 ->
    length (dp_z pf) = length a /\ gn gN = length a /\
    exists b X D Y B, gG g1 = [b] /\ decompress E Cx = Some X /\ decompress E (dp_delta pf) = Some D /\
      decompress E Cy = Some Y /\ decompress E (dp_beta pf) = Some B /\
      gadd (gmul (h tr') X) D = ped gN (dp_z pf) (dp_zdelta pf) /\
      gadd (gmul (h tr') Y) B = ped1 g1 (dot (dp_z pf) a) (dp_zbeta pf).
  Proof.
    unfold dp_verify, challenge. destruct (Nat.eqb_spec (gn gN) (length a)) as [NN|]; [|discriminate].
    destruct (Nat.eqb_spec (gn g1) 1) as [N1|]; [|discriminate]. set (l := MChal "c" :: _). intros V Hg. destruct (gens_ok1 g1 Hg N1) as [b Hb].
    destruct (unpack Cx) as [X| |] eqn:EX; try discriminate V. destruct (unpack (dp_delta pf)) as [D| |] eqn:ED; try discriminate V. cbn [bind] in V.
    destruct (commit (dp_z pf) (dp_zdelta pf) gN) as [zc| |] eqn:Ec; try discriminate V. cbn [bind] in V.
    apply commit_inv in Ec. destruct Ec as [Lz ->]. unfold compute_dotproduct in V. rewrite Lz, NN, Nat.eqb_refl in V. cbn [bind] in V.
    destruct (unpack Cy) as [Y| |] eqn:EY; try discriminate V. destruct (unpack (dp_beta pf)) as [B| |] eqn:EB; try discriminate V. cbn [bind] in V.
    rewrite (commit1_ok _ _ g1 Hg N1) in V. cbn [bind] in V.
    destruct (geqb _ _) eqn:Q1 in V; [|discriminate V]. destruct (geqb _ _) eqn:Q2 in V; [|discriminate V]. injection V as <-.
    apply geqb_true in Q1, Q2. split; [congruence|]. split; [assumption|]. exists b, X, D, Y, B.
    rewrite (unpack_inv _ _ EX), (unpack_inv _ _ ED), (unpack_inv _ _ EY), (unpack_inv _ _ EB). repeat split; assumption.
  Qed.
  Lemma dp_sound pf pf' (g1 gN : gens G) tr tr1 tr2 a Cx Cy : gens_ok g1 ->
    dp_delta pf = dp_delta pf' -> dp_beta pf = dp_beta pf' ->
    dp_verify H pf g1 gN tr a Cx Cy = Ok tr1 -> dp_verify H' pf' g1 gN tr a Cx Cy = Ok tr2 -> H tr1 <> H' tr2 ->
    let e := finv (H tr1 - H' tr2) in
    let x := map (fmul e) (map2 fsub (dp_z pf) (dp_z pf')) in
    length x = length a /\ opens gN Cx x (e * (dp_zdelta pf - dp_zdelta pf')) /\
    opens1 g1 Cy (dot x a) (e * (dp_zbeta pf - dp_zbeta pf')).
  Proof.
    intros Hg Ed Eb V V' Hc e x.
    destruct (dp_inv _ _ _ _ _ _ _ _ _ V Hg) as (Lz & NN & b & X & D & Y & B & Hb & DX & DD & DY & DB & Q1 & Q2).
    destruct (dp_inv _ _ _ _ _ _ _ _ _ V' Hg) as (Lz' & _ & b' & X' & D' & Y' & B' & _ & DX' & DD' & DY' & DB' & Q1' & Q2').
    rewrite DX in DX'. injection DX' as <-. rewrite DY in DY'. injection DY' as <-. rewrite Ed, DD' in DD. injection DD as <-.
    rewrite Eb, DB' in DB. injection DB as <-.
    pose proof (two_eq _ _ _ _ _ _ Hc Q1 Q1') as EX. pose proof (two_eq _ _ _ _ _ _ Hc Q2 Q2') as EY. fold e in EX, EY.
    assert (Lx : length (dp_z pf) = length (dp_z pf')) by congruence.
    split; [unfold x; rewrite map_length, map2_length; lia|]. unfold opens1, opens. rewrite DX, DY. change (ped g1 [?x] ?r) with (ped1 g1 x r). split; f_equal.
    - rewrite EX. unfold ped, x. rewrite lincomb_scale, lincomb_sub by assumption. module_red; ring.
    - rewrite EY. rewrite !(ped1_unfold g1 b _ _ Hb). unfold x. rewrite (dot_scale_l K).
      replace (dot (map2 fsub (dp_z pf) (dp_z pf')) a) with (dot (dp_z pf) a - dot (dp_z pf') a); [module_red; ring|].
      rewrite <- !lincomb_self. rewrite lincomb_sub by assumption. cbn. ring.
  Qed.
End SS.
