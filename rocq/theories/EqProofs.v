From Coq Require Import String List Arith Bool Lia Field.
From Verif Require Import Base ListAux Field Vec MathModel PolyModel PolySpec PolyProofs PolyImp R1csModel R1csSpec R1csProofs R1csMore CommitModel SigmaModel CommitSpec CommitProofs BulletProofs SigmaProofs LogProofs.
From Verif Require Import SumModel SumSpec SumProofs SumZk SumApi NizkModel NizkProofs NizkApi EvalSpec EvalProofs AgmSpec AgmRare AgmZk AgmLp AgmProofs AgmApi EqSpec.
Import ListNotations.

Ltac conj := repeat match goal with |- _ /\ _ => split end.

Section EQ.
  Context {K : Fld} {G : Mod K} {E : Enc G}.
  Add Field Keq : (fth K).
  Local Open Scope fld_scope.
  Local Notation cmp := (CommitModel.compress E).
  Variable H : log E -> K.
  Definition zeros (l : list G) : Prop := forall w, In w l -> w = g0.
  Definition says (tr : log E) (c : K) : Prop := forall l, asked l = S (asked tr) -> H l = c.

  Lemma dec_point (e : E) : decodes e <-> decompress E e = Some (point e).
  Proof. unfold decodes, point. destruct (decompress E e); split; intros; congruence. Qed.
  Lemma dec_some (e : E) P : decompress E e = Some P -> decodes e /\ point e = P.
  Proof. intro X. unfold decodes, point. rewrite X. split; congruence. Qed.
  Lemma dec_cmp P : decodes (cmp P).
  Proof. unfold decodes. rewrite dec_comp. congruence. Qed.
  Lemma unpack_dec (e : E) : decodes e -> unpack e = Ok (point e).
  Proof. intro D. apply unpack_some. now apply dec_point. Qed.
  Lemma minus_0 (P Q : G) : minus P Q = g0 <-> P = Q.
  Proof.
    unfold minus. split; [intro X|intros ->; apply gadd_opp].
    transitivity (gadd (gadd P (gopp Q)) Q); [module_red; ring|]. rewrite X. apply gadd_0_l.
  Qed.
  Lemma zeros_cons w l : zeros (w :: l) <-> w = g0 /\ zeros l.
  Proof. unfold zeros. split; [intro Z; split; [|intros; apply Z]; try apply Z; cbn; auto|intros [A B] v [<-|Hv]; auto]. Qed.
  Lemma zeros_nil : zeros [].
  Proof. intros w []. Qed.
  Lemma zeros_app l m : zeros (l ++ m) <-> zeros l /\ zeros m.
  Proof.
    unfold zeros. split; [intro Z; split; intros w Hw; apply Z, in_or_app; auto|intros [A B] w Hw; apply in_app_or in Hw; destruct Hw; auto].
  Qed.
  Lemma eeqb_iff (P Q : G) : eeqb E (cmp P) (cmp Q) = true <-> P = Q.
  Proof. split; [apply eeqb_comp|apply eeqb_comp_eq]. Qed.

  (** * the small proofs *)
  Lemma kp_fwd pf (g : gens G) tr C tr' c : says tr c -> kp_verify H pf g tr C = Ok tr' -> gens_ok g ->
    decodes C /\ decodes (kp_alpha pf) /\ zeros (kp_eqs c pf g C) /\ asked tr' = S (asked tr).
  Proof.
    intros S V Hg. pose proof (kp_asked 1 0 H ltac:(lia) _ _ _ _ _ V) as A. destruct (kp_inv _ _ _ _ _ _ V Hg) as (b & Cg & al & _ & _ & DC & Da & Q).
    rewrite (S _ A) in Q. apply dec_some in DC. apply dec_some in Da. destruct DC as [DC <-], Da as [Da <-]. conj; try assumption.
    unfold kp_eqs. apply zeros_cons. split; [now apply minus_0|apply zeros_nil].
  Qed.
  Lemma kp_bwd pf (g : gens G) tr C c : says tr c -> gens_ok g -> gn g = 1%nat -> decodes C -> decodes (kp_alpha pf) -> zeros (kp_eqs c pf g C) ->
    exists tr', kp_verify H pf g tr C = Ok tr'.
  Proof.
    intros S Hg N1 DC Da Z. apply zeros_cons in Z. destruct Z as [Z _]. apply (proj1 (minus_0 _ _)) in Z. unfold kp_verify, challenge.
    rewrite (commit1_ok _ _ _ Hg N1), (unpack_dec _ DC), (unpack_dec _ Da). cbn [bind]. rewrite S by (unfold app_point, proto; rewrite !asked_cons; cbn [is_chal]; lia).
    rewrite (proj2 (eeqb_iff _ _) (eq_sym Z)). eexists. reflexivity.
  Qed.
  Lemma ep_asked pf (g : gens G) tr C1 C2 tr' : ep_verify H pf g tr C1 C2 = Ok tr' -> asked tr' = S (asked tr).
  Proof.
    unfold ep_verify, challenge. intro V. destruct (unpack C1); try discriminate V. destruct (unpack C2); try discriminate V. destruct (unpack (ep_alpha pf)); try discriminate V.
    cbn [bind] in V. destruct (eeqb _ _ _); [|discriminate V]. injection V as <-. unfold app_point, proto. rewrite !asked_cons. cbn [is_chal]. lia.
  Qed.
  Lemma ep_fwd pf (g : gens G) tr C1 C2 tr' c : says tr c -> ep_verify H pf g tr C1 C2 = Ok tr' ->
    decodes C1 /\ decodes C2 /\ decodes (ep_alpha pf) /\ zeros (ep_eqs c pf g (point C1) (point C2)) /\ asked tr' = S (asked tr).
  Proof.
    intros S V. pose proof (ep_asked _ _ _ _ _ _ V) as A. destruct (ep_inv _ _ _ _ _ _ _ V) as (g1 & g2 & al & D1 & D2 & Da & Q).
    rewrite (S _ A) in Q. apply dec_some in D1. apply dec_some in D2. apply dec_some in Da. destruct D1 as [D1 <-], D2 as [D2 <-], Da as [Da <-]. conj; try assumption.
    unfold ep_eqs. apply zeros_cons. split; [now apply minus_0|apply zeros_nil].
  Qed.
  Lemma ep_bwd pf (g : gens G) tr C1 C2 c : says tr c -> decodes C1 -> decodes C2 -> decodes (ep_alpha pf) -> zeros (ep_eqs c pf g (point C1) (point C2)) ->
    exists tr', ep_verify H pf g tr C1 C2 = Ok tr'.
  Proof.
    intros S D1 D2 Da Z. apply zeros_cons in Z. destruct Z as [Z _]. apply (proj1 (minus_0 _ _)) in Z. unfold minus in Z. unfold ep_verify, challenge.
    rewrite (unpack_dec _ D1), (unpack_dec _ D2), (unpack_dec _ Da). cbn [bind]. rewrite S by (unfold app_point, proto; rewrite !asked_cons; cbn [is_chal]; lia).
    rewrite (proj2 (eeqb_iff _ _) (eq_sym Z)). eexists. reflexivity.
  Qed.
  Lemma pp_asked pf (g : gens G) tr X Y Z tr' : pp_verify H pf g tr X Y Z = Ok tr' -> asked tr' = S (asked tr).
  Proof.
    unfold pp_verify, challenge. intro V. destruct (pp_z pf) as [[[[z1 z2] z3] z4] z5].
    destruct (pp_check _ _ _ _ _ _) as [[|]| |]; try discriminate V. cbn [bind] in V. destruct (pp_check _ _ _ _ _ _) as [[|]| |]; try discriminate V. cbn [bind] in V.
    destruct (unpack X); try discriminate V. cbn [bind] in V. destruct (pp_check _ _ _ _ _ _) as [[|]| |]; try discriminate V. injection V as <-.
    unfold app_point, proto. rewrite !asked_cons. cbn [is_chal]. lia.
  Qed.
  Lemma pp_fwd pf (g : gens G) tr X Y Z tr' c : says tr c -> pp_verify H pf g tr X Y Z = Ok tr' -> gens_ok g ->
    (decodes X /\ decodes Y /\ decodes Z /\ decodes (pp_alpha pf) /\ decodes (pp_beta pf) /\ decodes (pp_delta pf)) /\
    zeros (pp_eqs c pf g X Y Z) /\ asked tr' = S (asked tr).
  Proof.
    intros S V Hg. pose proof (pp_asked _ _ _ _ _ _ _ V) as A. destruct (pp_z pf) as [[[[z1 z2] z3] z4] z5] eqn:Ez.
    destruct (pp_inv _ _ _ _ _ _ _ _ _ _ _ _ _ V Ez) as (Xg & DX & P1 & P2 & P3). rewrite (S _ A) in P1, P2, P3.
    destruct (pp_check_inv _ _ _ _ _ _ P1 Hg) as (b1 & Pg1 & Xg1 & _ & _ & D1 & D2 & Q1). destruct (pp_check_inv _ _ _ _ _ _ P2 Hg) as (b2 & Pg2 & Yg & _ & _ & D3 & D4 & Q2).
    destruct (pp_check_inv _ _ _ _ _ _ P3 eq_refl) as (b3 & Pg3 & Zg & _ & _ & D5 & D6 & Q3).
    apply dec_some in DX. apply dec_some in D1. apply dec_some in D2. apply dec_some in D3. apply dec_some in D4. apply dec_some in D5. apply dec_some in D6.
    destruct DX as [DX E0], D1 as [D1 E1], D2 as [_ E2], D3 as [D3 E3], D4 as [D4 E4], D5 as [D5 E5], D6 as [D6 E6].
    split; [tauto|]. split; [|exact A]. unfold pp_eqs. rewrite Ez, !zeros_cons, E1, E2, E3, E4, E5, E6. rewrite E0 in E2. subst Xg1.
    unfold ped1, ped in Q3. cbn [gG gh lincomb] in Q3. rewrite !minus_0. conj; [| | |apply zeros_nil].
    - rewrite <- Q1. apply gadd_comm.
    - rewrite <- Q2. apply gadd_comm.
    - rewrite gadd_comm, Q3. module_red; ring.
  Qed.
  Lemma pp_check_bwd (P X : E) c (g : gens G) z1 z2 : gens_ok g -> gn g = 1%nat -> decodes P -> decodes X -> gadd (point P) (gmul c (point X)) = ped1 g z1 z2 ->
    pp_check P X c g z1 z2 = Ok true.
  Proof. intros Hg N1 DP DX Q. unfold pp_check. rewrite (unpack_dec _ DP), (unpack_dec _ DX), (commit1_ok _ _ _ Hg N1). cbn [bind]. now rewrite (proj2 (eeqb_iff _ _) Q). Qed.
  Lemma pp_bwd pf (g : gens G) tr X Y Z c : says tr c -> gens_ok g -> gn g = 1%nat ->
    decodes X -> decodes Y -> decodes Z -> decodes (pp_alpha pf) -> decodes (pp_beta pf) -> decodes (pp_delta pf) ->
    zeros (pp_eqs c pf g X Y Z) -> exists tr', pp_verify H pf g tr X Y Z = Ok tr'.
  Proof.
    intros S Hg N1 DX DY DZ Da Db Dd Zs. unfold pp_eqs in Zs. unfold pp_verify, challenge. destruct (pp_z pf) as [[[[z1 z2] z3] z4] z5].
    rewrite !zeros_cons, !minus_0 in Zs. destruct Zs as (Z1 & Z2 & Z3 & _). rewrite S by (unfold app_point, proto; rewrite !asked_cons; cbn [is_chal]; lia).
    rewrite (pp_check_bwd _ _ _ _ _ _ Hg N1 Da DX Z1). cbn [bind]. rewrite (pp_check_bwd _ _ _ _ _ _ Hg N1 Db DY Z2). cbn [bind].
    rewrite (unpack_dec _ DX). cbn [bind]. rewrite pp_check_bwd; try assumption; try reflexivity; [cbn [bind]; eexists; reflexivity|].
    rewrite Z3. unfold ped1, ped. cbn [gG gh lincomb]. module_red; ring.
  Qed.

  (** * the dot-product proof and the sum-check *)
  Lemma dp_fwd pf (g1 gN : gens G) tr a CX CY tr' c : says tr c -> dp_verify H pf g1 gN tr a CX CY = Ok tr' -> gens_ok g1 ->
    gn gN = length a /\ dp_wf (length a) pf /\ decodes CX /\ decodes CY /\ zeros (dp_eqs c pf g1 gN a (point CX) (point CY)) /\ asked tr' = S (asked tr).
  Proof.
    intros S V Hg. pose proof (dp_asked 1 0 H ltac:(lia) _ _ _ _ _ _ _ _ V) as A. destruct (dp_inv _ _ _ _ _ _ _ _ _ V Hg) as (Lz & NN & b & X & D & Y & B & _ & DX & DD & DY & DB & Q1 & Q2).
    rewrite (S _ A) in Q1, Q2. apply dec_some in DX. apply dec_some in DD. apply dec_some in DY. apply dec_some in DB.
    destruct DX as [DX <-], DD as [DD <-], DY as [DY <-], DB as [DB <-]. unfold dp_wf, dp_eqs. rewrite !zeros_cons, !minus_0. conj; try assumption. apply zeros_nil.
  Qed.
  Lemma dp_bwd pf (g1 gN : gens G) tr a CX CY c : says tr c -> gens_ok g1 -> gn g1 = 1%nat -> gens_ok gN -> gn gN = length a -> dp_wf (length a) pf ->
    decodes CX -> decodes CY -> zeros (dp_eqs c pf g1 gN a (point CX) (point CY)) -> exists tr', dp_verify H pf g1 gN tr a CX CY = Ok tr'.
  Proof.
    intros S Hg N1 HN NN (Lz & DD & DB) DX DY Z. unfold dp_eqs in Z. rewrite !zeros_cons, !minus_0 in Z. destruct Z as (Z1 & Z2 & _).
    unfold dp_verify, challenge. rewrite NN, Nat.eqb_refl, N1. cbn [Nat.eqb]. rewrite (unpack_dec _ DX), (unpack_dec _ DD). cbn [bind].
    rewrite commit_ok by (try assumption; congruence). cbn [bind]. unfold compute_dotproduct. rewrite Lz, Nat.eqb_refl. cbn [bind].
    rewrite (unpack_dec _ DY), (unpack_dec _ DB). cbn [bind]. rewrite (commit1_ok _ _ _ Hg N1). cbn [bind].
    rewrite S by (unfold app_point, proto; rewrite !asked_cons; cbn [is_chal]; rewrite asked_scalars, !asked_cons; cbn [is_chal]; lia).
    rewrite (geqb_eq _ _ Z1), (geqb_eq _ _ Z2). cbn [andb]. eexists. reflexivity.
  Qed.

  Lemma zk_vector_length n r w0 w1 : length (zk_vector (K:=K) n r w0 w1) = n.
  Proof.
    destruct n as [|n]; [reflexivity|]. unfold zk_vector. rewrite map2_length. cbn [length]. rewrite repeat_length.
    assert (P : forall m x c, length (powers (K:=K) x c m) = m) by (induction m as [|m IH]; intros; cbn [powers length]; congruence). rewrite P. lia.
  Qed.
  Lemma zk_fwd d (g1 gN : gens G) : gens_ok g1 -> gn gN = (d + 1)%nat -> forall polys evals proofs cc cs tr rs tr', answers H tr cs -> (4 * length polys <= length cs)%nat -> decodes cc ->
    length evals = length polys ->
    zk_rounds H polys evals proofs cc d g1 gN tr = Ok (rs, tr') ->
    (length polys <= length proofs)%nat /\ Forall decodes polys /\ Forall decodes evals /\ Forall (dp_wf (d + 1)) (firstn (length polys) proofs) /\
    rs = round_point (length polys) cs /\ zeros (zk_eqs cs polys evals proofs (point cc) d g1 gN) /\ asked tr' = (asked tr + 4 * length polys)%nat.
  Proof.
    intros Hg HN. induction polys as [|P polys IH]; intros evals proofs cc cs tr rs tr' An Lc Dc Le X.
    - injection X as <- <-. cbn [length zk_eqs round_point firstn]. destruct evals; [|discriminate Le]. conj; try constructor; try lia. apply zeros_nil.
    - destruct evals as [|e evals]; [discriminate Le|]. cbn [length] in *. cbn [zk_rounds] in X. unfold challenge in X. rewrite idx_0 in X. cbn [bind tl] in X.
      set (t1 := MChal "challenge_nextround" :: _) in X. set (t2 := MChal "combine_two_claims_to_one" :: app_point _ _ _) in X. set (t3 := MChal "combine_two_claims_to_one" :: t2) in X.
      assert (A1 : asked t1 = (asked tr + 1)%nat) by (unfold t1, app_point; rewrite !asked_cons; cbn [is_chal]; lia).
      assert (A2 : asked t2 = (asked tr + 2)%nat) by (unfold t2, app_point; rewrite !asked_cons, A1; cbn [is_chal]; lia).
      assert (A3 : asked t3 = (asked tr + 3)%nat) by (unfold t3; rewrite !asked_cons, A2; cbn [is_chal]; lia).
      rewrite (An t1 0%nat), (An t2 1%nat), (An t3 2%nat) in X by lia. rewrite (unpack_dec _ Dc) in X. cbn [bind] in X.
      destruct (unpack e) as [Ce| |] eqn:Ee; try discriminate X. cbn [bind] in X. apply unpack_inv, dec_some in Ee. destruct Ee as [De <-].
      rewrite msm2 in X. cbn [bind] in X. destruct proofs as [|pf proofs]; [discriminate X|]. rewrite idx_0 in X. cbn [bind tl] in X.
      destruct (dp_verify H _ g1 gN t3 _ P _) as [t4| |] eqn:Ed; try discriminate X.
      destruct (zk_rounds H polys evals proofs e d g1 gN t4) as [[rs1 t5]| |] eqn:Er; try discriminate X. cbn [bind] in X. injection X as <- <-.
      assert (S4 : says t3 (nth 3 cs 0)) by (intros l Al; apply An; lia).
      destruct (dp_fwd _ _ _ _ _ _ _ _ _ S4 Ed Hg) as (_ & W & DP & _ & Z & A4). rewrite zk_vector_length in W. rewrite point_cmp in Z.
      destruct (IH evals proofs e (skipn 4 cs) t4 rs1 t5) as (I1 & I2 & I3 & I4 & I5 & I6 & I7); try assumption; [apply (answers_skip H tr); [exact An|lia]|rewrite skipn_length; lia|lia|].
      cbn [length firstn round_point zk_eqs]. rewrite I5. conj; try (apply Forall_cons; assumption); try reflexivity; try lia. apply zeros_app. split; assumption.
  Qed.
  Lemma zk_bwd d (g1 gN : gens G) : gens_ok g1 -> gn g1 = 1%nat -> gens_ok gN -> gn gN = (d + 1)%nat -> forall polys evals proofs cc cs tr, answers H tr cs -> (4 * length polys <= length cs)%nat -> decodes cc ->
    length evals = length polys -> (length polys <= length proofs)%nat -> Forall decodes polys -> Forall decodes evals -> Forall (dp_wf (d + 1)) (firstn (length polys) proofs) ->
    zeros (zk_eqs cs polys evals proofs (point cc) d g1 gN) ->
    exists tr', zk_rounds H polys evals proofs cc d g1 gN tr = Ok (round_point (length polys) cs, tr').
  Proof.
    intros Hg N1 HG HN. induction polys as [|P polys IH]; intros evals proofs cc cs tr An Lc Dc Le Lp FP FE FD Z.
    - cbn [zk_rounds length round_point]. eexists. reflexivity.
    - destruct evals as [|e evals]; [discriminate Le|]. destruct proofs as [|pf proofs]; [cbn in Lp; lia|]. cbn [length] in *. cbn [zk_rounds]. unfold challenge. rewrite idx_0. cbn [bind tl].
      set (t1 := MChal "challenge_nextround" :: _). set (t2 := MChal "combine_two_claims_to_one" :: app_point _ _ _). set (t3 := MChal "combine_two_claims_to_one" :: t2).
      assert (A1 : asked t1 = (asked tr + 1)%nat) by (unfold t1, app_point; rewrite !asked_cons; cbn [is_chal]; lia).
      assert (A2 : asked t2 = (asked tr + 2)%nat) by (unfold t2, app_point; rewrite !asked_cons, A1; cbn [is_chal]; lia).
      assert (A3 : asked t3 = (asked tr + 3)%nat) by (unfold t3; rewrite !asked_cons, A2; cbn [is_chal]; lia).
      rewrite (An t1 0%nat), (An t2 1%nat), (An t3 2%nat) by lia. inversion FP as [|? ? DP FP']; subst. inversion FE as [|? ? De FE']; subst. cbn [firstn] in FD. inversion FD as [|? ? DD FD']; subst.
      rewrite (unpack_dec _ Dc), (unpack_dec _ De). cbn [bind]. rewrite msm2. cbn [bind]. rewrite idx_0. cbn [bind].
      cbn [zk_eqs] in Z. apply zeros_app in Z. destruct Z as [Z1 Z2].
      assert (S4 : says t3 (nth 3 cs 0)) by (intros l Al; apply An; lia).
      set (a := zk_vector (d + 1) (nth 0 cs 0) (nth 1 cs 0) (nth 2 cs 0)) in *. assert (La : length a = (d + 1)%nat) by apply zk_vector_length.
      set (T := gadd (gmul (nth 1 cs 0) (point cc)) (gmul (nth 2 cs 0) (point e))) in *.
      destruct (dp_bwd pf g1 gN t3 a P (cmp T) (nth 3 cs 0) S4 Hg N1 HG) as [t4 E4]; try assumption; try congruence; [apply dec_cmp|now rewrite point_cmp|].
      rewrite E4. destruct (dp_fwd _ _ _ _ _ _ _ _ _ S4 E4 Hg) as (_ & _ & _ & _ & _ & A4).
      destruct (IH evals proofs e (skipn 4 cs) t4) as [t5 E5]; try assumption; try lia; [apply (answers_skip H tr); [exact An|lia]|rewrite skipn_length; lia|].
      rewrite E5. cbn [bind round_point]. eexists. reflexivity.
  Qed.

  (** * the logarithmic proof *)
  Lemma map_unpack (l : list E) : Forall decodes l -> mapM unpack l = Ok (map point l).
  Proof. induction l as [|e l IH]; intro F; [reflexivity|]. inversion F as [|? ? De F']; subst. cbn [mapM map]. rewrite (unpack_dec _ De). cbn [bind]. rewrite (IH F'). reflexivity. Qed.
  Lemma map_unpack_inv (l : list E) : forall Ps, mapM unpack l = Ok Ps -> Forall decodes l /\ Ps = map point l.
  Proof.
    induction l as [|e l IH]; intros Ps X; [injection X as <-; split; [constructor|reflexivity]|]. cbn [mapM] in X.
    destruct (unpack e) as [P| |] eqn:Ee; try discriminate X. cbn [bind] in X. destruct (mapM unpack l) as [Q| |] eqn:El; try discriminate X. cbn [bind] in X. injection X as <-.
    destruct (IH _ eq_refl) as [F ->]. apply unpack_inv, dec_some in Ee. destruct Ee as [De <-]. split; [now constructor|reflexivity].
  Qed.

  Lemma lp_iff k stream g (pf : lproof E) a CX CY tr cs : dgens_new (2 ^ k) stream = Ok g -> length a = (2 ^ k)%nat -> answers H tr cs -> (k + 2 <= length cs)%nat -> decodes CX ->
    length (bp_L (lp_bullet pf)) = k -> length (bp_R (lp_bullet pf)) = k ->
    let us := firstn k (skipn 1 cs) in
    ((exists tr', lp_verify H pf (2 ^ k) g tr a CX CY = Ok tr') <->
     ((k < 32)%nat /\ (forall u, In u us -> u <> 0) /\ lp_wf k pf /\ decodes CY /\
      zeros (lp_eqs (nth 0 cs 0) us (nth (1 + k) cs 0) pf g a (point CX) (point CY)))) /\
    (forall tr', lp_verify H pf (2 ^ k) g tr a CX CY = Ok tr' -> asked tr' = (asked tr + (k + 2))%nat).
  Proof.
    intros Eg La An Lc DX LL LR us. rewrite dgens_new_ok in Eg. injection Eg as <-. set (n := (2 ^ k)%nat) in *. set (r := nth 0 cs 0).
    unfold lp_verify. cbn [dgn dgN dg1]. rewrite La, !Nat.eqb_refl.
    unfold challenge. set (tr1 := app_scalars "a" a _).
    assert (A1 : asked (MChal "r" :: tr1) = (asked tr + 1)%nat) by (unfold tr1; rewrite asked_cons, asked_scalars; unfold app_point, proto; rewrite !asked_cons; cbn [is_chal]; lia).
    rewrite (An (MChal "r" :: tr1) 0%nat) by lia. fold r. rewrite gens_scale_ok by reflexivity. cbn [bind gn gG gh map]. rewrite (unpack_dec _ DX). cbn [bind].
    destruct (lp_bullet pf) as [Ls Rs] eqn:Eb. cbn [bp_L bp_R] in LL, LR.
    assert (Lcb : length (combine Ls Rs) = k) by (rewrite combine_length; lia).
    destruct (lr_challenges (2 ^ 0 + 2) 0 ltac:(lia) H (combine Ls Rs) (MChal "r" :: tr1) (skipn 1 cs)) as [C1 C2]; [now apply (answers_skip H tr)|rewrite skipn_length; lia|]. rewrite Lcb in C1, C2. fold us in C1.
    assert (Lu : length us = k) by (apply firstn_length_le; rewrite skipn_length; lia).
    destruct (bullet_challenges H (combine Ls Rs) (MChal "r" :: tr1)) as [us' tr2] eqn:Ech. cbn [fst snd] in C1, C2. subst us'.
    set (Q := gmul r (stream n)).
    (* either a condition on the challenges fails, or the equation remains *)
    destruct (unpack CY) as [PY| |] eqn:EY.
    2,3: split; [split; [intros [t X]; discriminate X|intros (_ & _ & _ & D & _); rewrite (unpack_dec _ D) in EY; discriminate EY]|intros t X; discriminate X].
    apply unpack_inv, dec_some in EY. destruct EY as [DY <-]. cbn [bind]. unfold bullet_verify.
    destruct (le_lt_dec 32 k) as [B|B].
    { unfold verification_scalars. cbn [bp_L]. rewrite LL. rewrite (proj2 (Nat.leb_le 32 k) B). cbn [bind].
      split; [split; [intros [t X]; discriminate X|intros (Y & _); lia]|intros t X; discriminate X]. }
    destruct (feqb_spec K (fprod us) 0) as [Z|Z].
    { assert (V : verification_scalars H (MkBP Ls Rs) n (MChal "r" :: tr1) = Panic).
      { unfold verification_scalars. cbn [bp_L bp_R]. rewrite LL, (proj2 (Nat.leb_gt 32 k) B). unfold pow2. fold n. rewrite Nat.eqb_refl. cbn [negb]. rewrite Ech. unfold batch_inv.
        destruct (feqb_spec K (fprod us) 0); [reflexivity|contradiction]. }
      rewrite V. cbn [bind]. split; [split; [intros [t X]; discriminate X|intros (_ & Y & _); exfalso; now apply (BulletProofs.fprod_nz us Y)]|intros t X; discriminate X]. }
    pose proof (AgmLp.fprod_nz us Z) as Nz.
    pose proof (verification_scalars_ok H (MkBP Ls Rs) (MChal "r" :: tr1) us tr2) as V. cbn [bp_L bp_R] in V. rewrite LL in V. fold n in V. rewrite (V B Ech Lu Nz). clear V. cbn [bind bp_L bp_R].
    destruct (mapM unpack Ls) as [PL| |] eqn:EL.
    2,3: split; [split; [intros [t X]; discriminate X|intros (_ & _ & (_ & D & _) & _); rewrite Eb in D; cbn [bp_L] in D; rewrite (map_unpack _ D) in EL; discriminate EL]|intros t X; discriminate X].
    destruct (mapM unpack Rs) as [PR| |] eqn:ER.
    2,3: split; [split; [intros [t X]; discriminate X|intros (_ & _ & (_ & _ & D & _) & _); rewrite Eb in D; cbn [bp_R] in D; rewrite (map_unpack _ D) in ER; discriminate ER]|intros t X; discriminate X].
    apply map_unpack_inv in EL. destruct EL as [DL ->]. apply map_unpack_inv in ER. destruct ER as [DR ->]. cbn [bind].
    rewrite msm_ok by (rewrite !tab_length; lia). cbn [bind]. unfold inner_product. rewrite tab_length, La, Nat.eqb_refl. cbn [bind].
    rewrite msm_ok by (rewrite !app_length, !map_length; cbn [length]; lia). cbn [bind]. rewrite !lincomb_app by (rewrite !map_length; lia).
    set (tr3 := app_point "beta" _ _). assert (A3 : asked (MChal "c" :: tr3) = (asked tr + S (S k))%nat) by (rewrite asked_cons; unfold tr3, app_point; rewrite !asked_cons; cbn [is_chal]; lia).
    rewrite (An (MChal "c" :: tr3) (1 + k)%nat) by lia. set (c := nth (1 + k) cs 0).
    destruct (unpack (lp_beta pf)) as [Pb| |] eqn:EB.
    2,3: split; [split; [intros [t X]; discriminate X|intros (_ & _ & (_ & _ & _ & _ & D) & _); rewrite (unpack_dec _ D) in EB; discriminate EB]|intros t X; discriminate X].
    destruct (unpack (lp_delta pf)) as [Pd| |] eqn:ED.
    2,3: split; [split; [intros [t X]; discriminate X|intros (_ & _ & (_ & _ & _ & D & _) & _); rewrite (unpack_dec _ D) in ED; discriminate ED]|intros t X; discriminate X].
    apply unpack_inv, dec_some in EB. destruct EB as [DB <-]. apply unpack_inv, dec_some in ED. destruct ED as [DD <-]. cbn [bind]. rewrite idx_0. cbn [bind]. cbv zeta.
    match goal with |- context [eeqb E (cmp ?l) (cmp ?r)] => set (lhs := l); set (rhs := r) end.
    assert (EQS : zeros (lp_eqs r us c pf (MkDGens n (MkGens n (tab n stream) (stream (n + 1)%nat)) (MkGens 1 [stream n] (stream (n + 1)%nat))) a (point CX) (point CY)) <-> lhs = rhs).
    { unfold lp_eqs. rewrite zeros_cons, minus_0. cbn [dgN dg1 gG gh nth]. rewrite Eb, La. cbn [bp_L bp_R]. fold Q.
      match goal with |- (?l = ?r0 /\ _) <-> _ => replace l with lhs; [replace r0 with rhs|] end.
      - split; [tauto|]. intro X. split; [exact X|apply zeros_nil].
      - reflexivity.
      - unfold lhs. f_equal. f_equal. f_equal. f_equal. f_equal. f_equal. cbn [lincomb]. module_red; ring. }
    rewrite EQS. unfold lp_wf. rewrite Eb. cbn [bp_L bp_R].
    destruct (eeqb E (cmp lhs) (cmp rhs)) eqn:Eq.
    - apply eeqb_iff in Eq. split; [|intros t X; injection X as <-; rewrite A3; lia]. split; [intros _; conj; assumption|]. intros _. eexists. reflexivity.
    - split; [|intros t X; discriminate X]. split; [intros [t X]; discriminate X|]. intros (_ & _ & _ & _ & X). apply eeqb_iff in X. congruence.
  Qed.
End EQ.
